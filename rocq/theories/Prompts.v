(** Prompts that change between two calls of the prompt writer, and a terminal that cannot
    be written to. *)
From Verif Require Import Base Utf8 Moji Color Prompt Buffer Commands KeyMap Session.

(** main.go:47 (PromptWriter): the same editor when the writer now writes [p]. *)
Definition with_prompt (S : scfg) (p : option str) : scfg :=
  let C := base S in
  mkScfg (mkCfg (cE C) (hist C) (cycling C) (pcolor0 C) (pcolor1 C) (predictor C) p (ccol C) (upper C)) (kmap S) (gmap S).

(** main.go:194-198: writing the first prompt fails with an error whose text is [msg].  What
    is written afterwards (main.go:197 on) does not reach the terminal either, as bufio.Writer
    keeps its error; the tokens record what would have been written. *)
Definition start_failed (S : scfg) (msg default : str) (cur w : Z) (cl : option str) : option sess :=
  let C := base S in
  let s0 := mkBuf [] None 0 cur w 0 (zlen (hist C)) [] [] [] cl [] in
  let '(t, _) := callPromptWriter (cE C) (prompt C) in
  let s2 := set_topc (emit s0 [TPrompt t; TPrompt (msg ++ [10; 36; 32])]) 2 in
  let* (s3, _) := InsertString C s2 0 default in
  let s4 := if zlen (cells s3) <? cursor s3 then set_cursor s3 (zlen (cells s3)) else s3 in
  let* s5 := RepaintAfterPrompt C s4 in
  Some (Running MNormal (emit s5 [TCursorOn; TFlush])).

(** The first prompt: written as usual, or not. *)
Inductive first_prompt := Shown (p : option str) | Failed (p : option str) (msg : str).

Definition start_prompt (S : scfg) (f : first_prompt) (default : str) (cur w : Z) (cl : option str) : option sess :=
  match f with
  | Shown p => start (with_prompt S p) default cur w cl
  | Failed p msg => start_failed (with_prompt S p) msg default cur w cl
  end.

(** Every event with what the prompt writer would write if it were called during it.  A
    command or a resize calls it at most once (repaints.go:107-111,115-129), and neither
    looks at the error of writing it. *)
Fixpoint run_prompts (S : scfg) (pes : list (option str * event)) (x : sess) : option sess :=
  match pes with
  | [] => Some x
  | (p, e) :: pes' => let* x' := step (with_prompt S p) e x in run_prompts S pes' x'
  end.

Definition readline_prompts (S : scfg) (f : first_prompt) (default : str) (cur w : Z) (cl : option str)
    (pes : list (option str * event)) : option sess :=
  let* x := start_prompt S f default cur w cl in run_prompts S pes x.
