(** An Editor before ReadLine: fields that are nil get default values. *)
From Verif Require Import Base Utf8 Moji Color Prompt Buffer Commands KeyMap Session.

(** io.Writer values: os.Stdout, one that is a *bufio.Writer, any other. *)
Inductive writer := Stdout | WBufio (n : Z) | WOther (n : Z).
(** *bufio.Writer values: the user's n-th, or a new one around a writer (bufio.NewWriter). *)
Inductive bufio := Theirs (n : Z) | NewWriter (w : writer).
(** ITty values: the user's n-th, or tty8.go's _Tty. *)
Inductive itty := TtyUser (n : Z) | TtyDefault.

(** main.go:40-56 (Editor); a nil field is None.  Simplified: a history is the list of its
    entries, a predictor a function of history, text and cursor; PromptWriter is what it
    writes; LineFeedWriter and the mutex are left out. *)
Record editor := mkEditor {
  e_keymap : keymap;
  e_history : option (list str);
  e_writer : option writer;
  e_out : option bufio;
  e_prompt : option str;
  e_default : str;
  e_cursor : Z;
  e_tty : option itty;
  e_coloring : option coloring;
  e_cycling : bool;
  e_pcolor : str * str;
  e_predictor : option (list str -> str -> Z -> str)
}.

(** main.go:131-154 (Init), the part about Writer and Out: 132-141.  A Writer that is a
    *bufio.Writer is used as it is. *)
Definition init_writer (w : option writer) : writer := match w with Some w => w | None => Stdout end.
Definition init_out (w : writer) (o : option bufio) : bufio :=
  match o with
  | Some o => o
  | None => match w with WBufio n => Theirs n | _ => NewWriter w end
  end.
(** main.go:131-154 *)
Definition Init (e : editor) : editor :=
  let w := init_writer (e_writer e) in
  mkEditor (e_keymap e)
    (Some match e_history e with Some h => h | None => [] end)
    (Some w)
    (Some (init_out w (e_out e)))
    (e_prompt e) (e_default e) (e_cursor e)
    (Some match e_tty e with Some t => t | None => TtyDefault end)
    (Some match e_coloring e with Some c => c | None => monoChrome end)
    (e_cycling e) (e_pcolor e)
    (Some match e_predictor e with Some p => p | None => predictByHistory end).

(** main.go:161-249 (ReadLine): Init, then the session of Session.v with what the fields hold;
    None when a field is still nil (a nil dereference), when the session panics. *)
Definition ReadLine (E : env) (upper : str -> str) (gm : keymap) (e : editor) (w : Z) (cl : option str) (es : list event) : option (editor * sess) :=
  let e := Init e in
  let* h := e_history e in
  let* c := e_coloring e in
  let* p := e_predictor e in
  let* o := e_out e in
  let* t := e_tty e in
  let* x := readline (mkScfg (mkCfg E h (e_cycling e) (fst (e_pcolor e)) (snd (e_pcolor e)) (p h) (e_prompt e) c upper) (e_keymap e) gm)
              (e_default e) (e_cursor e) w cl es in
  Some (e, x).

(** What a program does with the fields Writer and Out between calls. *)
Inductive use := SetWriter (w : option writer) | SetOut (o : option bufio) | CallInit | CallReadLine.
Definition use_one (u : use) (f : option writer * option bufio) : option writer * option bufio :=
  match u with
  | SetWriter w => (w, snd f)
  | SetOut o => (fst f, o)
  | CallInit | CallReadLine => let w := init_writer (fst f) in (Some w, Some (init_out w (snd f)))
  end.
(** The fields after all that, and where each ReadLine wrote. *)
Fixpoint use_all (us : list use) (f : option writer * option bufio) : list (option bufio) :=
  match us with
  | [] => []
  | u :: us' => let f' := use_one u f in match u with CallReadLine => [snd f'] | _ => [] end ++ use_all us' f'
  end.
