(** The goroutines of a ReadLine: the key loop (main.go:211-249) and the goroutine of the
    terminal that calls the resize callback (main.go:175-181, tty8.go:25-36,
    tty10/main.go:27-41), with the editor's mutex.

    Simplifications: the steps of the two threads interleave (no weak memory); what is
    shared is the buffer; the clipboard does not change during a run; one goroutine
    makes the callbacks, one after the other, as in tty8.go and tty10. *)
From Verif Require Import Base Utf8 Moji Color Prompt Buffer Commands KeyMap Session.

(** A piece of code cut into steps on the shared buffer.  How the real code divides into
    atomic steps is left open: see [implements]. *)
Inductive code (A : Type) : Type :=
| Ret (a : A)
| Act (f : buf -> option (buf * code A)).
Arguments Ret {A} a.
Arguments Act {A} f.

(** The code run alone. *)
Fixpoint alone {A} (c : code A) (s : buf) : option (buf * A) :=
  match c with
  | Ret a => Some (s, a)
  | Act f => match f s with None => None | Some (s', c') => alone c' s' end
  end.

(** What the loop body (main.go:216-248) comes to: it waits for a key (in the mode of the
    command that waits) or ReadLine returns. *)
Inductive ending := Wait (m : mode) | Return (t : str) (e : rerr).
Definition sess_of (p : buf * ending) : sess :=
  match snd p with Wait m => Running m (fst p) | Return t e => Finished (fst p) t e end.

(** The code between two key reads, for a key and for a read error inside a command, and
    the code of the callback between Lock and Unlock. *)
Record impl := mkImpl {
  on_key : mode -> str -> code ending;
  on_err : mode -> code ending;
  on_size : Z -> code unit
}.

(** [I] is some division into steps of the code modelled in Session.v. *)
Definition implements (S : scfg) (I : impl) : Prop :=
  (forall m k s, option_map sess_of (alone (on_key I m k) s) = step S (EKey k) (Running m s)) /\
  (forall m s, m <> MNormal -> option_map sess_of (alone (on_err I m) s) = step S EKeyErr (Running m s)) /\
  (forall w s, option_map fst (alone (on_size I w) s) = on_resize S w s).

(** Where the key loop is. *)
Inductive loop :=
| LStart (c : code unit)     (* main.go:188-210, before the loop, mutex not taken *)
| LFlush                     (* main.go:212, buffer.go:244: Flush, mutex not taken *)
| LRead                      (* buffer.go:245: inside Tty.GetKey *)
| LLock (k : str)            (* main.go:216 *)
| LBody (c : code ending)    (* main.go:217-248, mutex held *)
| LInner (m : mode)          (* gommand.go:319, isearch.go:53: a command waits for a key *)
| LEnd (t : str) (e : rerr). (* ReadLine returned *)

(** Where the goroutine of the terminal is. *)
Inductive sizer :=
| ZIdle
| ZLock (w : Z)              (* main.go:176 *)
| ZBody (c : code unit).     (* main.go:177-179 *)

Inductive thread := Loop | Sizer.

Record config := mkConf { shared : buf; mutex : option thread; lp : loop; sz : sizer }.

(** What the environment does: a key arrives, a read fails, the size changes. *)
Inductive label := Key (k : str) | KeyErr | Size (w : Z) | Internal.

Section WithImpl.
Variable I : impl.

(** One step; the result [None] is a crash. *)
Inductive cstep : config -> label -> option config -> Prop :=
| S_start_step s mu f s' c' z : f s = Some (s', c') ->
    cstep (mkConf s mu (LStart (Act f)) z) Internal (Some (mkConf s' mu (LStart c') z))
| S_start_crash s mu f z : f s = None -> cstep (mkConf s mu (LStart (Act f)) z) Internal None
| S_start_end s mu z : cstep (mkConf s mu (LStart (Ret tt)) z) Internal (Some (mkConf s mu LFlush z))
| S_flush s mu z : cstep (mkConf s mu LFlush z) Internal (Some (mkConf s mu LRead z))
| S_key s mu z k : cstep (mkConf s mu LRead z) (Key k) (Some (mkConf s mu (LLock k) z))
| S_err s mu z : cstep (mkConf s mu LRead z) KeyErr (Some (mkConf s mu (LEnd [] RKeyError) z))
| S_lock s z k : cstep (mkConf s None (LLock k) z) Internal (Some (mkConf s (Some Loop) (LBody (on_key I MNormal k)) z))
| S_body s mu f s' c' z : f s = Some (s', c') ->
    cstep (mkConf s mu (LBody (Act f)) z) Internal (Some (mkConf s' mu (LBody c') z))
| S_body_crash s mu f z : f s = None -> cstep (mkConf s mu (LBody (Act f)) z) Internal None
| S_unlock s mu z : cstep (mkConf s mu (LBody (Ret (Wait MNormal))) z) Internal (Some (mkConf s None LFlush z))
| S_wait s mu m z : m <> MNormal ->
    cstep (mkConf s mu (LBody (Ret (Wait m))) z) Internal (Some (mkConf s mu (LInner m) z))
| S_inner_key s mu m z k : cstep (mkConf s mu (LInner m) z) (Key k) (Some (mkConf s mu (LBody (on_key I m k)) z))
| S_inner_err s mu m z : cstep (mkConf s mu (LInner m) z) KeyErr (Some (mkConf s mu (LBody (on_err I m)) z))
| S_return s mu t e z : cstep (mkConf s mu (LBody (Ret (Return t e))) z) Internal (Some (mkConf s None (LEnd t e) z))
| S_size s mu l w : cstep (mkConf s mu l ZIdle) (Size w) (Some (mkConf s mu l (ZLock w)))
| S_size_lock s l w : cstep (mkConf s None l (ZLock w)) Internal (Some (mkConf s (Some Sizer) l (ZBody (on_size I w))))
| S_size_body s mu l f s' c' : f s = Some (s', c') ->
    cstep (mkConf s mu l (ZBody (Act f))) Internal (Some (mkConf s' mu l (ZBody c')))
| S_size_crash s mu l f : f s = None -> cstep (mkConf s mu l (ZBody (Act f))) Internal None
| S_size_unlock s mu l : cstep (mkConf s mu l (ZBody (Ret tt))) Internal (Some (mkConf s None l ZIdle)).

(** Executions, with their labels. *)
Inductive exec_to : config -> list label -> option config -> Prop :=
| X_nil c : exec_to c [] (Some c)
| X_step c ls c1 l o : exec_to c ls (Some c1) -> cstep c1 l o -> exec_to c (ls ++ [l]) o.

End WithImpl.

(** The key loop about to read its first key, nothing else going on. *)
Definition ready (s : buf) : config := mkConf s None LFlush ZIdle.

(** main.go:188-210 in steps; [w] is what Size returned. *)
Definition start_code (S : scfg) (default : str) (w : Z) : code unit :=
  let C := base S in
  let '(t, pw) := callPromptWriter (cE C) (prompt C) in
  Act (fun s => Some (set_termw s w,
  Act (fun s => Some (set_topc (emit s [TPrompt t]) pw,
  Act (fun s => Some (if termw s - 3 <=? topc s then set_topc (emit s [TNewline]) 0 else s,
  Act (fun s => let* (s', _) := InsertString C s 0 default in Some (s',
  Act (fun s => Some (if zlen (cells s) <? cursor s then set_cursor s (zlen (cells s)) else s,
  Act (fun s => let* s' := RepaintAfterPrompt C s in Some (s',
  Act (fun s => Some (emit s [TCursorOn; TFlush], Ret tt)))))))))))))).

(** The buffer when Tty.Open is called (main.go:168-173). *)
Definition new_buffer (S : scfg) (cur : Z) (cl : option str) : buf :=
  mkBuf [] None 0 cur 0 0 (zlen (hist (base S))) [] [] [] cl [].
Definition opened (S : scfg) (default : str) (cur w : Z) (cl : option str) : config :=
  mkConf (new_buffer S cur cl) None (LStart (start_code S default w)) ZIdle.

(** The finest division this file needs, as an example: the callback line by line
    (main.go:177-179), a command in one step. *)
Definition ending_of (x : sess) : buf * ending :=
  match x with Running m s => (s, Wait m) | Finished s t e => (s, Return t e) end.
Definition by_lines (S : scfg) : impl := mkImpl
  (fun m k => Act (fun s => let* x := step S (EKey k) (Running m s) in
                            let '(s', r) := ending_of x in Some (s', Ret r)))
  (fun m => Act (fun s => let* x := step S EKeyErr (Running m s) in
                          let '(s', r) := ending_of x in Some (s', Ret r)))
  (fun w => Act (fun s => Some (set_termw s w,
            Act (fun s => Some (ResetViewStart (base S) s,
            Act (fun s => let* s' := RepaintLastLine (base S) s in Some (s', Ret tt))))))).
