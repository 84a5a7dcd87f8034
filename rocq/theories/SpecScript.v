(** Vocabulary of the properties about user commands. *)
From Verif Require Import Base Utf8 Moji Color Prompt Buffer Commands KeyMap Session Spec Script.

Section Careful.
Variable C : cfg.
Notation E := (cE C).
Definition cursor_inside (s : buf) : Prop := 0 <= cursor s <= zlen (cells s).
(** What a call may be given: positions inside the line, text without tabs and joiners.
    [shown] says that cursor and view are in place: they are when the command is called,
    and again after a method that puts them in place ... *)
Definition shown_after (c : call) (shown : bool) : bool :=
  match c with
  | KReplace _ _ | KPut _ | KAfterPrompt | KRun _ | KResetView => true
  | KInsert _ _ | KDraw | KAll | KLastLine | KGotoHead | KWrite _ => shown
  | KDelete _ _ | KCursor _ | KKeep _ => false
  end.
(** ... the methods that draw only, and other commands, want them in place. *)
Definition call_ok (shown : bool) (c : call) (s : buf) : Prop :=
  match c with
  | KInsert pos t => 0 <= pos <= zlen (cells s) /\ simple_text E t
  | KDelete pos n => 0 <= pos
  | KReplace pos t => 0 <= pos <= cursor s /\ (shown = true \/ cursor_inside s) /\ simple_text E t
  | KPut t => (shown = true \/ cursor_inside s) /\ simple_text E t
  | KAfterPrompt | KResetView => shown = true \/ cursor_inside s
  | KDraw | KAll | KLastLine => shown = true
  | KGotoHead | KCursor _ | KWrite _ => True
  | KKeep n => False
  | KRun c => shown = true /\ c <> CSwapChar /\ c <> CQuotedInsert /\ c <> CISearchBackward /\ (forall f, c <> CUser f) /\
      (forall k, c = CSelfInsert k -> simple_text E k)
  end.
(** A command whose calls are all like that and that leaves cursor and view in place. *)
Fixpoint careful (shown : bool) (p : script) (s : buf) : Prop :=
  match p with
  | SReturn _ => shown = true
  | SPanic => False
  | SLook k => careful shown (k s) s
  | SDo c p' => call_ok shown c s /\ forall s', do_call C c s = Some s' -> careful (shown_after c shown) p' s'
  end.
End Careful.

(** An editor whose user commands are scripts. *)
Definition scripted (S : scfg) : Prop :=
  forall k f, LookupCommand (kmap S) (gmap S) k = CUser f -> exists p, forall s, f s = run_script (base S) p s.
(** ... careful ones, and whose own sources of text are simple (as in Spec.simple_editor). *)
Definition careful_editor (S : scfg) : Prop :=
  let C := base S in let E := cE C in
  (forall k f, LookupCommand (kmap S) (gmap S) k = CUser f ->
     exists p, (forall s, f s = run_script C p s) /\ forall s, in_bounds s -> careful C true p s) /\
  sane_widths E /\ (forall r, rw E r <= 8) /\ joins E 65533 = false /\ joins E 34 = false /\
  (pcolor0 C = [] \/ forall t c, simple_text E (predictor C t c)) /\ Forall (simple_text E) (hist C).
