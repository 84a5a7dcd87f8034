(** Careful user commands in lines with tabs (C53). *)
From Verif Require Import Base Utf8 Moji Color Prompt Buffer Commands KeyMap Session Spec SpecTabs Script SpecScript.

Section Careful.
Variable C : cfg.
Notation E := (cE C).
(** As SpecScript.call_ok, but text may have tabs, and SWAPCHAR may be called where it is
    safe; a call that edits finds a line of at most 800 characters. *)
Definition short (s : buf) : Prop := zlen (cells s) <= 800.
Definition tab_call_ok (shown : bool) (c : call) (s : buf) : Prop :=
  match c with
  | KInsert pos t => short s /\ 0 <= pos <= zlen (cells s) /\ ordinary_text E t
  | KDelete pos n => short s /\ 0 <= pos
  | KReplace pos t => short s /\ 0 <= pos <= cursor s /\ (shown = true \/ cursor_inside s) /\ ordinary_text E t
  | KPut t => short s /\ (shown = true \/ cursor_inside s) /\ ordinary_text E t
  | KAfterPrompt | KResetView => shown = true \/ cursor_inside s
  | KDraw | KAll | KLastLine => shown = true
  | KGotoHead | KCursor _ | KWrite _ => True
  | KKeep n => False
  | KRun c => short s /\ shown = true /\ (c = CSwapChar -> cursor s = zlen (cells s) -> cursor s < 2) /\
      c <> CQuotedInsert /\ c <> CISearchBackward /\ (forall f, c <> CUser f) /\
      (forall k, c = CSelfInsert k -> ordinary_text E k)
  end.
Fixpoint tab_careful (shown : bool) (p : script) (s : buf) : Prop :=
  match p with
  | SReturn _ => shown = true
  | SPanic => False
  | SLook k => tab_careful shown (k s) s
  | SDo c p' => tab_call_ok shown c s /\ forall s', do_call C c s = Some s' -> tab_careful (shown_after c shown) p' s'
  end.
End Careful.

(** As SpecTabs.ordinary_editor, but with user commands: the editor's own text is ordinary. *)
Definition ordinary_sources (S : scfg) : Prop :=
  let C := base S in let E := cE C in
  sane_widths E /\ (forall r, rw E r <= 8) /\
  joins E 65533 = false /\ (forall r, 32 <= r < 127 -> joins E r = false) /\
  (pcolor0 C = [] \/ forall t c, ordinary_text E (predictor C t c)) /\
  Forall (ordinary_text E) (hist C).
(** If the next key runs a user command, it is careful there (with the buffer it gets: the
    loop has just hidden the terminal's cursor). *)
Definition careful_there (S : scfg) (e : event) (x : sess) : Prop :=
  forall k s f, e = EKey k -> x = Running MNormal s -> LookupCommand (kmap S) (gmap S) k = CUser f ->
  exists p, (forall s0, f s0 = run_script (base S) p s0) /\ tab_careful (base S) true p (emit s [TCursorOff]).
