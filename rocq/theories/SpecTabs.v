(** Specification: ordinary text that may contain tabs (C04). *)
From Verif Require Import Base Utf8 Moji Color Prompt Buffer Commands KeyMap Session Spec.

(** At most 800 characters, tabs included, none of which joins the one before it. *)
Definition ordinary_text (E : env) (t : str) : Prop :=
  (forall r, In r (runes t) -> joins E r = false) /\ zlen (runes t) <= 800.
Definition ordinary_clip (E : env) (c : option str) : Prop := forall t, c = Some t -> ordinary_text E t.

(** Events that bring in only such text and do not make the terminal too narrow; all keys
    and all built-in commands are allowed. *)
Definition ordinary_event (S : scfg) (e : event) : Prop :=
  match e with
  | EKey k => ordinary_text (cE (base S)) k /\
              (forall k', LookupCommand (kmap S) (gmap S) k = CSelfInsert k' -> ordinary_text (cE (base S)) k')
  | EKeyErr => True
  | EResize w => prompt_width (base S) + 11 < w
  | EClip c => ordinary_clip (cE (base S)) c
  end.

Definition ordinary_editor (S : scfg) : Prop :=
  let C := base S in let E := cE C in
  only_builtin S /\ sane_widths E /\ (forall r, rw E r <= 8) /\
  joins E 65533 = false /\ (forall r, 32 <= r < 127 -> joins E r = false) /\
  (pcolor0 C = [] \/ forall t c, ordinary_text E (predictor C t c)) /\
  Forall (ordinary_text E) (hist C).

(** At a wait: the line and the text of an incremental search have at most 800 characters, *)
Definition short_line (x : sess) : Prop :=
  zlen (cells (buf_of x)) <= 800 /\
  (forall ss s, x = Running (MSearch ss) s -> zlen (runes (ss_str ss)) <= 800).
(** and the next key is not SWAPCHAR at the end of a line of two or more characters. *)
Definition no_swap_at_end (S : scfg) (e : event) (x : sess) : Prop :=
  forall k s, e = EKey k -> x = Running MNormal s -> LookupCommand (kmap S) (gmap S) k = CSwapChar ->
  cursor s = zlen (cells s) -> cursor s < 2.
