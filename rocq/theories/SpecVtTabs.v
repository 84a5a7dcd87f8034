(** What the user sees, from the bytes the program writes, when there are tabs (C58). *)
From Verif Require Import Base Utf8 Moji Color Prompt Buffer Commands KeyMap Session Spec SpecLib SpecTerm SpecScreen SpecVt.

(** Text in which every character is a unit of its own; tabs are allowed. *)
Definition single_text (E : env) (t : str) : Prop := forall r, In r (runes t) -> joins E r = false.
Definition single_clip (E : env) (c : option str) : Prop := forall t, c = Some t -> single_text E t.
Definition single_event (S : scfg) (e : event) : Prop :=
  match e with
  | EKey k => single_text (cE (base S)) k /\
              (forall k', LookupCommand (kmap S) (gmap S) k = CSelfInsert k' -> single_text (cE (base S)) k')
  | EClip c => single_clip (cE (base S)) c
  | _ => True
  end.
Definition single_editor (S : scfg) : Prop :=
  only_builtin S /\ sane_widths (cE (base S)) /\
  (pcolor0 (base S) = [] \/ forall t c, single_text (cE (base S)) (predictor (base S) t c)) /\
  joins (cE (base S)) 65533 = false /\ (forall r, 0 <= r < 128 -> joins (cE (base S)) r = false) /\
  Forall (single_text (cE (base S))) (hist (base S)).

Section Vt.
Variable V : vterm.

(** How the units look from column [c] of the line on: a tab is spaces up to the next multiple
    of four columns. *)
Fixpoint looks (c : Z) (l : list moji) (gs : list (list rune)) : Prop :=
  match l, gs with
  | [], [] => True
  | m :: l', g :: gs' =>
      match m with MTab _ => g = repeat 32 (Z.to_nat (4 - c mod 4)) | _ => appears V m g end /\
      looks (c + vcolumns V g) l' gs'
  | _, _ => False
  end.
(** In the search display a tab is one to four spaces. *)
Definition appears_tab (m : moji) (rs : list rune) : Prop :=
  match m with MTab _ => exists n, (1 <= n <= 4)%nat /\ rs = repeat 32 n | _ => appears V m rs end.

(** The terminal is between sequences, its cursor is visible, the row shows the whole line and
    nothing else after the prompt; the cursor stands after the units before the editor's cursor. *)
Definition vt_tabs_right (E : env) (x : sess) (v : vt) : Prop :=
  match x with
  | Running (MSearch ss) s => v_state v = Ground /\ v_shown v = true /\
      exists n gs, Forall2 appears_tab (firstn n (StringToMoji E (search_text ss))) gs /\ vshows V s v gs /\ vcolumns V (List.concat gs) < ViewWidth s /\
        (let l := StringToMoji E (search_text ss) in firstn n l = l \/ ViewWidth s <= total_width E (firstn (S n) l))
  | Running _ s => v_state v = Ground /\ v_shown v = true /\ exists gs,
      looks 0 (line s) gs /\ vshows V s v gs /\
      v_col v = topc s + vcolumns V (List.concat (firstn (Z.to_nat (cursor s)) gs)) /\
      vcolumns V (List.concat gs) < ViewWidth s
  | Finished _ _ _ => True
  end.
End Vt.
