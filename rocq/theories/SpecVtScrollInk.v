(** The colours of the bytes (C69) when there are tabs, the line may be longer than the row, and
    a prediction may follow it. *)
From Verif Require Import Base Utf8 Moji Color Prompt Buffer Commands KeyMap Session Spec SpecLib SpecTerm SpecScreen SpecPaint SpecInk SpecVt SpecVtTabs SpecVtScroll SpecVtInk SpecVtTabInk.

Section Vt.
Variable V : vterm.
Variable worn : vt -> rune -> Z -> list Z.

(** The terminal shows the line from ViewStart on as in C58, then perhaps the beginning of the
    prediction, and every column of every unit, the spaces of tabs as well, in the colour the
    unit has in the line as it is now, or in the look of predictions. *)
Definition vt_scroll_colours (C : cfg) (x : sess) (c : cvt) : Prop :=
  match x with
  | Running (MSearch _) _ => True
  | Running _ s => exists gs k pred ps, looks V 0 (line s) gs /\ cursor s <= k <= zlen (line s) /\
      (pred = [] \/ cursor s = zlen (line s) /\ exists rest, suffix s = Some (pred ++ rest)) /\ Forall2 (appears_tab V) pred ps /\
      vshows V s (c_vt c) (stretch gs (view s) k ++ ps) /\
      forall i x, column_of V (topc s) (stretch gs (view s) k ++ ps) i x ->
        if view s + i <? k
        then exists u, nth_error (inked (ccol C) (cursor s) (line s)) (Z.to_nat (view s + i)) = Some u /\ stands_in V worn (snd u) (c_ink c x)
        else stands_in V worn (Look (pcolor0 C)) (c_ink c x)
  | Finished _ _ _ => True
  end.
(** The same for VimBatch, without its colour words: the codes received last before the
    column was written are those the table of C40 gives for the last character of the unit. *)
Definition vim_scroll_on_screen (C : cfg) (x : sess) (c : cvt) : Prop :=
  match x with
  | Running (MSearch _) _ => True
  | Running _ s => exists gs k pred ps, looks V 0 (line s) gs /\ cursor s <= k <= zlen (line s) /\
      (pred = [] \/ cursor s = zlen (line s) /\ exists rest, suffix s = Some (pred ++ rest)) /\ Forall2 (appears_tab V) pred ps /\
      vshows V s (c_vt c) (stretch gs (view s) k ++ ps) /\
      forall i x, column_of V (topc s) (stretch gs (view s) k ++ ps) i x ->
        if view s + i <? k
        then exists before r codes earlier, runes (Spec.written (firstn (Z.to_nat (view s + i + 1)) (line s))) = before ++ [r] /\
          vim_codes before r codes /\ c_ink c x = earlier ++ codes
        else stands_in V worn (Look (pcolor0 C)) (c_ink c x)
  | Finished _ _ _ => True
  end.
End Vt.
