(** The colours of the bytes (C69) when there are tabs in a line that fits the row. *)
From Verif Require Import Base Utf8 Moji Color Prompt Buffer Commands KeyMap Session Spec SpecLib SpecTerm SpecScreen SpecPaint SpecInk SpecVt SpecVtTabs SpecVtInk.

Section Vt.
Variable V : vterm.
Variable worn : vt -> rune -> Z -> list Z.

(** Column [x] belongs to unit [i] of the units that look like [gs] from column [a] on. *)
Definition column_of (a : Z) (gs : list (list rune)) (i : Z) (x : Z) : Prop :=
  0 <= i < zlen gs /\
  a + vcolumns V (List.concat (firstn (Z.to_nat i) gs)) <= x < a + vcolumns V (List.concat (firstn (Z.to_nat (i + 1)) gs)).

(** The terminal shows the whole line as in C58, each tab as spaces up to the next multiple
    of four columns, and every column of every unit, the spaces of tabs as well, in the colour
    the unit has in the line as it is now. *)
Definition vt_tab_colours (C : cfg) (x : sess) (c : cvt) : Prop :=
  match x with
  | Running (MSearch _) _ => True
  | Running _ s => exists gs, looks V 0 (line s) gs /\ vshows V s (c_vt c) gs /\
      forall i x, column_of (topc s) gs i x -> exists u, nth_error (inked (ccol C) (cursor s) (line s)) (Z.to_nat i) = Some u /\ stands_in V worn (snd u) (c_ink c x)
  | Finished _ _ _ => True
  end.
(** The same for VimBatch, without its colour words: the codes received last before the
    column was written are those the table of C40 gives for the last character of the unit. *)
Definition vim_tabs_on_screen (x : sess) (c : cvt) : Prop :=
  match x with
  | Running (MSearch _) _ => True
  | Running _ s => exists gs, looks V 0 (line s) gs /\ vshows V s (c_vt c) gs /\
      forall i x, column_of (topc s) gs i x ->
        exists before r codes earlier, runes (Spec.written (firstn (Z.to_nat (i + 1)) (line s))) = before ++ [r] /\
          vim_codes before r codes /\ c_ink c x = earlier ++ codes
  | Finished _ _ _ => True
  end.
End Vt.
