(** The colours the user sees (C68) when there are tabs in a line that fits the row. *)
From Verif Require Import Base Utf8 Moji Color Prompt Buffer Commands KeyMap Session Spec SpecScreen SpecTabScreen SpecPaint SpecInk.

(** The screen shows the whole line, every tab up to its tab stop, each unit in the colour it
    has in the line as it is now; the terminal's cursor stands where the next unit goes. *)
Definition ishows_tabs (C : cfg) (s : buf) (sc : iscreen) : Prop :=
  let E := cE C in let l := laid E 0 (line s) in
  (forall x, topc s <= x -> irow sc x = iimage E (topc s) (inked (ccol C) (cursor s) l) x) /\
  icol sc = topc s + total_width E (firstn (Z.to_nat (cursor s)) l).
Definition tab_inks_right (C : cfg) (x : sess) (sc : iscreen) : Prop :=
  match x with
  | Running (MSearch _) _ => True
  | Running _ s => ishows_tabs C s sc
  | Finished _ _ _ => True
  end.
