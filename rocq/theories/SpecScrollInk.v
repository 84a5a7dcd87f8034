(** The colours the user sees (C68) of a line with tabs that may be longer than the row. *)
From Verif Require Import Base Utf8 Moji Color Prompt Buffer Commands KeyMap Session Spec SpecScreen SpecTabScreen SpecPaint SpecInk.

(** After the prompt stand the units from ViewStart up to some [k] at or after the cursor, each
    tab as wide as it is in the whole line and each unit in the colour it has in the line as it is
    now, after the last unit of the line perhaps the beginning of the prediction, in the look of
    predictions, if the cursor is there, and nothing else; the terminal's cursor stands where the
    next unit goes. *)
Definition ishows_scrolled (C : cfg) (s : buf) (sc : iscreen) : Prop :=
  let E := cE C in let l := laid E 0 (line s) in
  exists k pred, cursor s <= k <= zlen (line s) /\
    (pred = [] \/ cursor s = zlen (line s) /\ exists rest, suffix s = Some (pred ++ rest)) /\
    (forall x, topc s <= x -> irow sc x =
       iimage E (topc s) (ipart (inked (ccol C) (cursor s) l) (view s) k ++ map (fun m => (m, Look (pcolor0 C))) pred) x) /\
    icol sc = topc s + total_width E (part l (view s) (cursor s)).
Definition scroll_inks_right (C : cfg) (x : sess) (sc : iscreen) : Prop :=
  match x with
  | Running (MSearch _) _ => True
  | Running _ s => ishows_scrolled C s sc
  | Finished _ _ _ => True
  end.
