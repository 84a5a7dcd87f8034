(** The terminal of SpecVt.v with colours (C69): for every column, the colour codes the
    terminal had received when the character there was written.  What they look like is up
    to the terminal, but it can depend on nothing else. *)
From Verif Require Import Base Utf8 Moji Color Prompt Buffer Commands KeyMap Session Spec SpecLib SpecTerm SpecScreen SpecPaint SpecInk SpecVt.

(** The terminal, all codes of CSI ... m received so far (in order), and the codes that had
    been received when the columns were written. *)
Record cvt := mkCvt { c_vt : vt; c_pen : list Z; c_ink : Z -> list Z }.

(** The codes 3;22;34, separated by semicolons; a missing one is 0. *)
Fixpoint codes_from (now : Z) (ps : list rune) : list Z :=
  match ps with
  | [] => [now]
  | p :: ps' => if p =? 59 then now :: codes_from 0 ps' else codes_from (10 * now + (p - 48)) ps'
  end.
Definition codes_of (ps : list rune) : list Z := codes_from 0 ps.

Section Vt.
Variable V : vterm.
(** The ink of what remains of characters written over in part, and of what other sequences make. *)
Variable worn : vt -> rune -> Z -> list Z.
Notation tw := (vt_width V).

(** What a character does to the row: nothing; write from the cursor on; erase from the cursor on; anything. *)
Inductive touch := Leaves | Writes | Erases | Anything.
Definition csi_touch (ps : list rune) (f : rune) : touch :=
  if (f =? 71) && all_digits ps then Leaves
  else if (f =? 75) && (str_eqb ps [] || str_eqb ps [48]) then Erases
  else if f =? 109 then Leaves
  else if ((f =? 104) || (f =? 108)) && str_eqb ps [63; 50; 53] then Leaves
  else if ((f =? 115) || (f =? 117)) && str_eqb ps [] then Leaves
  else Anything.
Definition touches (p : parser) (r : rune) : touch :=
  match p with
  | Ground => if (r =? 27) || (r =? 7) || (r =? 8) then Leaves else if control r || (tw r <=? 0) then Anything else Writes
  | Esc => if (r =? 91) || (r =? 93) || (r =? 55) || (r =? 56) then Leaves else Anything
  | Csi ps => if (32 <=? r) && (r <=? 63) then Leaves else csi_touch ps r
  | Osc => Leaves
  end.
(** The character in column [x] ends before column [a], or begins at column [b] or later. *)
Definition ends_before (v : vt) (a x : Z) : bool := match v_row v x with Char r i => x - i + tw r <=? a | Empty => false end.
Definition begins_at (v : vt) (b x : Z) : bool := match v_row v x with Char r i => b <=? x - i | Empty => false end.
Definition crune (c : cvt) (r : rune) : cvt :=
  let v := c_vt c in
  mkCvt (vrune V v r)
    (match v_state v with Csi ps => if r =? 109 then c_pen c ++ codes_of ps else c_pen c | _ => c_pen c end)
    (match touches (v_state v) r with
     | Leaves => c_ink c
     | Writes => fun x => if (v_col v <=? x) && (x <? v_col v + tw r) then c_pen c
                          else if ends_before v (v_col v) x || begins_at v (v_col v + tw r) x then c_ink c x else worn v r x
     | Erases => fun x => if ends_before v (v_col v) x then c_ink c x else worn v r x
     | Anything => worn v r
     end).
Definition cbytes (b : str) (c : cvt) : cvt := fold_left crune (runes b) c.

(** A text that changes only colours and the like. *)
Definition colours_only (b : str) : Prop :=
  attribute_only V b /\ forall c, v_state (c_vt c) = Ground -> 0 <= v_col (c_vt c) -> forall x, c_ink (cbytes b c) x = c_ink c x.

(** The codes received last are those of the colour; or the look of predictions was set last. *)
Definition stands_in (k : ink) (p : list Z) : Prop :=
  match k with
  | Before => True
  | Colour n => forall codes, sgr_text codes (color_write n) -> exists q, p = q ++ codes
  | Look t => exists c, v_state (c_vt c) = Ground /\ p = c_pen (cbytes t c)
  end.
(** The units [us] from column [a] on: every column of a unit is in the unit's ink. *)
Definition in_their_ink (E : env) (a : Z) (us : list painted) (c : cvt) : Prop :=
  forall l u r x, us = l ++ u :: r ->
    a + total_width E (map fst l) <= x < a + total_width E (map fst l) + width E (fst u) -> stands_in (snd u) (c_ink c x).

(** The terminal shows the line as in C58, and each unit in the colour it has in the line as
    it is now; predictions in their look. *)
Definition vt_colours (C : cfg) (x : sess) (c : cvt) : Prop :=
  match x with
  | Running (MSearch _) _ => True
  | Running _ s =>
      exists k pred gs, cursor s <= k <= zlen (line s) /\
      (pred = [] \/ cursor s = zlen (line s) /\ k = zlen (line s) /\ exists rest, suffix s = Some (pred ++ rest)) /\
      Forall2 (appears V) (part (line s) (view s) k ++ pred) gs /\ vshows V s (c_vt c) gs /\
      in_their_ink (cE C) (topc s)
        (ipart (inked (ccol C) (cursor s) (line s)) (view s) k ++ map (fun m => (m, Look (pcolor0 C))) pred) c
  | Finished _ _ _ => True
  end.

(** The same for VimBatch, without its colour words: the codes received last before unit [i]
    was written are those the table of C40 gives for its last character. *)
Definition vim_on_screen (C : cfg) (x : sess) (c : cvt) : Prop :=
  match x with
  | Running (MSearch _) _ => True
  | Running _ s =>
      exists k pred gs, cursor s <= k <= zlen (line s) /\
      (pred = [] \/ cursor s = zlen (line s) /\ k = zlen (line s) /\ exists rest, suffix s = Some (pred ++ rest)) /\
      Forall2 (appears V) (part (line s) (view s) k ++ pred) gs /\ vshows V s (c_vt c) gs /\
      forall i x, view s <= i < k ->
        topc s + total_width (cE C) (part (line s) (view s) i) <= x < topc s + total_width (cE C) (part (line s) (view s) (i + 1)) ->
        exists before r codes earlier, runes (Spec.written (firstn (Z.to_nat (i + 1)) (line s))) = before ++ [r] /\
          vim_codes before r codes /\ c_ink c x = earlier ++ codes
  | Finished _ _ _ => True
  end.
End Vt.
