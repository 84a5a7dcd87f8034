(** Characters with a variation selector: lemmas for PSelector.v. *)
From Verif Require Import Base Utf8 Moji Color Prompt Buffer Commands KeyMap Session MojiFacts Spec SpecTerm.
Ltac lia := unfold rune in *; Lia.lia.

Section Sel.
Variable E : env.
Variables a v : rune.
Hypothesis Hok : vs_ok E = true.
Hypothesis Hv : vsme E v = true.
Hypothesis Hj : v <> 8204 /\ v <> 8205.
Hypothesis Ha : valid_rune a = true.
Hypothesis Hv' : valid_rune v = true.

Lemma selector_unit : split E (encode [a; v]) = [MVar (rune2moji E a 0) (MRaw v)] /\ split E (encode [a]) = [rune2moji E a 0].
Proof.
  unfold split. rewrite !StringToMoji_units. unfold units. rewrite !runes_encode by (repeat constructor; assumption).
  rewrite !units_none. split; [|reflexivity]. rewrite units_some1. unfold isZeroWidthJoin, is_join_control, isVariationSelectorLike.
  rewrite Hok, Hv. replace (v =? 8204) with false by lia. replace (v =? 8205) with false by lia. cbn [orb andb].
  rewrite ?Bool.andb_false_r. reflexivity.
Qed.
Lemma write_rune2moji pos : a <> 9 -> write (rune2moji E a pos) = encode_rune a.
Proof.
  intros H9. unfold rune2moji. replace (a =? 9) with false by lia.
  repeat match goal with |- context [if ?b then _ else _] => destruct b end; reflexivity.
Qed.
(** Not one of the characters for which two columns are set aside anyway. *)
Lemma selector_plain : a <> 9 -> ~ 9472 <= a <= 9599 -> ~ 119808 <= a <= 120831 -> a <> 127987 ->
  exists u n, split E (encode [a; v]) = [u] /\ write u = encode [a; v] /\ width E u = n /\ n = total_width E (split E (encode [a])) + 1 /\
    print E u = Some (repeat 32 (Z.to_nat n) ++ [27; 55] ++ repeat 8 (Z.to_nat n) ++ encode [a; v] ++ [27; 56]).
Proof.
  intros H9 H1 H2 H3. destruct selector_unit as [-> ->]. set (m := rune2moji E a 0).
  assert (Hw : write m = encode_rune a) by now apply write_rune2moji.
  assert (Hm : width E (MVar m (MRaw v)) = width E m + 1).
  { unfold m, rune2moji. replace (a =? 9) with false by lia. unfold in_range.
    replace ((9472 <=? a) && (a <=? 9599)) with false by lia. replace ((119808 <=? a) && (a <=? 120831)) with false by lia. replace (a =? 127987) with false by lia. cbn [andb].
    repeat match goal with |- context [if ?b then _ else _] => destruct b end; reflexivity. }
  exists (MVar m (MRaw v)), (width E m + 1). split; [reflexivity|]. split; [cbn [write]; rewrite Hw; cbn [encode flat_map]; now rewrite app_nil_r|].
  split; [exact Hm|]. split; [unfold total_width; cbn [fold_right]; lia|].
  cbn [print]. rewrite Hm. cbn [write]. rewrite Hw. unfold saveCursorAfterN, restoreCursor. cbn [encode flat_map]. rewrite !app_nil_r, <- !app_assoc. reflexivity.
Qed.
Lemma selector_flag : a = 127987 -> rw E a <> 0 -> sur_ok E = true -> vsme E a = false ->
  exists u, split E (encode [a; v]) = [u] /\ write u = encode [a; v] /\ width E u = 2 /\
    print E u = Some ([32; 32; 27; 55; 8; 8] ++ encode [a; v] ++ [27; 56]).
Proof.
  intros Ea Hr Hs Hve. destruct selector_unit as [-> _].
  assert (Hm : rune2moji E a 0 = MFlag a).
  { rewrite Ea in *. unfold rune2moji, isToBeEscaped, in_range, isVariationSelectorLike. cbn [Z.eqb Z.ltb Z.compare]. rewrite Hve, Hs. replace (rw E 127987 =? 0) with false by lia.
    rewrite !Bool.andb_false_r. cbn. reflexivity. }
  rewrite Hm. eexists. split; [reflexivity|]. split; [cbn [write encode flat_map]; now rewrite app_nil_r|]. split; [reflexivity|].
  cbn [print width write]. unfold saveCursorAfterN, restoreCursor. cbn [encode flat_map]. rewrite !app_nil_r, <- !app_assoc. reflexivity.
Qed.
End Sel.
