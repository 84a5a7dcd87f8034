(** Lemmas for C44: the columns a unit occupies. *)
From Verif Require Import Base Utf8 Moji Color Prompt Buffer Commands KeyMap Session SpecScript MojiFacts AbsSafe Spec SpecTerm.
From Verif Require LineInv.

(** * Hexadecimal *)
Lemma lenEscaped_acc f : forall c w, lenEscaped_loop f c w = w + lenEscaped_loop f c 0.
Proof.
  induction f as [|f IH]; intros c w; cbn [lenEscaped_loop]; [lia|].
  destruct (15 <? c); [rewrite (IH _ (w + 1)), (IH _ (0 + 1))|]; lia.
Qed.
Lemma hex_loop_ok f : forall c, 0 <= c < 16 ^ Z.of_nat (S f) ->
  zlen (hex_loop (S f) c) = 1 + lenEscaped_loop (S f) c 0 /\ hex_value (hex_loop (S f) c) = c /\ Forall hex_char (hex_loop (S f) c).
Proof.
  assert (D : forall d, 0 <= d < 16 -> hex_value1 (hex_digit d) = d /\ hex_char (hex_digit d)).
  { intros d Hd. unfold hex_value1, hex_digit, hex_char. destruct (d <? 10) eqn:E; (split; [match goal with |- context [if ?b then _ else _] => destruct b eqn:E2 end|]); lia. }
  induction f as [|f IH]; intros c Hc.
  - change (16 ^ Z.of_nat 1) with 16 in Hc. cbn [hex_loop lenEscaped_loop]. replace (15 <? c) with false by lia. cbn [app].
    rewrite Z.mod_small by lia. destruct (D c Hc) as [D1 D2]. unfold hex_value. cbn [fold_left]. rewrite D1. (split; [reflexivity|split; [lia|constructor; [exact D2|constructor]]]).
  - rewrite Nat2Z.inj_succ, Z.pow_succ_r in Hc by lia. cbn [hex_loop]. cbn [lenEscaped_loop].
    pose proof (Z.mod_pos_bound c 16 ltac:(lia)) as Hm. destruct (D _ Hm) as [D1 D2].
    destruct (15 <? c) eqn:E.
    + assert (Hd : 0 <= c / 16 < 16 ^ Z.of_nat (S f)) by (split; [apply Z.div_pos; lia|apply Z.div_lt_upper_bound; lia]).
      destruct (IH _ Hd) as (H1 & H2 & H3). cbn [hex_loop] in H1, H2, H3. cbn [lenEscaped_loop] in H1.
      rewrite zlen_app, H1. unfold hex_value in *. rewrite fold_left_app. cbn [fold_left]. rewrite H2, D1.
      split; [|split].
      * change (zlen [_]) with 1. change (if 15 <? c / 16 then lenEscaped_loop f (c / 16 / 16) (0 + 1) else 0) with (lenEscaped_loop (S f) (c / 16) 0).
        change (if 15 <? c / 16 then lenEscaped_loop f (c / 16 / 16) (0 + 1 + 1) else 0 + 1) with (lenEscaped_loop (S f) (c / 16) 1).
        rewrite (lenEscaped_acc (S f) (c / 16) 1). lia.
      * pose proof (Z.div_mod c 16). lia.
      * apply Forall_app. auto.
    + cbn [app]. rewrite Z.mod_small in * by lia. unfold hex_value. cbn [fold_left]. rewrite D1. (split; [reflexivity|split; [lia|constructor; [exact D2|constructor]]]).
Qed.
Lemma hexX_ok c : 0 <= c < 4294967296 -> zlen (hexX c) + 2 = lenEscaped c /\ hex_value (hexX c) = c /\ Forall hex_char (hexX c).
Proof.
  intros H. destruct (hex_loop_ok 7 c H) as (H1 & H2 & H3). split; [|auto]. unfold hexX, lenEscaped. rewrite H1, (lenEscaped_acc 8 c 3). lia.
Qed.

Section Term.
Variable E : env.
Variable tw : rune -> Z.
Variable other : rune -> tstate -> tstate.
Notation tshow := (tshow tw other).

Definition tsum (rs : list rune) : Z := fold_right (fun r n => tw r + n) 0 rs.
Definition calm (rs : list rune) : Prop := Forall (fun r => control r = false) rs.
Lemma tsum_app a b : tsum (a ++ b) = tsum a + tsum b.
Proof. induction a as [|x a IH]; cbn [app tsum fold_right]; [reflexivity|]. fold (tsum (a ++ b)) (tsum a). rewrite IH. lia. Qed.
Lemma tshow_one r k st : r <> 27 -> tshow (r :: k) st = tshow k (tone tw other r st).
Proof. intros H. cbn [SpecTerm.tshow]. destruct k; [reflexivity|]. now replace (r =? 27) with false by lia. Qed.
Lemma tshow_calm rs : calm rs -> forall k c sv, tshow (rs ++ k) (c, sv) = tshow k (c + tsum rs, sv).
Proof.
  induction 1 as [|r rs Hr _ IH]; intros k c sv; cbn [app tsum fold_right]; [now rewrite Z.add_0_r|].
  assert (r <> 27 /\ r <> 8) as [H1 H2] by (split; intros ->; discriminate Hr).
  rewrite tshow_one by exact H1. unfold tone. replace (r =? 8) with false by lia. rewrite Hr. cbn [fst snd]. rewrite IH. f_equal. fold (tsum rs). f_equal. lia.
Qed.
Lemma tshow_back n : forall k c sv, 0 <= c -> tshow (repeat 8 n ++ k) (c + Z.of_nat n, sv) = tshow k (c, sv).
Proof.
  induction n as [|n IH]; intros k c sv Hc; cbn [repeat app]; [now rewrite Z.add_0_r|].
  rewrite tshow_one by lia. unfold tone. cbn [Z.eqb fst snd Pos.eqb]. rewrite <- (IH k c sv Hc). do 2 f_equal. lia.
Qed.
Lemma tshow_save k st : tshow (27 :: 55 :: k) st = tshow k (fst st, fst st). Proof. reflexivity. Qed.
Lemma tshow_restore k st : tshow (27 :: 56 :: k) st = tshow k (snd st, snd st). Proof. reflexivity. Qed.

(** Painting between saving after [n] columns and restoring. *)
Lemma tshow_saved n rs k c sv : (forall r, 32 <= r < 127 -> tw r = 1) -> calm rs -> 0 <= c ->
  tshow (repeat 32 n ++ [27; 55] ++ repeat 8 n ++ rs ++ [27; 56] ++ k) (c, sv) = tshow k (c + Z.of_nat n, c + Z.of_nat n).
Proof.
  intros Ha Hr Hc.
  assert (S1 : calm (repeat 32 n)) by (apply Forall_forall; intros x Hx; apply repeat_spec in Hx; now subst).
  assert (S2 : tsum (repeat 32 n) = Z.of_nat n).
  { induction n as [|n IH]; [reflexivity|]. cbn [repeat tsum fold_right]. fold (tsum (repeat 32 n)). rewrite IH, Ha by (try lia; inversion S1; auto). lia. }
  rewrite tshow_calm by exact S1. rewrite S2. cbn [app]. rewrite tshow_save. cbn [fst].
  rewrite tshow_back by exact Hc. rewrite tshow_calm by exact Hr. cbn [app]. now rewrite tshow_restore.
Qed.

Lemma some_inj {A} (a b : A) : Some a = Some b -> a = b. Proof. congruence. Qed.
(** * The shape of units *)
Definition vr (r : rune) : Prop := valid_rune r = true.
Fixpoint shape (m : moji) : Prop :=
  match m with
  | MTab _ => True
  | MRaw r => 32 <= r /\ (127 <= r <= 159 -> rw E r <> 0) /\ ~ 127462 <= r <= 127487
  | MEsc r => 32 <= r
  | MReg r => 127462 <= r <= 127487
  | MCtrl r => 0 <= r < 32 /\ r <> 9
  | MFlag r => 160 <= r
  | MZwj a b | MMod a b | MVar a b => shape a /\ exists n, b = MRaw n
  end.
Lemma shape_erase m : shape (erase m) <-> shape m.
Proof.
  induction m; cbn [erase shape]; try tauto;
    (rewrite IHm1; split; intros [H [n Hn]]; (split; [exact H|]); exists n; destruct m2; cbn in *; congruence).
Qed.
Lemma shape_fresh r pos : vr r -> shape (rune2moji E r pos).
Proof.
  intros Hv. unfold vr, valid_rune in Hv. unfold rune2moji, isToBeEscaped, in_range. destruct (r =? 9) eqn:E1; [exact I|]. destruct (r <? 32) eqn:E2; [cbn [shape]; lia|].
  destruct ((9472 <=? r) && (r <=? 9599) && amb_wide E) eqn:E0; [cbn [shape]; lia|]. destruct (isVariationSelectorLike E r || (65536 <=? r) && negb (sur_ok E)) eqn:E3; cbn [orb]; [cbn [shape]; lia|].
  destruct (rw E r =? 0) eqn:E4; [cbn [shape]; lia|]. destruct ((127462 <=? r) && (r <=? 127487)) eqn:E5; [cbn [shape]; lia|].
  match goal with |- context [if ?b then MFlag r else _] => destruct b eqn:E6 end; [cbn [shape]; lia|]. destruct (r =? 127987) eqn:E7; cbn [shape]; lia.
Qed.
Lemma shape_units rs : forall last, Forall vr rs -> (forall m, last = Some m -> shape m) -> Forall shape (units_from E last rs).
Proof.
  induction rs as [|r|r n rs IH1 IH2] using rune_list_ind; intros last Hv Hl.
  - destruct last as [m|]; cbn; auto.
  - inversion_clear Hv. destruct last as [m|].
    + specialize (Hl m eq_refl). rewrite units_some1. repeat (destruct (_ : bool); [repeat constructor; auto; cbn; eauto|]). repeat constructor; auto using shape_fresh.
    + rewrite units_none. cbn. repeat constructor. now apply shape_fresh.
  - inversion_clear Hv as [|? ? Hr Hv']. inversion Hv' as [|? ? Hn Hv'']; subst. destruct last as [m|].
    + specialize (Hl m eq_refl). rewrite units_some2. destruct (isZeroWidthJoin E r).
      { apply IH1; [exact Hv''|]. intros m' [= <-]. cbn. eauto. }
      destruct (isVariationSelectorLike E r); [apply IH2; [exact Hv'|]; intros m' [= <-]; cbn; eauto|].
      destruct (isEmojiModifier E r); [apply IH2; [exact Hv'|]; intros m' [= <-]; cbn; eauto|].
      constructor; [exact Hl|]. apply (IH2 (Some (rune2moji E r 0))); [exact Hv'|]. intros m' [= <-]. now apply shape_fresh.
    + rewrite units_none. apply (IH2 (Some (rune2moji E r 0))); [exact Hv'|]. intros m' [= <-]. now apply shape_fresh.
Qed.
Lemma self_shape m : self E m -> shape m.
Proof.
  intros [Hv Hu]. assert (H : Forall shape (units_from E None (mrunes m))) by (apply shape_units; [exact Hv|discriminate]).
  rewrite Hu in H. now inversion H.
Qed.

(** * One unit *)
Hypothesis AG : agrees E tw.
Lemma width_nn m : 0 <= width E m.
Proof.
  destruct AG as [A0 A1 A2 A3 A4 A5 A6]. induction m; cbn [width]; try lia; auto.
  - pose proof (Z.rem_bound_abs pos 4 ltac:(lia)). lia.
  - unfold lenEscaped. rewrite lenEscaped_acc. assert (G : forall f c w, 0 <= w -> 0 <= lenEscaped_loop f c w).
    { induction f as [|f IH]; intros c w Hw; cbn [lenEscaped_loop]; [lia|]. destruct (15 <? c); [apply IH|]; lia. }
    specialize (G 8%nat r 0). lia.
  - rewrite A5. specialize (A0 8205). lia.
  - destruct m1; lia.
Qed.
Lemma raw_sum m : as_written m = true -> shape m -> calm (mrunes m) -> tsum (mrunes m) = width E m.
Proof.
  destruct AG as [A0 A1 A2 A3 A4 A5 A6].
  assert (P : forall b, plain_part b = true -> calm (mrunes b) -> tsum (mrunes b) = width E b).
  { intros b Hb Hc. destruct b; try discriminate. cbn in Hb |- *. inversion Hc; subst. rewrite A3; auto; [lia|]. unfold in_range in Hb. lia. }
  induction m; cbn [as_written]; try discriminate; intros Hw Hs Hc.
  - cbn in *. inversion Hc; subst. rewrite A3; [lia|auto|tauto].
  - cbn in *. rewrite A4; lia.
  - apply andb_true_iff in Hw as [Hw Hb]. destruct Hs as [Hs _]. cbn [mrunes] in *. unfold calm in Hc. rewrite Forall_app in Hc. destruct Hc as [Hc Hd].
    inversion Hd; subst. rewrite tsum_app. change (tsum (zeroWidthJoinRune :: mrunes m2)) with (tw 8205 + tsum (mrunes m2)).
    rewrite IHm1, P by auto. cbn [width]. rewrite A5. lia.
  - apply andb_true_iff in Hw as [Hw Hb]. destruct Hs as [Hs _]. cbn [mrunes] in *. unfold calm in Hc. rewrite Forall_app in Hc. destruct Hc as [Hc Hd].
    rewrite tsum_app, IHm1, P by auto. reflexivity.
Qed.

Definition moves (b : str) (n : Z) : Prop :=
  forall k c sv, 0 <= c -> exists sv', tshow (runes b ++ k) (c, sv) = tshow k (c + n, sv').
Lemma moves_runes b rs n : runes b = rs -> calm rs -> tsum rs = n -> moves b n.
Proof. intros <- Hc <- k c sv H. exists sv. now apply tshow_calm. Qed.
Lemma ascii_runes l : Forall (fun r => 32 <= r < 127) l -> runes l = l /\ calm l /\ tsum l = zlen l.
Proof.
  destruct AG as [A0 A1 A2 A3 A4 A5 A6]. intros H. split; [|split].
  - replace l with (encode l) at 1; [apply runes_encode|].
    + eapply Forall_impl; [|exact H]. cbn beta. intros r Hr. unfold valid_rune. lia.
    + clear -H. induction H as [|r l Hr _ IH]; [reflexivity|]. rewrite encode_cons, IH. unfold encode_rune. replace (valid_rune r) with true by (unfold valid_rune; lia).
      replace (r <? 128) with true by lia. reflexivity.
  - eapply Forall_impl; [|exact H]. cbn beta. intros r Hr. unfold control, in_range. lia.
  - induction H as [|r l Hr _ IH]; [reflexivity|]. cbn [tsum fold_right]. fold (tsum l). rewrite IH, A2, zlen_cons by lia. lia.
Qed.
Lemma saved_moves m n : Forall vr (mrunes m) -> calm (mrunes m) -> 0 <= n ->
  moves (saveCursorAfterN n ++ write m ++ restoreCursor) n.
Proof.
  intros Hv Hc Hn k c sv H. unfold saveCursorAfterN, restoreCursor.
  assert (R : runes ((repeat 32 (Z.to_nat n) ++ [27; 55] ++ repeat 8 (Z.to_nat n)) ++ write m ++ [27; 56])
     = repeat 32 (Z.to_nat n) ++ [27; 55] ++ repeat 8 (Z.to_nat n) ++ mrunes m ++ [27; 56]).
  { rewrite write_mrunes.
    assert (A : forall l, Forall (fun r => 0 <= r < 128) l -> encode l = l).
    { intros l Hl. induction Hl as [|r l Hr _ IH]; [reflexivity|]. rewrite encode_cons, IH. unfold encode_rune.
      replace (valid_rune r) with true by (unfold valid_rune; lia). replace (r <? 128) with true by lia. reflexivity. }
    set (p := repeat 32 (Z.to_nat n) ++ [27; 55] ++ repeat 8 (Z.to_nat n)).
    assert (Hp : Forall (fun r => 0 <= r < 128) p).
    { apply Forall_app. split; [apply Forall_forall; intros x Hx; apply repeat_spec in Hx; subst; lia|]. repeat (constructor; [lia|]).
      apply Forall_forall; intros x Hx; apply repeat_spec in Hx; subst; lia. }
    assert (Hq : encode [27; 56] = [27; 56]) by reflexivity.
    rewrite <- (A p Hp), <- Hq, <- !encode_app, runes_encode; [unfold p; now rewrite <- !app_assoc|].
    apply Forall_app. split; [eapply Forall_impl; [|exact Hp]; cbn beta; intros r Hr; unfold valid_rune; lia|].
    apply Forall_app. split; [exact Hv|]. repeat constructor. }
  rewrite R, <- !app_assoc. exists (c + n). rewrite tshow_saved; [now rewrite Z2Nat.id by lia|apply AG|exact Hc|exact H].
Qed.
Lemma rune_runes r : vr r -> runes (encode_rune r) = [r].
Proof. intros H. pose proof (runes_encode [r]) as G. cbn in G. rewrite app_nil_r in G. apply G. constructor; [exact H|constructor]. Qed.
Lemma slice_spaces p b : slice [32; 32; 32; 32] (Z.rem p 4) 4 = Some b -> Forall (fun r => 32 <= r < 127) b /\ zlen b = 4 - Z.rem p 4.
Proof.
  intros H. apply slice_split in H as (u & v & Hl & Hu & Hb). split; [|exact Hb].
  assert (F : Forall (fun r => 32 <= r < 127) [32; 32; 32; 32]) by (repeat constructor; lia).
  rewrite Hl in F. apply Forall_app in F as [_ F]. now apply Forall_app in F as [F _].
Qed.
Lemma moves_app a b n1 n2 rs : moves a n1 -> moves b n2 -> 0 <= n1 -> calm rs -> (forall k, runes (a ++ encode rs ++ b) ++ k = runes a ++ rs ++ runes b ++ k) ->
  moves (a ++ encode rs ++ b) (n1 + tsum rs + n2).
Proof.
  intros Ha Hb Hn Hc Hr k c sv H. rewrite Hr. destruct (Ha (rs ++ runes b ++ k) c sv H) as [sv1 ->].
  rewrite tshow_calm by exact Hc.
  assert (0 <= tsum rs). { clear -AG. induction rs as [|r rs IH]; cbn [tsum fold_right]; [lia|]. fold (tsum rs). pose proof (ag_nonneg _ _ AG r). lia. }
  destruct (Hb k (c + n1 + tsum rs) sv1 ltac:(lia)) as [sv2 ->]. exists sv2. do 2 f_equal. lia.
Qed.
(** What is painted for a unit decodes to characters and can be followed by anything. *)
Lemma print_valid m : Forall vr (mrunes m) -> shape m -> forall b, print E m = Some b -> exists rs, b = encode rs /\ Forall vr rs.
Proof.
  assert (A : forall l, Forall (fun r => 0 <= r < 128) l -> encode l = l /\ Forall vr l).
  { intros l Hl. split; [|eapply Forall_impl; [|exact Hl]; cbn beta; intros r Hr; unfold vr, valid_rune; lia].
    induction Hl as [|r l Hr _ IH]; [reflexivity|]. rewrite encode_cons, IH. unfold encode_rune.
    replace (valid_rune r) with true by (unfold valid_rune; lia). replace (r <? 128) with true by lia. reflexivity. }
  assert (One : forall r, vr r -> exists rs, encode_rune r = encode rs /\ Forall vr rs).
  { intros r Hr. exists [r]. split; [cbn; now rewrite app_nil_r|now constructor]. }
  assert (Sv : forall n s, (exists rs, s = encode rs /\ Forall vr rs) -> exists rs, saveCursorAfterN n ++ s ++ restoreCursor = encode rs /\ Forall vr rs).
  { intros n s (rs & -> & Hv). unfold saveCursorAfterN.
    destruct (A (repeat 32 (Z.to_nat n) ++ [27; 55] ++ repeat 8 (Z.to_nat n))) as [A1 A2].
    { apply Forall_app. split; [apply Forall_forall; intros x Hx; apply repeat_spec in Hx; subst; lia|]. repeat (constructor; [lia|]).
      apply Forall_forall; intros x Hx; apply repeat_spec in Hx; subst; lia. }
    exists ((repeat 32 (Z.to_nat n) ++ [27; 55] ++ repeat 8 (Z.to_nat n)) ++ rs ++ [27; 56]). rewrite !encode_app in *. split.
    - rewrite <- A1 at 1. reflexivity.
    - apply Forall_app. split; [exact A2|]. apply Forall_app. split; [exact Hv|]. repeat constructor. }
  assert (Wr : forall m, Forall vr (mrunes m) -> exists rs, write m = encode rs /\ Forall vr rs).
  { intros m' H. exists (mrunes m'). split; [apply write_mrunes|exact H]. }
  induction m; intros Hv Hs b H; cbn [print] in H; try (apply some_inj in H; subst b).
  - apply slice_spaces in H as [H _]. destruct (A b) as [A1 A2]; [eapply Forall_impl; [|exact H]; cbn beta; lia|]. exists b. now rewrite A1.
  - apply One. now inversion Hv.
  - assert (0 <= r < 4294967296) as Hr by (inversion Hv as [|? ? Hr]; unfold vr, valid_rune in Hr; lia).
    destruct (hexX_ok r Hr) as (_ & _ & Hh). destruct (A (60 :: hexX r ++ [62])) as [A1 A2].
    { constructor; [lia|]. apply Forall_app. split; [eapply Forall_impl; [|exact Hh]; unfold hex_char; cbn beta; lia|]. repeat constructor; lia. }
    exists (60 :: hexX r ++ [62]). now rewrite A1.
  - apply One. now inversion Hv.
  - cbn in Hs. destruct (A [94; (65 + (r - 1)) mod 256]) as [A1 A2].
    { repeat (constructor; [rewrite ?Z.mod_small by lia; lia|]). constructor. }
    exists [94; (65 + (r - 1)) mod 256]. now rewrite A1.
  - apply (Sv 2 (encode_rune r)), One. now inversion Hv.
  - cbn [mrunes shape] in Hv, Hs. destruct Hs as [Hs [n ->]]. apply Forall_app in Hv as [Hv1 Hv2]. inversion Hv2 as [|? ? _ Hv3]; subst.
    assert (G : forall b, (let* pa := print E m1 in let* pb := print E (MRaw n) in Some (pa ++ encode_rune zeroWidthJoinRune ++ pb)) = Some b -> exists rs, b = encode rs /\ Forall vr rs).
    { intros b' G. destruct (print E m1) as [pa|] eqn:Hp; [|discriminate]. cbn [print] in G. injection G as <-.
      destruct (IHm1 Hv1 Hs pa eq_refl) as (rs & -> & Hrs). exists (rs ++ [zeroWidthJoinRune; n]). split.
      - rewrite encode_app. f_equal. cbn [encode flat_map]. now rewrite app_nil_r.
      - apply Forall_app. split; [exact Hrs|]. constructor; [reflexivity|]. inversion Hv3. now constructor. }
    destruct m1; try exact (G b H). apply some_inj in H. subst b.
    replace (write (MFlag r) ++ encode_rune zeroWidthJoinRune ++ write (MRaw n) ++ restoreCursor) with (write (MZwj (MFlag r) (MRaw n)) ++ restoreCursor)
      by (cbn [write]; now rewrite <- !app_assoc).
    apply Sv, Wr. cbn. inversion Hv1. constructor; [assumption|]. constructor; [reflexivity|exact Hv3].
  - cbn [mrunes] in Hv. apply (Wr (MMod m1 m2)). exact Hv.
  - rewrite app_assoc with (l := write m1). apply Sv. apply (Wr (MVar m1 m2)). exact Hv.
Qed.

Lemma unit_moves m : Forall vr (mrunes m) -> shape m -> honest m = true -> (joined_unit m = true -> calm (mrunes m)) ->
  forall b, print E m = Some b -> moves b (width E m).
Proof.
  pose proof AG as AG'. destruct AG' as [A0 A1 A2 A3 A4 A5 A6].
  induction m; intros Hv Hs Hh Hc b H; cbn [print] in H; try (apply some_inj in H; subst b).
  - apply slice_spaces in H as [H Hl]. destruct (ascii_runes b H) as (H1 & H2 & H3). apply (moves_runes b b); auto. cbn [width]. lia.
  - inversion Hv; subst. cbn [shape] in Hs.
    assert (Hn : control r = false). { destruct (control r) eqn:Hi; [|reflexivity]. unfold control, in_range in Hi. assert (127 <= r <= 159) by lia. specialize (A6 r). lia. }
    apply (moves_runes _ [r]); [now apply rune_runes|now constructor|]. cbn. rewrite A3; [lia|exact Hn|tauto].
  - assert (0 <= r < 4294967296) as Hr by (inversion Hv as [|? ? Hr]; unfold vr, valid_rune in Hr; lia).
    destruct (hexX_ok r Hr) as (Hl & _ & Hh'). destruct (ascii_runes ([60] ++ hexX r ++ [62])) as (H1 & H2 & H3).
    { constructor; [lia|]. apply Forall_app. split; [eapply Forall_impl; [|exact Hh']; unfold hex_char; cbn beta; lia|]. repeat constructor; lia. }
    eapply moves_runes; [exact H1|exact H2|]. rewrite H3, !zlen_app. cbn [width]. change (zlen [60]) with 1. change (zlen [62]) with 1. lia.
  - inversion Hv; subst. cbn [shape] in Hs. apply (moves_runes _ [r]); [now apply rune_runes| |].
    + constructor; [unfold control, in_range; lia|constructor].
    + cbn. rewrite A4; lia.
  - cbn [shape] in Hs. destruct (ascii_runes [94; (65 + (r - 1)) mod 256]) as (H1 & H2 & H3).
    { repeat (constructor; [rewrite ?Z.mod_small by lia; lia|]). constructor. }
    eapply moves_runes; [exact H1|exact H2|]. rewrite H3. reflexivity.
  - inversion Hv; subst. cbn [shape] in Hs. apply (saved_moves (MFlag r) 2); [exact Hv| |lia]. constructor; [unfold control, in_range; lia|constructor].
  - cbn [mrunes shape] in Hv, Hs. destruct Hs as [Hs [n ->]]. specialize (Hc eq_refl). cbn [mrunes] in Hc. unfold calm in Hc. rewrite Forall_app in Hc. destruct Hc as [Hc1 Hc2].
    assert (Hv' := Hv). apply Forall_app in Hv as [Hv1 Hv2]. inversion Hv2 as [|? ? Hz Hv3]; subst. inversion Hc2 as [|? ? Hcz Hc3]; subst.
    assert (G : honest m1 && plain_part (MRaw n) = true -> forall b, (let* pa := print E m1 in let* pb := print E (MRaw n) in Some (pa ++ encode_rune zeroWidthJoinRune ++ pb)) = Some b ->
      moves b (zw E (width E m1) (width E (MRaw n)))).
    { intros G1 b' G. apply andb_true_iff in G1 as [G1 G2]. destruct (print E m1) as [pa|] eqn:Hp; [|discriminate]. cbn [print] in G. apply some_inj in G. subst b'.
      specialize (IHm1 Hv1 Hs G1 (fun _ => Hc1) pa eq_refl). destruct (print_valid m1 Hv1 Hs pa Hp) as (rs & -> & Hrs).
      inversion Hv3 as [|? ? Hvn _]; subst. inversion Hc3 as [|? ? Hcn _]; subst.
      replace (encode_rune zeroWidthJoinRune ++ encode_rune n) with (encode [zeroWidthJoinRune] ++ encode [n]) by (cbn [encode flat_map]; now rewrite !app_nil_r).
      rewrite A5. change 8205 with zeroWidthJoinRune. replace (tw zeroWidthJoinRune) with (tsum [zeroWidthJoinRune]) by (cbn; lia).
      apply (moves_app (encode rs) (encode [n]) _ _ [zeroWidthJoinRune]).
      - exact IHm1.
      - apply (moves_runes _ [n]); [now apply runes_encode; constructor|now constructor|]. cbn. rewrite A3; [lia|exact Hcn|]. cbn in G2. unfold in_range in G2. lia.
      - apply width_nn.
      - constructor; [exact Hcz|constructor].
      - intros k. assert (F1 : Forall (fun r => valid_rune r = true) [n]) by (constructor; [exact Hvn|constructor]).
        assert (F2 : Forall (fun r => valid_rune r = true) (zeroWidthJoinRune :: [n])) by (constructor; [exact Hz|exact F1]).
        assert (F3 : Forall (fun r => valid_rune r = true) (rs ++ zeroWidthJoinRune :: [n])) by (apply Forall_app; split; [exact Hrs|exact F2]).
        rewrite <- (encode_app [zeroWidthJoinRune] [n]), <- encode_app. rewrite (runes_encode rs Hrs), (runes_encode [n] F1).
        change ([zeroWidthJoinRune] ++ [n]) with (zeroWidthJoinRune :: [n]). rewrite (runes_encode _ F3). now rewrite <- app_assoc. }
    cbn [width] in *. destruct m1; try exact (G Hh b H). apply some_inj in H. subst b.
    replace (write (MFlag r) ++ encode_rune zeroWidthJoinRune ++ write (MRaw n) ++ restoreCursor) with (write (MZwj (MFlag r) (MRaw n)) ++ restoreCursor)
      by (cbn [write]; now rewrite <- !app_assoc).
    apply saved_moves; [exact Hv'| |apply (width_nn (MZwj (MFlag r) (MRaw n)))]. apply Forall_app. auto.
  - specialize (Hc eq_refl). cbn [honest] in Hh. apply (moves_runes _ (mrunes (MMod m1 m2))); [|exact Hc|apply raw_sum; auto].
    change (write m1 ++ write m2) with (write (MMod m1 m2)). rewrite write_mrunes. now apply runes_encode.
  - specialize (Hc eq_refl). rewrite app_assoc with (l := write m1). apply (saved_moves (MVar m1 m2)); [exact Hv|exact Hc|apply width_nn].
Qed.

Lemma moves_nil : moves [] 0.
Proof. intros k c sv H. exists sv. cbn. now rewrite Z.add_0_r. Qed.
Definition fine (m : moji) : Prop := Forall vr (mrunes m) /\ shape m /\ honest m = true /\ (joined_unit m = true -> calm (mrunes m)).
Lemma list_moves l : Forall fine l -> forall b, prints E l = Some b -> moves b (columns E l) /\ exists rs, b = encode rs /\ Forall vr rs.
Proof.
  induction 1 as [|m l (H1 & H2 & H3 & H4) _ IH]; intros b H; cbn [prints] in H.
  - apply some_inj in H. subst b. split; [apply moves_nil|exists []; now split].
  - destruct (print E m) as [b1|] eqn:Hp; [|discriminate]. destruct (prints E l) as [b2|]; [|discriminate]. apply some_inj in H. subst b.
    destruct (IH b2 eq_refl) as [M2 (rs2 & -> & V2)]. pose proof (unit_moves m H1 H2 H3 H4 b1 Hp) as M1. destruct (print_valid m H1 H2 b1 Hp) as (rs1 & -> & V1).
    split.
    + intros k c sv Hc. rewrite <- encode_app, runes_encode by (apply Forall_app; auto). rewrite <- (runes_encode rs1 V1), <- (runes_encode rs2 V2), <- app_assoc.
      destruct (M1 (runes (encode rs2) ++ k) c sv Hc) as [sv1 ->]. pose proof (width_nn m).
      destruct (M2 k (c + width E m) sv1 ltac:(lia)) as [sv2 ->]. exists sv2. cbn [columns fold_right]. fold (columns E l). do 2 f_equal. lia.
    + exists (rs1 ++ rs2). split; [now rewrite encode_app|]. apply Forall_app. auto.
Qed.
Lemma moves_advances b n : moves b n -> advances tw other b n.
Proof. intros H c sv Hc. destruct (H [] c sv Hc) as [sv' Hs]. rewrite app_nil_r in Hs. rewrite Hs. reflexivity. Qed.
End Term.

Lemma no_controls_calm m : Forall vr (mrunes m) -> no_controls (write m) = true -> calm (mrunes m).
Proof.
  intros Hv H. unfold no_controls in H. rewrite write_mrunes, runes_encode in H by exact Hv. rewrite forallb_forall in H. apply Forall_forall.
  intros r Hr. apply H in Hr. now destruct (control r).
Qed.
Lemma reached_columns S x tw other a b q bs : scripted S -> reached S x -> agrees (cE (base S)) tw ->
  map c_moji (cells (buf_of x)) = a ++ b ++ q ->
  Forall (fun m => honest m = true /\ (joined_unit m = true -> no_controls (write m) = true)) b ->
  prints (cE (base S)) b = Some bs -> advances tw other bs (columns (cE (base S)) b).
Proof.
  intros HB HR HA Hl Hb Hp. apply moves_advances. eapply list_moves; [exact HA| |exact Hp].
  pose proof (LineInv.self_reached S x HB HR) as Hs. unfold line in Hs. rewrite <- (map_map c_moji MojiFacts.erase), Hl, Forall_map in Hs.
  apply Forall_app in Hs as [_ Hs]. apply Forall_app in Hs as [Hs _]. rewrite Forall_forall in *. intros m Hm. destruct (Hb m Hm) as [H1 H2]. specialize (Hs m Hm).
  assert (Hv : Forall vr (mrunes m)). { destruct Hs as [Hv _]. unfold moji_valid in Hv. now rewrite mrunes_erase in Hv. }
  split; [exact Hv|]. split; [apply (shape_erase _ tw other); exact (self_shape _ tw other _ Hs)|]. split; [exact H1|]. intros Hj. apply no_controls_calm; auto.
Qed.
(** The displayed forms. *)
Lemma ctrl_form E r pos : 0 <= r < 32 -> r <> 9 -> print E (rune2moji E r pos) = Some [94; r + 64].
Proof.
  intros H1 H2. unfold rune2moji. replace (r =? 9) with false by lia. replace (r <? 32) with true by lia. cbn [print]. do 3 f_equal. rewrite Z.mod_small; lia.
Qed.
Lemma esc_form E r pos : 32 <= r -> valid_rune r = true -> rune2moji E r pos = MEsc r ->
  exists h, print E (rune2moji E r pos) = Some ([60] ++ h ++ [62]) /\ hex_value h = r /\ Forall hex_char h /\ zlen h + 2 = width E (rune2moji E r pos).
Proof.
  intros H1 H2 H3. assert (Hr : 0 <= r < 4294967296) by (unfold valid_rune in H2; lia). destruct (hexX_ok r Hr) as (A & B & D).
  exists (hexX r). rewrite H3. cbn [print width]. auto.
Qed.
Lemma esc_when E r pos : 32 <= r -> ~ 9472 <= r <= 9599 -> rw E r = 0 -> rune2moji E r pos = MEsc r.
Proof.
  intros H1 H2 H3. unfold rune2moji, isToBeEscaped, in_range. replace (r =? 9) with false by lia. replace (r <? 32) with false by lia.
  replace ((9472 <=? r) && (r <=? 9599)) with false by lia. cbn [andb]. replace (rw E r =? 0) with true by lia. now rewrite orb_true_r.
Qed.
Lemma ctrl_shown E r pos : 0 <= r < 32 -> r <> 9 -> print E (rune2moji E r pos) = Some [94; r + 64] /\ width E (rune2moji E r pos) = 2.
Proof.
  intros H1 H2. split; [now apply ctrl_form|]. unfold rune2moji. replace (r =? 9) with false by lia. now replace (r <? 32) with true by lia.
Qed.
Lemma esc_shown E r pos : 32 <= r -> valid_rune r = true -> ~ 9472 <= r <= 9599 -> rw E r = 0 ->
  exists h, print E (rune2moji E r pos) = Some ([60] ++ h ++ [62]) /\ hex_value h = r /\ Forall hex_char h /\ zlen h + 2 = width E (rune2moji E r pos).
Proof. intros H1 H2 H3 H4. apply esc_form; auto. now apply esc_when. Qed.
Lemma reached_valid S x : scripted S -> reached S x -> Forall moji_valid (line (buf_of x)).
Proof. intros HB HR. eapply Forall_impl; [|exact (LineInv.self_reached S x HB HR)]. intros m H. apply H. Qed.
