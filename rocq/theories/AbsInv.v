(** Every command of the display-free editor succeeds and keeps its invariant, as long as
    no unit of the line begins with a joiner-like code point and SWAPCHAR is not used at
    the end of the line (that records a wrong undo position). *)
From Verif Require Import Base Utf8 Moji Color Prompt Buffer Commands KeyMap Session MojiFacts Abs AbsRef AbsSess AbsSafe.

Section WithCfg.
Variable C : cfg.
Notation E := (cE C).

Definition InvL (a : astate) : Prop :=
  Forall (self E) (aline a) /\ 0 <= ahptr a <= zlen (hist C) /\ undo_ok E (aline a) (aundo a).
Definition AInv (a : astate) : Prop := InvL a /\ 0 <= acur a <= zlen (aline a).
Definition heads (a : astate) : Prop := Forall (headok E) (aline a).

Lemma aupdate_shape a : exists x, aupdate C a = aset_suf a x.
Proof.
  unfold aupdate. destruct (pcolor0 C).
  - exists (asuf a). destruct a; reflexivity.
  - destruct (aline a); eauto.
Qed.
Lemma aupdate_line a : aline (aupdate C a) = aline a.
Proof. destruct (aupdate_shape a) as [x ->]. reflexivity. Qed.
Lemma aupdate_cur a : acur (aupdate C a) = acur a.
Proof. destruct (aupdate_shape a) as [x ->]. reflexivity. Qed.
Lemma aupdate_undo a : aundo (aupdate C a) = aundo a.
Proof. destruct (aupdate_shape a) as [x ->]. reflexivity. Qed.
Lemma AInv_aupdate a : AInv a -> AInv (aupdate C a).
Proof. destruct (aupdate_shape a) as [x ->]. intros H. exact H. Qed.
Lemma InvL_aupdate a : InvL a -> InvL (aupdate C a).
Proof. destruct (aupdate_shape a) as [x ->]. intros H. exact H. Qed.

Lemma Forall_firstn {A} (P : A -> Prop) l n : Forall P l -> Forall P (firstn n l).
Proof. intros H. rewrite <- (firstn_skipn n l) in H. now apply Forall_app in H. Qed.
Lemma Forall_skipn {A} (P : A -> Prop) l n : Forall P l -> Forall P (skipn n l).
Proof. intros H. rewrite <- (firstn_skipn n l) in H. now apply Forall_app in H. Qed.

Lemma ains_eq a pos l : 0 <= pos <= zlen (aline a) ->
  ains a pos l = Some (apush (aset_line a (firstn (Z.to_nat pos) (aline a) ++ l ++ skipn (Z.to_nat pos) (aline a)))
                             (mkUndo pos (zlen l) [])).
Proof. intros H. unfold ains. now rewrite sliceInsert_firstn. Qed.

Lemma ains_ok a pos l : InvL a -> Forall (self E) l -> 0 <= pos <= zlen (aline a) ->
  exists a', ains a pos l = Some a' /\ InvL a' /\
    aline a' = firstn (Z.to_nat pos) (aline a) ++ l ++ skipn (Z.to_nat pos) (aline a) /\
    zlen (aline a') = zlen (aline a) + zlen l /\ acur a' = acur a /\
    aundo a' = mkUndo pos (zlen l) [] :: aundo a.
Proof.
  intros (Hs & Hh & Hu) Hl Hp. rewrite ains_eq by exact Hp. eexists. split; [reflexivity|].
  cbn [aline aset_line apush aset_undo aundo acur].
  split; [|split; [reflexivity|split; [|split; reflexivity]]].
  - split; [|split; [exact Hh|]].
    + cbn. apply Forall_app. split; [now apply Forall_firstn|].
      apply Forall_app. split; [exact Hl|now apply Forall_skipn].
    + cbn [aundo aline apush aset_undo aset_line undo_ok]. exists (aline a). split; [|split; [cbn; lia|exact Hu]].
      apply undo1_ins; [exact Hp|]. now apply sliceInsert_firstn.
  - rewrite !zlen_app, zlen_firstn, zlen_skipn. lia.
Qed.

Lemma adelete_ok a pos n : InvL a -> heads a -> 0 <= pos ->
  exists a', adelete a pos n = Some a' /\ InvL a' /\ heads a' /\ acur a' = acur a /\
    ((a' = a /\ (n <= 0 \/ zlen (aline a) < pos + n)) \/
     (0 < n /\ pos + n <= zlen (aline a) /\
      aline a' = firstn (Z.to_nat pos) (aline a) ++ skipn (Z.to_nat (pos + n)) (aline a) /\
      zlen (aline a') = zlen (aline a) - n)).
Proof.
  intros (Hs & Hh & Hu) Hj Hp. unfold adelete.
  destruct ((n <=? 0) || (zlen (aline a) <? pos + n)) eqn:Hc.
  { exists a. split; [reflexivity|]. split; [exact (conj Hs (conj Hh Hu))|].
    split; [exact Hj|]. split; [reflexivity|]. left. split; [reflexivity|]. lia. }
  destruct (slice_ex (aline a) pos (pos + n)) as (d & p & q & Hd & Hpq & Hzp & Hzd); [lia|lia|].
  rewrite Hd. assert (Hdel := sliceDelete_firstn (aline a) pos n ltac:(lia) ltac:(lia) ltac:(lia)).
  rewrite Hdel. eexists. split; [reflexivity|].
  cbn [aline aset_line apush aset_undo aundo acur ahptr].
  split; [|split; [|split; [reflexivity|right]]].
  - split; [|split; [exact Hh|]].
    + cbn. apply Forall_app. split; [now apply Forall_firstn|now apply Forall_skipn].
    + cbn [aundo aline apush aset_undo aset_line undo_ok]. exists (aline a). split; [|split; [cbn; lia|exact Hu]].
      eapply (undo1_del E pos n); eauto; lia.
  - unfold heads in *. cbn. apply Forall_app. split; [now apply Forall_firstn|now apply Forall_skipn].
  - split; [lia|split; [lia|split; [reflexivity|]]].
    rewrite zlen_app, zlen_firstn, zlen_skipn. lia.
Qed.

Lemma join2_ok u1 u2 u l l' l'' : join2 u1 u2 = Some u -> u_text u2 = [] ->
  undo1 E u2 l = Some l' -> undo1 E u1 l' = Some l'' -> undo1 E u l = Some l''.
Proof.
  destruct u1 as [p1 d1 t1], u2 as [p2 d2 t2]. unfold join2. cbn [u_pos u_del u_text].
  intros H ->. destruct (p1 =? p2) eqn:Hp; [|discriminate]. apply Z.eqb_eq in Hp. subst p2. cbn [negb] in H.
  rewrite andb_false_r in H.
  unfold undo1. cbn [u_pos u_del u_text].
  destruct (d1 =? 0) eqn:Hd1; cbn [negb andb] in H.
  - apply Z.eqb_eq in Hd1. subst d1. injection H as <-. cbn [u_pos u_del u_text].
    intros Hu2 Hu1. destruct (if 0 <? d2 then sliceDelete l p1 d2 else Some l) as [x|]; [|discriminate].
    injection Hu2 as <-. cbn in Hu1. destruct t1; exact Hu1.
  - destruct (d2 =? 0) eqn:Hd2; [|discriminate]. apply Z.eqb_eq in Hd2. subst d2. injection H as <-.
    cbn [u_pos u_del u_text]. intros Hu2 Hu1. cbn in Hu2. injection Hu2 as <-.
    destruct t1; exact Hu1.
Qed.


Lemma ajoin_ok a u2 st : aundo a = u2 :: st -> u_text u2 = [] -> InvL a ->
  InvL (ajoin a) /\ aline (ajoin a) = aline a /\ acur (ajoin a) = acur a.
Proof.
  intros Hu Ht (H1 & H2 & H3). unfold ajoin. rewrite Hu in *.
  destruct st as [|u1 rest]; [repeat split; auto; try apply H2; rewrite Hu; exact H3|].
  destruct (join2 u1 u2) as [u|] eqn:Hj; [|repeat split; auto; try apply H2; rewrite Hu; exact H3].
  split; [|split; reflexivity]. split; [exact H1|]. split; [exact H2|]. cbn [aundo aline aset_undo].
  destruct H3 as (l' & Hl & _ & l'' & Hl' & Hp & Hr). exists l''. split; [eapply join2_ok; eauto|].
  split; [|exact Hr]. unfold join2 in Hj. destruct (negb (u_pos u1 =? u_pos u2)); [discriminate|].
  destruct (_ && _); [discriminate|]. destruct (_ && _); [discriminate|]. injection Hj as <-. exact Hp.
Qed.

Lemma firstn_firstn_app {A} (l r : list A) n : 0 <= n <= zlen l ->
  firstn (Z.to_nat n) (firstn (Z.to_nat n) l ++ r) = firstn (Z.to_nat n) l.
Proof.
  intros H. assert (Hz : zlen (firstn (Z.to_nat n) l) = n) by (rewrite zlen_firstn; lia).
  rewrite <- Hz at 1. apply firstn_zlen_app.
Qed.
Lemma skipn_firstn_app {A} (l r : list A) n : 0 <= n <= zlen l ->
  skipn (Z.to_nat n) (firstn (Z.to_nat n) l ++ r) = r.
Proof.
  intros H. assert (Hz : zlen (firstn (Z.to_nat n) l) = n) by (rewrite zlen_firstn; lia).
  rewrite <- Hz at 1. apply skipn_zlen_app.
Qed.

Lemma areplace_ok a pos t : InvL a -> heads a -> 0 <= pos <= acur a -> acur a <= zlen (aline a) ->
  exists a', areplace C a pos t = Some a' /\ AInv a' /\
    aline a' = firstn (Z.to_nat pos) (aline a) ++ units E t ++ skipn (Z.to_nat (acur a)) (aline a) /\
    acur a' = pos + zlen (units E t).
Proof.
  intros HI Hh Hp Hc. unfold areplace.
  destruct (adelete_ok a pos (acur a - pos) HI Hh) as (a1 & Hd & HI1 & Hh1 & Hc1 & Hl); [lia|]. rewrite Hd.
  assert (Hl1 : pos <= zlen (aline a1) /\ firstn (Z.to_nat pos) (aline a1) = firstn (Z.to_nat pos) (aline a)
                /\ skipn (Z.to_nat pos) (aline a1) = skipn (Z.to_nat (acur a)) (aline a)).
  { destruct Hl as [(-> & [Hn|Hn])|(Hn & Hle & Hl & Hz)].
    - replace (acur a) with pos by lia. repeat split; lia.
    - lia.
    - split; [lia|]. rewrite Hl. replace (pos + (acur a - pos)) with (acur a) by lia.
      split; [apply firstn_firstn_app; lia|apply skipn_firstn_app; lia]. }
  destruct Hl1 as (Hz1 & Hf1 & Hs1).
  destruct (ains_ok a1 pos (units E t) HI1 (units_self E t)) as (a2 & Hi & HI2 & Hl2 & Hz2 & Hc2 & Hu2); [lia|].
  rewrite Hi. eexists. split; [reflexivity|].
  set (a3 := aset_cur a2 (pos + zlen (units E t))).
  assert (HI3 : InvL a3) by exact HI2.
  destruct (ajoin_ok a3 _ _ Hu2 eq_refl HI3) as (HI4 & Hl4 & Hc4).
  rewrite aupdate_line, aupdate_cur, Hl4, Hc4. subst a3. cbn [acur aline aset_cur] in *.
  rewrite Hl2, Hf1, Hs1. split; [|split; reflexivity]. apply AInv_aupdate. split; [exact HI4|].
  rewrite Hl4, Hc4. rewrite Hz2. pose proof (zlen_nonneg (units E t)). lia.
Qed.

Lemma aBackwardDelete_ok a : AInv a -> heads a ->
  exists a', aBackwardDelete C a = Some a' /\ AInv a' /\ heads a' /\ apend a' = apend a.
Proof.
  intros (HI & Hc) Hh. unfold aBackwardDelete. destruct (0 <? acur a) eqn:H0; [|exists a; repeat split; auto; apply HI || apply Hc].
  destruct (adelete_ok (aset_cur a (acur a - 1)) (acur a - 1) 1) as (a1 & Hd & HI1 & Hh1 & Hc1 & Hl); [exact HI|exact Hh|lia|].
  assert (Hp : apend a1 = apend a).
  { unfold adelete in Hd. destruct (_ || _); [injection Hd as <-; reflexivity|]. opt Hd. injection Hd as <-. reflexivity. }
  rewrite Hd. eexists. split; [reflexivity|]. destruct (aupdate_shape a1) as [x ->]. cbn [apend aset_suf].
  split; [|split; [exact Hh1|exact Hp]].
  split; [exact HI1|]. cbn [acur aline aset_suf aset_cur] in *. destruct Hl as [(-> & Hx)|(Hx & _ & _ & Hz)]; cbn in *; lia.
Qed.

Lemma aself_tail_ok a k : AInv a -> exists a', aself_tail C a k = Some a' /\ AInv a'.
Proof.
  intros (HI & Hc). unfold aself_tail.
  destruct (ains_ok a (acur a) (units E k) HI (units_self E k) Hc) as (a1 & Hi & HI1 & Hl & Hz & Hc1 & Hu).
  rewrite Hi. eexists. split; [reflexivity|]. apply AInv_aupdate. split; [exact HI1|].
  cbn. rewrite Hz, Hc1. pose proof (zlen_nonneg (units E k)). lia.
Qed.

Lemma aselfInsert_ok k a : AInv a -> heads a -> exists a', aselfInsert C k a = Some a' /\ AInv a'.
Proof.
  intros HA Hh. unfold aselfInsert. pose proof HA as (HI & Hc).
  destruct (AreZeroWidthJoin E (altgr k) && (0 <? acur a)) eqn:H1.
  { destruct (index_lt (aline a) (acur a - 1)) as (m & Hm); [lia|]. rewrite Hm.
    destruct (aBackwardDelete_ok (aset_pend a (write m ++ altgr k))) as (a' & Ha & HA' & _); [exact HA|exact Hh|].
    eauto. }
  destruct ((AreVariationSelectorLike E (altgr k) || AreEmojiModifier E (altgr k)) && (0 <? acur a)) eqn:H2.
  { destruct (index_lt (aline a) (acur a - 1)) as (m & Hm); [lia|]. rewrite Hm.
    destruct (aBackwardDelete_ok a HA Hh) as (a' & Ha & HA' & _). rewrite Ha. now apply aself_tail_ok. }
  destruct (apend a); [now apply aself_tail_ok|]. apply aself_tail_ok. exact HA.
Qed.

Lemma aKillLine_ok a : AInv a -> heads a -> exists a', aKillLine a = Some a' /\ AInv a'.
Proof.
  intros (HI & Hc) Hh. unfold aKillLine.
  destruct (slice_ex (aline a) (acur a) (zlen (aline a))) as (d & p & q & Hd & Hpq & Hzp & Hzd); [lia|lia|].
  rewrite Hd. destruct (slice_ex (aline a) 0 (acur a)) as (d2 & p2 & q2 & Hd2 & Hpq2 & Hzp2 & Hzd2); [lia|lia|].
  rewrite Hd2. eexists. split; [reflexivity|].
  assert (q = []) as -> by (apply zlen_0; rewrite Hpq, !zlen_app in Hzd; lia). rewrite app_nil_r in Hpq.
  assert (Hd2' : d2 = p). { apply slice_some in Hd2 as (_ & _ & ->). cbn. rewrite Z.sub_0_r, Hpq, <- Hzp. apply firstn_zlen_app. }
  subst d2. assert (Hw : exists cl, aclip_write a (text d) = aset_clip a cl)
    by (unfold aclip_write; destruct (aclip a) eqn:Hcl; [eauto|exists None; destruct a; cbn in *; now subst]).
  destruct Hw as [cl ->]. destruct HI as (H1 & H2 & H3).
  split; [|cbn; lia]. split; [|split; [exact H2|]].
  - cbn. rewrite Hpq in H1. now apply Forall_app in H1.
  - cbn [aundo aline apush aset_undo aset_line aset_clip undo_ok acur]. exists (aline a). split; [|split; [cbn; lia|exact H3]].
    pose proof (zlen_nonneg d) as Hzn. eapply (undo1_del E (acur a) (zlen d) (aline a) d p); auto; try lia.
    + replace (acur a + zlen d) with (zlen (aline a)) by lia. exact Hd.
    + rewrite sliceDelete_firstn by (pose proof (zlen_nonneg d); lia).
      replace (acur a + zlen d) with (zlen (aline a)) by lia. rewrite (to_nat_zlen (aline a)), skipn_all, app_nil_r.
      rewrite Hpq, <- Hzp. f_equal. apply firstn_zlen_app.
Qed.

Lemma undo1_whole l : Forall (self E) l -> Forall (headok E) l -> undo1 E (mkUndo 0 0 (text l)) [] = Some l.
Proof.
  intros Hs Hh. unfold undo1. cbn [u_del u_pos u_text]. change (0 <? 0) with false. cbn iota.
  destruct (text l) eqn:Ht; [apply text_nil_iff in Ht; now subst|]. rewrite <- Ht, units_text by assumption.
  apply sliceInsert_nil.
Qed.

Lemma aKillWhole_ok a : InvL a -> heads a -> AInv (aKillWhole a).
Proof.
  intros (H1 & H2 & H3) Hh. split; [|split; [reflexivity|apply zlen_nonneg]]. split; [constructor|]. split; [exact H2|].
  cbn [aundo aline aKillWhole aset_cur aset_line apush aset_undo undo_ok].
  exists (aline a). split; [now apply undo1_whole|]. split; [|exact H3].
  pose proof (zlen_nonneg (aline a)). cbn. lia.
Qed.

Lemma word_loop_range l : forall i q top, -1 <= top -> top < i \/ top = -1 -> 0 <= i ->
  -1 <= word_loop i q top l /\ (word_loop i q top l < i + zlen l).
Proof.
  induction l as [|m l IH]; intros i q top H1 H2 H3; cbn [word_loop].
  - rewrite zlen_nil. lia.
  - rewrite zlen_cons. destruct (MojiToRune m) as [ch|].
    + match goal with |- context [word_loop (i + 1) ?q ?t l] => destruct (IH (i + 1) q t) end; [| | |lia].
      * destruct (_ && _); [lia|]. destruct (top <? 0); lia.
      * destruct (_ && _); [lia|]. destruct (top <? 0); lia.
      * lia.
    + destruct (IH (i + 1) q top); lia.
Qed.

Lemma aWordTop_ok a : 0 <= acur a <= zlen (aline a) -> exists z, aWordTop a = Some z /\ 0 <= z <= acur a.
Proof.
  intros Hc. unfold aWordTop.
  destruct (slice_ex (aline a) 0 (acur a)) as (d & p & q & Hd & Hpq & Hzp & Hzd); [lia|lia|]. rewrite Hd.
  eexists. split; [reflexivity|].
  pose proof (word_loop_range d 0 0 (-1) ltac:(lia) ltac:(lia) ltac:(lia)).
  destruct (word_loop 0 0 (-1) d <? 0) eqn:Hx; lia.
Qed.

Lemma count_while_le {A} (p : A -> bool) l : Z.of_nat (count_while p l) <= zlen l.
Proof.
  induction l as [|x l IH]; cbn [count_while]; [reflexivity|]. rewrite zlen_cons. pose proof (zlen_nonneg l).
  destruct (p x); lia.
Qed.
Lemma zlen_rev {A} (l : list A) : zlen (rev l) = zlen l.
Proof. unfold zlen. now rewrite rev_length. Qed.

Lemma aclip_shape a t : exists cl, aclip_write a t = aset_clip a cl.
Proof. unfold aclip_write. destruct (aclip a) eqn:Hcl; [eauto|exists None; destruct a; cbn in *; now subst]. Qed.

Lemma aWordRubout_ok a : AInv a -> heads a -> exists a', aWordRubout C a = Some a' /\ AInv a'.
Proof.
  intros (HI & Hc) Hh. unfold aWordRubout.
  destruct (slice_ex (aline a) 0 (acur a)) as (d & p & q & Hd & Hpq & Hzp & Hzd); [lia|lia|]. rewrite Hd.
  pose proof (count_while_le IsSpaceMoji (rev d)) as Hn. rewrite zlen_rev in Hn.
  set (k := Z.of_nat (count_while IsSpaceMoji (rev d))) in *.
  assert (0 <= k) by (subst k; lia).
  destruct (aWordTop_ok (aset_cur a (acur a - k))) as (z & Hz & Hzr); [cbn; lia|]. rewrite Hz. cbn [acur aset_cur] in Hzr.
  cbn [aline aset_cur].
  destruct (slice_ex (aline a) z (acur a)) as (d2 & p2 & q2 & Hd2 & _); [lia|lia|]. rewrite Hd2.
  destruct (aclip_shape (aset_cur a (acur a - k)) (text d2)) as [cl ->].
  destruct (adelete_ok (aset_clip (aset_cur a (acur a - k)) cl) z (acur a - z)) as (a1 & Ha & HI1 & Hh1 & Hc1 & Hl);
    [exact HI|exact Hh|lia|].
  rewrite Ha. eexists. split; [reflexivity|]. apply AInv_aupdate. split; [exact HI1|]. cbn.
  destruct Hl as [(-> & Hx)|(Hx & _ & _ & Hzz)]; cbn in *; lia.
Qed.

Lemma aLineDiscard_ok a : AInv a -> heads a -> exists a', aLineDiscard C a = Some a' /\ AInv a'.
Proof.
  intros (HI & Hc) Hh. unfold aLineDiscard.
  destruct (slice_ex (aline a) 0 (acur a)) as (d & p & q & Hd & Hpq & Hzp & Hzd); [lia|lia|]. rewrite Hd.
  destruct (aclip_shape a (text d)) as [cl ->].
  destruct (adelete_ok (aset_clip a cl) 0 (acur a)) as (a1 & Ha & HI1 & Hh1 & Hc1 & Hl); [exact HI|exact Hh|lia|].
  rewrite Ha. eexists. split; [reflexivity|]. apply AInv_aupdate. split; [exact HI1|]. cbn.
  pose proof (zlen_nonneg (aline a1)). lia.
Qed.

Lemma aYank_ok f a : AInv a -> heads a -> exists a', aYank C f a = Some a' /\ AInv a'.
Proof.
  intros (HI & Hc) Hh. unfold aYank. destruct (aclip a) as [t|]; [|exists a; split; [reflexivity|split; auto]].
  destruct (areplace_ok a (acur a) (f t) HI Hh) as (a' & Ha & HA & _); [lia|lia|]. eauto.
Qed.

Lemma set_index_mid {A} (p q : list A) x y : set_index (p ++ x :: q) (zlen p) y = Some (p ++ y :: q).
Proof.
  unfold set_index. rewrite zlen_app, zlen_cons. pose proof (zlen_nonneg p). pose proof (zlen_nonneg q).
  replace (_ && _) with true by lia.
  f_equal. rewrite firstn_zlen_app. f_equal.
  replace (S (Z.to_nat (zlen p))) with (Z.to_nat (zlen (p ++ [x]))) by (rewrite zlen_app, zlen_cons, zlen_nil; lia).
  replace (p ++ x :: q) with ((p ++ [x]) ++ q) by (rewrite <- app_assoc; reflexivity).
  now rewrite skipn_zlen_app.
Qed.

Lemma aswap_mid p x y q : aswap (p ++ x :: y :: q) (zlen p) (zlen p + 1) = Some (p ++ y :: x :: q).
Proof.
  unfold aswap. rewrite index_app_mid.
  assert (Hz : zlen p + 1 = zlen (p ++ [x])) by (rewrite zlen_app; reflexivity).
  replace (p ++ x :: y :: q) with ((p ++ [x]) ++ y :: q) at 1 by (rewrite <- app_assoc; reflexivity).
  rewrite Hz, index_app_mid, set_index_mid.
  replace (p ++ y :: y :: q) with ((p ++ [y]) ++ y :: q) by (rewrite <- app_assoc; reflexivity).
  replace (zlen (p ++ [x])) with (zlen (p ++ [y])) by (rewrite !zlen_app; reflexivity).
  rewrite set_index_mid. now rewrite <- app_assoc.
Qed.

Lemma slice_two {A} (l : list A) i : 0 <= i -> i + 2 <= zlen l ->
  exists p x y q, l = p ++ x :: y :: q /\ zlen p = i /\ slice l i (i + 2) = Some [x; y].
Proof.
  intros H1 H2. destruct (slice_ex l i (i + 2)) as (d & p & q & Hd & Hl & Hp & Hz); [lia|lia|].
  destruct d as [|x [|y [|z d]]].
  - unfold zlen in Hz; cbn in Hz; lia.
  - unfold zlen in Hz; cbn in Hz; lia.
  - exists p, x, y, q. auto.
  - unfold zlen in Hz; cbn [List.length] in Hz; lia.
Qed.

Definition swap_at_end (a : astate) : Prop := acur a = zlen (aline a) /\ 2 <= acur a.

Lemma aSwapChar_ok a : AInv a -> heads a -> ~ swap_at_end a -> exists a', aSwapChar a = Some a' /\ AInv a'.
Proof.
  intros (HI & Hc) Hh Hns. unfold aSwapChar. destruct (zlen (aline a) =? acur a) eqn:He.
  - destruct (acur a <? 2) eqn:H2; [exists a; split; [reflexivity|split; auto]|].
    exfalso. apply Hns. split; lia.
  - destruct (acur a <? 1) eqn:H2; [exists a; split; [reflexivity|split; auto]|].
    destruct (slice_two (aline a) (acur a - 1)) as (p & x & y & q & Hl & Hp & Hd); [lia|lia|].
    replace (acur a - 1 + 2) with (acur a + 1) in Hd by lia. rewrite Hd.
    assert (Hsw : aswap (aline a) (acur a - 1) (acur a) = Some (p ++ y :: x :: q)).
    { rewrite Hl, <- Hp. replace (acur a) with (zlen p + 1) by lia. apply aswap_mid. }
    rewrite Hsw.
    eexists. split; [reflexivity|]. destruct HI as (H3 & H4 & H5). unfold heads in Hh.
    split.
    + split; [|split; [exact H4|]].
      * cbn. rewrite Hl in H3. apply Forall_app in H3 as [Ha Hb]. inversion Hb as [|? ? Hx Hb']; subst.
        inversion Hb' as [|? ? Hy Hq]; subst. apply Forall_app. split; auto.
      * cbn [aundo aline apush aset_undo aset_line aset_cur undo_ok]. exists (aline a). split; [|split; [cbn; lia|exact H5]].
        unfold undo1. cbn [u_del u_pos u_text]. change (0 <? 2) with true. cbn iota.
        rewrite <- Hp. change 2 with (zlen [y; x]).
        change (p ++ y :: x :: q) with (p ++ [y; x] ++ q). rewrite sliceDelete_spec.
        rewrite Hl in H3, Hh. apply Forall_app in H3 as [_ Ha]. apply Forall_app in Hh as [_ Hb].
        assert (Hut : units E (text [x; y]) = [x; y]).
        { inversion Ha as [|? ? ? Ha']; subst. inversion Ha'; subst.
          inversion Hb as [|? ? ? Hb']; subst. inversion Hb'; subst. apply units_text; auto. }
        destruct (text [x; y]) eqn:Ht; [apply text_nil_iff in Ht; discriminate|].
        rewrite Hut, Hl. change (p ++ x :: y :: q) with (p ++ [x; y] ++ q). apply sliceInsert_spec.
    + cbn. rewrite Hl in He, Hc. rewrite !zlen_app, !zlen_cons in *. lia.
Qed.

Lemma aBackwardWord_ok a : AInv a -> exists a', aBackwardWord C a = Some a' /\ AInv a'.
Proof.
  intros (HI & Hc). unfold aBackwardWord.
  destruct (slice_ex (aline a) 0 (acur a)) as (d & p & q & Hd & Hpq & Hzp & Hzd); [lia|lia|]. rewrite Hd.
  eexists. split; [reflexivity|]. apply AInv_aupdate. split; [exact HI|]. cbn.
  set (n1 := count_while IsSpaceMoji (rev d)).
  pose proof (count_while_le IsSpaceMoji (rev d)) as H1.
  pose proof (count_while_le (fun m => negb (IsSpaceMoji m)) (skipn n1 (rev d))) as H2.
  rewrite zlen_skipn, zlen_rev in H2. rewrite zlen_rev in H1. fold n1 in H1. lia.
Qed.

Lemma aForwardWord_ok b a : AInv a -> exists a', aForwardWord C b a = Some a' /\ AInv a'.
Proof.
  intros (HI & Hc). unfold aForwardWord.
  destruct (slice_ex (aline a) (acur a) (zlen (aline a))) as (d & p & q & Hd & Hpq & Hzp & Hzd); [lia|lia|]. rewrite Hd.
  set (n1 := count_while (fun m => negb (IsSpaceMoji m)) d).
  pose proof (count_while_le (fun m => negb (IsSpaceMoji m)) d) as H1.
  pose proof (count_while_le IsSpaceMoji (skipn n1 d)) as H2.
  rewrite zlen_skipn in H2. fold n1 in H1.
  eexists. split; [reflexivity|].
  assert (HA : AInv (aset_cur a (acur a + Z.of_nat n1 + Z.of_nat (count_while IsSpaceMoji (skipn n1 d))))).
  { split; [exact HI|]. cbn. lia. }
  destruct b; [now apply AInv_aupdate|exact HA].
Qed.

Lemma undo1_self u l l' : Forall (self E) l -> undo1 E u l = Some l' -> Forall (self E) l'.
Proof.
  intros Hs H. unfold undo1 in H. opt H.
  assert (Hl0 : Forall (self E) l0).
  { destruct (0 <? u_del u) eqn:Hr; [|now injection Ev as <-].
    destruct (Z_le_dec 0 (u_pos u)) as [Hp|Hp]; [|rewrite sliceDelete_none in Ev by lia; discriminate].
    destruct (Z_le_dec (u_pos u + u_del u) (zlen l)) as [Hq|Hq].
    - rewrite sliceDelete_firstn in Ev by lia. injection Ev as <-.
      apply Forall_app. split; [now apply Forall_firstn|now apply Forall_skipn].
    - rewrite sliceDelete_none in Ev by lia. discriminate. }
  destruct (u_text u) as [|x t]; [now injection H as <-|].
  destruct (Z_le_dec 0 (u_pos u)) as [Hp|Hp]; [|rewrite sliceInsert_none in H by lia; discriminate].
  destruct (Z_le_dec (u_pos u) (zlen l0)) as [Hq|Hq]; [|rewrite sliceInsert_none in H by lia; discriminate].
  rewrite sliceInsert_firstn in H by lia. injection H as <-.
  apply Forall_app. split; [now apply Forall_firstn|]. apply Forall_app. split; [apply units_self|now apply Forall_skipn].
Qed.

(** The cursor after UNDO: inside the line. *)
Lemma aUndo_ok a : AInv a -> exists a', aUndo C a = Some a' /\ AInv a'.
Proof.
  intros (HI & Hc). unfold aUndo. destruct (aundo a) as [|u st] eqn:Hu.
  { exists a. split; [reflexivity|split; auto]. }
  destruct HI as (H1 & H2 & H3). rewrite Hu in H3. destruct H3 as (l' & Hl' & Hpos & Hok).
  pose proof (undo1_self _ _ _ H1 Hl') as Hs'. unfold undo1 in Hl'.
  destruct (if 0 <? u_del u then sliceDelete (aline a) (u_pos u) (u_del u) else Some (aline a)) as [l1|] eqn:Hl1; [|discriminate].
  destruct (u_text u) as [|x t] eqn:Ht.
  - injection Hl' as <-. eexists. split; [reflexivity|]. apply AInv_aupdate.
    split; [repeat split; [exact Hs'|apply H2|apply H2|exact Hok]|]. cbn.
    lia.
  - rewrite Hl'. eexists. split; [reflexivity|]. apply AInv_aupdate.
    split; [repeat split; [exact Hs'|apply H2|apply H2|exact Hok]|]. cbn [acur aline aset_cur aset_line].
    destruct (Z_le_dec 0 (u_pos u)) as [Hp|Hp]; [|rewrite sliceInsert_none in Hl' by lia; discriminate].
    destruct (Z_le_dec (u_pos u) (zlen l1)) as [Hq|Hq]; [|rewrite sliceInsert_none in Hl' by lia; discriminate].
    rewrite sliceInsert_firstn in Hl' by lia. injection Hl' as <-.
    rewrite !zlen_app, zlen_firstn, zlen_skipn. pose proof (zlen_nonneg (units E (x :: t))). lia.
Qed.

Lemma aForwardChar_ok a : AInv a -> heads a -> exists a', aForwardChar C a = Some a' /\ AInv a'.
Proof.
  intros (HI & Hc) Hh. unfold aForwardChar. destruct (zlen (aline a) <=? acur a) eqn:He.
  - destruct (asuf a) as [|m l]; [exists a; split; [reflexivity|split; auto]|].
    destruct (areplace_ok a (acur a) (text (m :: l)) HI Hh) as (a' & Ha & HA & _); [lia|lia|]. eauto.
  - eexists. split; [reflexivity|]. split; [exact HI|]. cbn. lia.
Qed.

Lemma asave_ok a : 0 <= ahptr a <= zlen (hist C) + 1 ->
  exists mh, asave C a = Some (aset_modh a mh).
Proof.
  intros Hh. unfold asave. destruct (ahptr a <? zlen (hist C)) eqn:H1; [|eauto].
  destruct (index_lt (hist C) (ahptr a)) as (h & Hx); [lia|]. rewrite Hx.
  destruct (str_eqb h (atext a)); [|eauto]. exists (amodh a). destruct a; reflexivity.
Qed.

Lemma agetHistory_ok a : exists t, agetHistory C a = Some t.
Proof.
  unfold agetHistory. destruct (aget Z.eqb (amodh a) (ahptr a)); [eauto|].
  destruct ((ahptr a <? 0) || (zlen (hist C) <=? ahptr a)) eqn:H1; [eauto|].
  apply index_lt. lia.
Qed.

Lemma ashow_ok a : InvL a -> heads a -> exists a', ashow C a = Some a' /\ AInv a'.
Proof.
  intros HI Hh. unfold ashow. pose proof (aKillWhole_ok a HI Hh) as HK.
  destruct (agetHistory_ok (aKillWhole a)) as (t & Ht). rewrite Ht.
  destruct t as [|x t]; [eauto|].
  destruct (ains_ok (aKillWhole a) 0 (units E (x :: t)) (proj1 HK) (units_self E _)) as (a2 & Ha & HI2 & _).
  { split; [lia|apply zlen_nonneg]. }
  rewrite Ha. eexists. split; [reflexivity|]. split; [exact HI2|]. cbn. pose proof (zlen_nonneg (aline a2)). lia.
Qed.

Lemma aPrevious_ok a : AInv a -> heads a -> exists a', aPrevious C a = Some a' /\ AInv a'.
Proof.
  intros (HI & Hc) Hh. unfold aPrevious. pose proof HI as (H1 & H2 & H3).
  destruct (zlen (hist C) <=? 0) eqn:H0; [exists a; split; [reflexivity|split; auto]|].
  destruct (ahptr a <=? 0) eqn:Hp.
  - destruct (negb (cycling C)); [exists a; split; [reflexivity|split; auto]|].
    destruct (asave_ok (aset_hptr a (zlen (hist C) + 1))) as (mh & ->); [cbn; lia|].
    apply ashow_ok; [|exact Hh]. split; [exact H1|]. split; [cbn; lia|exact H3].
  - destruct (asave_ok a) as (mh & ->); [lia|].
    apply ashow_ok; [|exact Hh]. split; [exact H1|]. split; [cbn; lia|exact H3].
Qed.

Lemma aNext_ok a : AInv a -> heads a -> exists a', aNext C a = Some a' /\ AInv a'.
Proof.
  intros (HI & Hc) Hh. unfold aNext. pose proof HI as (H1 & H2 & H3).
  destruct (zlen (hist C) <=? 0) eqn:H0; [exists a; split; [reflexivity|split; auto]|].
  destruct (zlen (hist C) <? ahptr a + 1) eqn:Hp; [exists a; split; [reflexivity|split; auto]|].
  destruct (asave_ok a) as (mh & ->); [lia|].
  apply ashow_ok; [|exact Hh]. split; [exact H1|]. split; [cbn; lia|exact H3].
Qed.

(** No built-in command gets stuck. *)
Lemma aexec_ok b c a : builtin c -> AInv a -> heads a -> ~ (c = CSwapChar /\ swap_at_end a) ->
  exists a' r, aexec C b c a = Some (a', r) /\ AInv a'.
Proof.
  intros Hb HA Hh Hsw. pose proof HA as (HI & Hc).
  assert (G : forall o, (exists a', o = Some a' /\ AInv a') ->
              exists a' r, acontinue o = Some (a', r) /\ AInv a').
  { intros o (a' & -> & H). cbn. eauto. }
  destruct c; cbn [aexec]; try destruct Hb.
  - eauto.
  - do 2 eexists. split; [reflexivity|]. split; [|split; [reflexivity|apply zlen_nonneg]].
    split; [constructor|]. split; [apply HI|reflexivity].
  - do 2 eexists. split; [reflexivity|]. apply AInv_aupdate. split; [exact HI|]. cbn. pose proof (zlen_nonneg (aline a)). lia.
  - do 2 eexists. split; [reflexivity|]. unfold aBackwardChar. destruct (acur a <=? 0) eqn:H0; [exact HA|].
    apply AInv_aupdate. split; [exact HI|]. cbn. lia.
  - do 2 eexists. split; [reflexivity|]. split; [exact HI|]. cbn. pose proof (zlen_nonneg (aline a)). lia.
  - apply G. now apply aForwardChar_ok.
  - apply G. destruct (aBackwardDelete_ok a HA Hh) as (a' & Ha & HA' & _). eauto.
  - apply G. unfold aDelete. destruct (adelete_ok a (acur a) 1 HI Hh) as (a' & Ha & HI' & _ & Hc' & Hl); [lia|].
    rewrite Ha. eexists. split; [reflexivity|]. apply AInv_aupdate. split; [exact HI'|].
    destruct Hl as [(-> & Hx)|(Hx & Hy & _ & Hz)]; lia.
  - destruct (0 <? zlen (aline a)); [|eauto].
    apply G. unfold aDelete. destruct (adelete_ok a (acur a) 1 HI Hh) as (a' & Ha & HI' & _ & Hc' & Hl); [lia|].
    rewrite Ha. eexists. split; [reflexivity|]. apply AInv_aupdate. split; [exact HI'|].
    destruct Hl as [(-> & Hx)|(Hx & Hy & _ & Hz)]; lia.
  - apply G. now apply aKillLine_ok.
  - do 2 eexists. split; [reflexivity|]. now apply aKillWhole_ok.
  - apply G. now apply aWordRubout_ok.
  - apply G. now apply aLineDiscard_ok.
  - do 2 eexists. split; [reflexivity|]. now apply AInv_aupdate.
  - do 2 eexists. split; [reflexivity|]. now apply AInv_aupdate.
  - eauto.
  - apply G. now apply aYank_ok.
  - apply G. now apply aYank_ok.
  - apply G. apply aSwapChar_ok; auto.
  - apply G. now apply aBackwardWord_ok.
  - apply G. now apply aForwardWord_ok.
  - apply G. now apply aUndo_ok.
  - apply G. now apply aPrevious_ok.
  - apply G. now apply aNext_ok.
  - eauto.
  - apply G. now apply aselfInsert_ok.
Qed.

End WithCfg.

Section WithSess.
Variable S : scfg.
Notation C := (base S).
Notation E := (cE C).

(** lastFoundPos stays a history index (or -1 if the history is empty). *)
Definition ss_ok (ss : search) : Prop :=
  (zlen (hist C) = 0 /\ ss_pos ss = -1) \/ 0 <= ss_pos ss < zlen (hist C).
Definition mode_ok (m : mode) : Prop := match m with MSearch ss => ss_ok ss | _ => True end.

Lemma search_update_ok l : forall i ss, ss_ok ss -> i = zlen l - 1 -> zlen l <= zlen (hist C) ->
  ss_ok (search_update S l i ss).
Proof.
  induction l as [|h l IH]; intros i ss Hs Hi Hl; cbn [search_update]; [exact Hs|].
  rewrite zlen_cons in *. pose proof (zlen_nonneg l). destruct (ci_contains S h (ss_str ss)).
  - right. cbn. lia.
  - apply IH; [exact Hs|lia|lia].
Qed.
Lemma update_ok ss : ss_ok ss -> ss_ok (update S ss).
Proof.
  intros H. unfold update. apply search_update_ok; [exact H| |]; rewrite zlen_rev; lia.
Qed.

(** Scanning to older entries: stops after visiting every other entry at most once. *)
Lemma search_older_ok fuel : forall i ss, ss_ok ss -> (-1 <= i < zlen (hist C) \/ (zlen (hist C) = 0 /\ i = -2)) ->
  Z.of_nat fuel > (if i <? ss_pos ss then i + 1 + (zlen (hist C) - ss_pos ss) else i - ss_pos ss) ->
  exists ss', search_older S fuel i ss = Some ss' /\ ss_ok ss' /\ ss_str ss' = ss_str ss.
Proof.
  induction fuel as [|f IH]; intros i ss Hs Hi Hf.
  - destruct Hs as [[H1 H2]|Hs]; [exfalso; destruct (i <? ss_pos ss) eqn:Hx; lia|].
    exfalso; destruct (i <? ss_pos ss) eqn:Hx; lia.
  - cbn [search_older].
    destruct (i <? 0) eqn:H0.
    + destruct (zlen (hist C) - 1 =? ss_pos ss) eqn:He; [eauto|].
      destruct Hs as [[H1 H2]|Hs]; [lia|].
      destruct (index_lt (hist C) (zlen (hist C) - 1)) as (h & Hh); [lia|]. rewrite Hh.
      destruct (_ && _); [eexists; split; [reflexivity|]; split; [right; cbn; lia|reflexivity]|].
      apply IH; [now right|lia|]. destruct (i <? ss_pos ss) eqn:Hx; [|lia].
      destruct (zlen (hist C) - 1 - 1 <? ss_pos ss) eqn:Hy; lia.
    + destruct (i =? ss_pos ss) eqn:He; [eauto|].
      destruct Hs as [[H1 H2]|Hs]; [lia|].
      destruct (index_lt (hist C) i) as (h & Hh); [lia|]. rewrite Hh.
      destruct (_ && _); [eexists; split; [reflexivity|]; split; [right; cbn; lia|reflexivity]|].
      apply IH; [now right|lia|].
      destruct (i <? ss_pos ss) eqn:Hx; destruct (i - 1 <? ss_pos ss) eqn:Hy; lia.
Qed.

Lemma search_newer_ok fuel : forall i ss, ss_ok ss -> ss_pos ss < i ->
  Z.of_nat fuel > zlen (hist C) - i -> (0 < fuel)%nat ->
  exists ss', search_newer S fuel i ss = Some ss' /\ ss_ok ss' /\ ss_str ss' = ss_str ss.
Proof.
  induction fuel as [|f IH]; intros i ss Hs Hi Hf H0; [lia|]. cbn [search_newer].
  destruct (zlen (hist C) <=? i) eqn:H1; [eauto|].
  destruct (i =? ss_pos ss) eqn:He; [eauto|].
  destruct Hs as [[H2 H3]|Hs]; [lia|].
  destruct (index_lt (hist C) i) as (h & Hh); [lia|]. rewrite Hh.
  destruct (_ && _); [eexists; split; [reflexivity|]; split; [right; cbn; lia|reflexivity]|].
  apply IH; [now right|lia|lia|lia].
Qed.

Lemma search_key_ok k ss : ss_ok ss -> exists act, search_key S k ss = Some act /\
  (forall ss', act = SContinue ss' -> ss_ok ss').
Proof.
  intros Hs. unfold search_key.
  destruct (_ || _).
  { eexists. split; [reflexivity|]. intros ss' H. injection H as <-. apply update_ok. exact Hs. }
  destruct (str_eqb k [13]); [eexists; split; [reflexivity|discriminate]|].
  destruct (_ || _); [eexists; split; [reflexivity|discriminate]|].
  pose proof (zlen_nonneg (hist C)) as Hn.
  destruct (str_eqb k [18]).
  { destruct (search_older_ok (Datatypes.S (List.length (hist C))) (ss_pos ss - 1) ss Hs) as (ss' & H1 & H2 & _).
    - destruct Hs as [[H1 H2]|Hs]; lia.
    - unfold zlen in *. destruct (ss_pos ss - 1 <? ss_pos ss) eqn:Hx; lia.
    - rewrite H1. eexists. split; [reflexivity|]. intros ? H; injection H as <-. exact H2. }
  destruct (str_eqb k [19]).
  { destruct (search_newer_ok (Datatypes.S (Datatypes.S (List.length (hist C)))) (ss_pos ss + 1) ss Hs) as (ss' & H1 & H2 & _).
    - lia.
    - unfold zlen in *. destruct Hs as [[H1 H2]|Hs]; lia.
    - lia.
    - rewrite H1. eexists. split; [reflexivity|]. intros ? H; injection H as <-. exact H2. }
  destruct (decode_rune k) as [r n]. destruct (is_control r).
  - eexists. split; [reflexivity|]. intros ? H; injection H as <-. exact Hs.
  - eexists. split; [reflexivity|]. intros ? H; injection H as <-. apply update_ok. exact Hs.
Qed.

Definition sInv (x : asess) : Prop :=
  match x with ARunning m a => mode_ok m /\ AInv C a | AFinished a _ _ => AInv C a end.
Definition sheads (x : asess) : Prop :=
  match x with ARunning m a => heads C a | AFinished _ _ _ => True end.
(** The one command that records a wrong undo position. *)
Definition bad_swap (e : event) (x : asess) : Prop :=
  match e, x with
  | EKey k, ARunning MNormal a => LookupCommand (kmap S) (gmap S) k = CSwapChar /\ swap_at_end a
  | _, _ => False
  end.

Lemma aaccept_ok ss a : AInv C a -> heads C a -> exists a', aaccept S ss a = Some a' /\ AInv C a'.
Proof.
  intros HA Hh. unfold aaccept. pose proof (aKillWhole_ok C a (proj1 HA) Hh) as HK.
  destruct (areplace_ok C (aKillWhole a) 0 (ss_found ss) (proj1 HK)) as (a' & Ha & HA' & _).
  - constructor.
  - cbn. lia.
  - apply zlen_nonneg.
  - eauto.
Qed.

Lemma astep_ok b e x : builtin_keys S -> sInv x -> sheads x -> ~ bad_swap e x ->
  exists x', astep S b e x = Some x' /\ sInv x'.
Proof.
  intros HB HI Hh Hsw. destruct x as [m a|a t r]; [|exists (AFinished a t r); auto].
  destruct HI as [Hm HA]. cbn [sheads] in Hh. cbn [astep]. destruct e as [k| |w|c].
  - destruct m as [| |ss].
    + unfold akey_normal. specialize (HB k). cbn [bad_swap] in Hsw.
      remember (LookupCommand (kmap S) (gmap S) k) as c eqn:Hc. clear Hc.
      assert (G : forall c0, builtin c0 -> ~ (c0 = CSwapChar /\ swap_at_end a) ->
                 exists x', aafter (aexec C b c0 a) = Some x' /\ sInv x').
      { intros c0 Hb0 Hs0. destruct (aexec_ok C b c0 a Hb0 HA Hh Hs0) as (a' & r & -> & HA').
        cbn [aafter]. destruct r; eexists; (split; [reflexivity|]); try exact HA'.
        split; [exact I|exact HA']. }
      destruct c; try (apply G; [exact HB|exact Hsw]).
      * eexists. split; [reflexivity|]. split; [exact I|exact HA].
      * eexists. split; [reflexivity|]. split; [|exact HA].
        cbn. unfold ss_ok. cbn. pose proof (zlen_nonneg (hist C)). lia.
    + destruct (aselfInsert_ok C k a HA Hh) as (a' & -> & HA'). eexists. split; [reflexivity|]. split; [exact I|exact HA'].
    + unfold akey_search. destruct (search_key_ok k ss Hm) as (act & -> & Hact). destruct act as [ss'| |].
      * eexists. split; [reflexivity|]. split; [now apply Hact|exact HA].
      * destruct (aaccept_ok ss a HA Hh) as (a' & -> & HA'). eexists. split; [reflexivity|]. split; [exact I|exact HA'].
      * eexists. split; [reflexivity|]. split; [exact I|exact HA].
  - destruct m; eexists; (split; [reflexivity|]); try exact HA; (split; [exact I|exact HA]).
  - destruct m; eexists; (split; [reflexivity|]); try (split; [exact Hm|exact HA]).
    split; [exact I|]. now apply AInv_aupdate.
  - eexists. split; [reflexivity|]. split; [exact Hm|exact HA].
Qed.

Lemma astart_ok default cur cl : 0 <= cur -> AInv C (astart S default cur cl).
Proof.
  intros Hc. unfold astart. apply AInv_aupdate. set (n := zlen (units E default)).
  pose proof (zlen_nonneg (units E default)) as Hn. fold n in Hn. split; [|cbn; fold n; destruct (n <? cur) eqn:Hx; lia].
  split; [apply units_self|]. split; [cbn; pose proof (zlen_nonneg (hist C)); lia|].
  cbn [aundo aline undo_ok]. exists []. split.
  - unfold n. apply (undo1_ins E 0 (units E default) [] (units E default)); [unfold zlen; cbn; lia|].
    apply sliceInsert_nil.
  - split; [cbn; unfold zlen; cbn; lia|reflexivity].
Qed.

End WithSess.
