(** What each editing command does to a line given as a split at the cursor. *)
From Verif Require Import Base Utf8 Moji Color Prompt Buffer Commands KeyMap Session MojiFacts
  Abs AbsRef AbsSess AbsSafe AbsInv Spec Reach CmdFacts WordFacts.

Lemma zlen1 {A} (x : A) : zlen [x] = 1. Proof. reflexivity. Qed.
Lemma zlen_snoc {A} (p : list A) x : zlen (p ++ [x]) = zlen p + 1. Proof. now rewrite zlen_app. Qed.
Lemma zlen_cons1 {A} (x : A) l : zlen (x :: l) = zlen l + 1. Proof. rewrite zlen_cons. lia. Qed.
Lemma slice_all {A} (p : list A) : slice p 0 (zlen p) = Some p.
Proof. pose proof (slice_pre p []) as H. now rewrite app_nil_r in H. Qed.

Section WithCfg.
Variable C : cfg.
Notation E := (cE C).

(** ** Deletions *)
Lemma aBackwardDelete_eq a p m q : aline a = (p ++ [m]) ++ q -> acur a = zlen (p ++ [m]) ->
  aBackwardDelete C a = Some (aupdate C (aset_line (apush (aset_cur a (zlen p)) (mkUndo (zlen p) 0 (text [m]))) (p ++ q))).
Proof.
  intros Hl Hc. unfold aBackwardDelete. rewrite Hc, zlen_snoc. pose proof (zlen_nonneg p).
  replace (0 <? _) with true by lia. replace (zlen p + 1 - 1) with (zlen p) by lia.
  change 1 with (zlen [m]). rewrite (adelete_mid _ p [m] q); [reflexivity| |discriminate].
  cbn [aline aset_cur]. now rewrite Hl, <- app_assoc.
Qed.
Lemma aBackwardDelete_start a : acur a <= 0 -> aBackwardDelete C a = Some a.
Proof. intros H. unfold aBackwardDelete. now replace (0 <? _) with false by lia. Qed.
Lemma aDelete_eq a p m q : aline a = p ++ m :: q -> acur a = zlen p ->
  aDelete C a = Some (aupdate C (aset_line (apush a (mkUndo (zlen p) 0 (text [m]))) (p ++ q))).
Proof.
  intros Hl Hc. unfold aDelete. rewrite Hc. change 1 with (zlen [m]).
  now rewrite (adelete_mid _ p [m] q) by (exact Hl || discriminate).
Qed.
Lemma aDelete_end a : acur a = zlen (aline a) -> aDelete C a = Some (aupdate C a).
Proof. intros H. unfold aDelete. now rewrite adelete_none by lia. Qed.
Lemma aKillLine_eq a p q : aline a = p ++ q -> acur a = zlen p ->
  aKillLine a = Some (aset_line (apush (aclip_write a (text q)) (mkUndo (zlen p) 0 (text q))) p).
Proof. intros Hl Hc. unfold aKillLine. now rewrite Hl, Hc, slice_post, slice_pre. Qed.
Lemma aclip_write_line a t : aline (aclip_write a t) = aline a.
Proof. unfold aclip_write. now destruct (aclip a). Qed.
Lemma aclip_write_cur a t : acur (aclip_write a t) = acur a.
Proof. unfold aclip_write. now destruct (aclip a). Qed.
Lemma aclip_write_undo a t : aundo (aclip_write a t) = aundo a.
Proof. unfold aclip_write. now destruct (aclip a). Qed.
Lemma aclip_write_hptr a t : ahptr (aclip_write a t) = ahptr a.
Proof. unfold aclip_write. now destruct (aclip a). Qed.
Lemma aclip_write_modh a t : amodh (aclip_write a t) = amodh a.
Proof. unfold aclip_write. now destruct (aclip a). Qed.
Lemma aclip_write_pend a t : apend (aclip_write a t) = apend a.
Proof. unfold aclip_write. now destruct (aclip a). Qed.
Lemma aclip_write_clip a t : aclip (aclip_write a t) = option_map (fun _ => t) (aclip a).
Proof. unfold aclip_write. destruct (aclip a) eqn:H; [reflexivity|exact H]. Qed.
Lemma aLineDiscard_eq a p q : aline a = p ++ q -> acur a = zlen p -> p <> [] ->
  aLineDiscard C a = Some (aupdate C (aset_cur (aset_line (apush (aclip_write a (text p)) (mkUndo 0 0 (text p))) q) 0)).
Proof.
  intros Hl Hc Hp. unfold aLineDiscard. rewrite Hl, Hc, slice_pre. change 0 with (zlen (@nil moji)) at 2.
  rewrite (adelete_mid _ [] p q) by (rewrite ?aclip_write_line; assumption). reflexivity.
Qed.
Lemma aLineDiscard_start a : acur a = 0 -> 
  aLineDiscard C a = Some (aupdate C (aset_cur (aclip_write a []) 0)).
Proof.
  intros Hc. unfold aLineDiscard. rewrite Hc. pose proof (slice_pre [] (aline a)) as H. cbn [app] in H.
  change (zlen []) with 0 in H. rewrite H. rewrite adelete_none by lia. reflexivity.
Qed.
Lemma aWordRubout_eq a p q : aline a = p ++ q -> acur a = zlen p ->
  exists p0 b u sk w, p = p0 ++ b /\ all_blank b /\ (p0 = [] \/ exists p' x, p0 = p' ++ [x] /\ blank x = false) /\
    word_split p0 u sk w /\
    aWordRubout C a = Some (aupdate C (aset_cur (
      let a1 := aclip_write (aset_cur a (zlen p0)) (text (w ++ b)) in
      match w ++ b with [] => a1 | d => aset_line (apush a1 (mkUndo (zlen (u ++ sk)) 0 (text d))) ((u ++ sk) ++ q) end) (zlen (u ++ sk)))).
Proof.
  intros Hl Hc. destruct (count_while_rev IsSpaceMoji p) as (p0 & b & Hp & Hz & Hb & Hend & _).
  set (a1 := aset_cur a (acur a - Z.of_nat (count_while IsSpaceMoji (rev p)))).
  assert (Hc1 : acur a1 = zlen p0).
  { unfold a1. cbn [acur aset_cur]. rewrite Hc, <- Hz, Hp, zlen_app. lia. }
  destruct (aWordTop_split a1 p0 (b ++ q)) as (u & sk & w & Hw & Ht); [|exact Hc1|].
  { unfold a1. cbn [aline aset_cur]. now rewrite Hl, Hp, app_assoc. }
  exists p0, b, u, sk, w. split; [exact Hp|]. split; [exact Hb|]. split; [exact Hend|]. split; [exact Hw|].
  unfold aWordRubout. rewrite Hl, Hc at 1. rewrite slice_pre. fold a1. rewrite Ht.
  destruct Hw as (Hw & _). rewrite app_assoc in Hw.
  assert (Hl1 : aline a1 = (u ++ sk) ++ (w ++ b) ++ q).
  { unfold a1. cbn [aline aset_cur]. rewrite Hl, Hp, Hw, <- !app_assoc. reflexivity. }
  assert (Hc2 : acur a = zlen (u ++ sk) + zlen (w ++ b)).
  { rewrite Hc, Hp, Hw, <- app_assoc, (zlen_app (u ++ sk)). reflexivity. }
  rewrite Hl1, Hc2, slice_app_mid. replace (_ + _ - _) with (zlen (w ++ b)) by lia.
  replace a1 with (aset_cur a (zlen p0)) in * by (rewrite <- Hc1; reflexivity).
  destruct (w ++ b) as [|x d] eqn:Hd.
  - rewrite adelete_none by (left; change (zlen []) with 0; lia). reflexivity.
  - rewrite (adelete_mid _ (u ++ sk) (x :: d) q); [reflexivity|now rewrite aclip_write_line|discriminate].
Qed.

(** ** Swap *)
Lemma aswap_mid l p x y q i j : l = p ++ x :: y :: q -> i = zlen p -> j = zlen p + 1 ->
  aswap l i j = Some (p ++ y :: x :: q).
Proof.
  intros -> -> ->. unfold aswap.
  rewrite index_app_mid. replace (p ++ x :: y :: q) with ((p ++ [x]) ++ y :: q) at 1 by (rewrite <- app_assoc; reflexivity).
  rewrite <- zlen_snoc with (x := x). rewrite index_app_mid.
  rewrite set_index_mid. replace (p ++ y :: y :: q) with ((p ++ [y]) ++ y :: q) by (rewrite <- app_assoc; reflexivity).
  rewrite !zlen_snoc, <- (zlen_snoc p y), set_index_mid, <- app_assoc. reflexivity.
Qed.
Lemma aSwapChar_mid a p x y q : aline a = (p ++ [x]) ++ y :: q -> acur a = zlen (p ++ [x]) ->
  aSwapChar a = Some (aset_cur (aset_line (apush a (mkUndo (zlen p) 2 (text [x; y]))) (p ++ y :: x :: q)) (zlen p + 2)).
Proof.
  intros Hl Hc. assert (Hl2 : aline a = p ++ x :: y :: q) by (rewrite Hl, <- app_assoc; reflexivity).
  unfold aSwapChar. rewrite Hc, zlen_snoc, Hl2. pose proof (zlen_nonneg p). pose proof (zlen_nonneg q).
  rewrite zlen_app, !zlen_cons. replace (_ =? _) with false by lia. replace (_ <? 1) with false by lia.
  replace (zlen p + 1 - 1) with (zlen p) by lia. replace (zlen p + 1 + 1) with (zlen p + zlen [x; y]) by (rewrite !zlen_cons; change (zlen []) with 0; lia).
  pose proof (slice_app_mid p [x; y] q) as Hs. cbn [app] in Hs. rewrite Hs. rewrite (aswap_mid _ p x y q) by reflexivity. reflexivity.
Qed.
Lemma aSwapChar_end a p x y : aline a = p ++ [x; y] -> acur a = zlen (p ++ [x; y]) ->
  aSwapChar a = Some (aset_line (apush a (mkUndo (zlen p + 2) 2 (text [x; y]))) (p ++ [y; x])).
Proof.
  intros Hl Hc. unfold aSwapChar. rewrite Hc, Hl, Z.eqb_refl, zlen_app. pose proof (zlen_nonneg p).
  change (zlen [x; y]) with 2. replace (_ <? 2) with false by lia. replace (zlen p + 2 - 2) with (zlen p) by lia.
  pose proof (slice_app_mid p [x; y] []) as Hs. rewrite app_nil_r in Hs. change (zlen [x; y]) with 2 in Hs. rewrite Hs.
  rewrite (aswap_mid _ p x y []) by (reflexivity || lia). reflexivity.
Qed.
Lemma aSwapChar_none a : acur a <= 0 \/ (zlen (aline a) = acur a /\ acur a < 2) -> aSwapChar a = Some a.
Proof.
  intros H. unfold aSwapChar. destruct (zlen (aline a) =? acur a) eqn:He.
  - replace (acur a <? 2) with true by lia. reflexivity.
  - replace (acur a <? 1) with true by lia. reflexivity.
Qed.

(** ** Words *)
Lemma aBackwardWord_eq a p q : aline a = p ++ q -> acur a = zlen p ->
  exists u w b, p = u ++ w ++ b /\ all_blank b /\ no_blank w /\
    (u = [] \/ exists u' x, u = u' ++ [x] /\ blank x = true) /\ (w = [] -> u = []) /\
    aBackwardWord C a = Some (aupdate C (aset_cur a (zlen u))).
Proof.
  intros Hl Hc. unfold aBackwardWord. rewrite Hl, Hc, slice_pre.
  destruct (count_while_rev IsSpaceMoji p) as (p0 & b & Hp & Hz & Hb & Hend & Hskip). rewrite Hskip.
  destruct (count_while_rev (fun m => negb (IsSpaceMoji m)) p0) as (u & w & Hp0 & Hz0 & Hw & Hend0 & _).
  exists u, w, b. split; [now rewrite Hp, Hp0, <- app_assoc|]. split; [exact Hb|]. split; [exact Hw|]. split; [|split].
  - destruct Hend0 as [->|(u' & x & -> & Hx)]; [now left|]. right. exists u', x. split; [reflexivity|]. unfold blank. now apply negb_false_iff.
  - intros ->. rewrite app_nil_r in Hp0. subst u. destruct Hend as [->|(u' & x & -> & Hx)]; [reflexivity|].
    destruct Hend0 as [H0|(u'' & x' & H0 & Hx')]; [destruct u'; discriminate|]. apply app_inj_tail in H0 as [_ <-].
    rewrite Hx in Hx'. discriminate.
  - do 3 f_equal. rewrite <- Hz, <- Hz0, Hp, Hp0, !zlen_app. lia.
Qed.
Lemma aForwardWord_eq sc a p q : aline a = p ++ q -> acur a = zlen p ->
  exists w b r, q = w ++ b ++ r /\ no_blank w /\ all_blank b /\
    (r = [] \/ exists x r', r = x :: r' /\ blank x = false) /\ (b = [] -> r = []) /\
    aForwardWord C sc a = Some (let a1 := aset_cur a (zlen (p ++ w ++ b)) in if sc then aupdate C a1 else a1).
Proof.
  intros Hl Hc. unfold aForwardWord. rewrite Hl, Hc, slice_post.
  destruct (count_while_split (fun m => negb (IsSpaceMoji m)) q) as (w & q0 & Hq & Hz & Hw & Hend & Hskip). rewrite Hskip.
  destruct (count_while_split IsSpaceMoji q0) as (b & r & Hq0 & Hz0 & Hb & Hend0 & _).
  exists w, b, r. split; [now rewrite Hq, Hq0|]. split; [exact Hw|]. split; [exact Hb|]. split; [exact Hend0|]. split.
  - intros ->. cbn in Hq0. subst r. destruct Hend as [->|(x & q' & -> & Hx)]; [reflexivity|].
    destruct Hend0 as [H0|(x' & r' & H0 & Hx')]; [discriminate|]. injection H0 as <- <-. rewrite Hx' in Hx. discriminate.
  - replace (zlen p + _ + _) with (zlen (p ++ w ++ b)); [reflexivity|]. rewrite <- Hz, <- Hz0, !zlen_app. lia.
Qed.

(** ** Insertions *)
Lemma areplace_here a p q t : aline a = p ++ q -> acur a = zlen p ->
  areplace C a (acur a) t
  = Some (aupdate C (ajoin (aset_cur (apush (aset_line a (p ++ units E t ++ q)) (mkUndo (zlen p) (zlen (units E t)) [])) (zlen p + zlen (units E t))))).
Proof.
  intros Hl Hc. unfold areplace. rewrite adelete_none by lia. rewrite Hc, (ains_mid _ p (units E t) q Hl). reflexivity.
Qed.
Lemma aself_tail_eq a p q k : aline a = p ++ q -> acur a = zlen p ->
  aself_tail C a k = Some (aupdate C (aset_cur (apush (aset_line a (p ++ units E k ++ q)) (mkUndo (zlen p) (zlen (units E k)) [])) (zlen p + zlen (units E k)))).
Proof.
  intros Hl Hc. unfold aself_tail. rewrite Hc, (ains_mid _ p (units E k) q Hl). cbn [acur apush aset_undo aset_line]. now rewrite Hc.
Qed.
Lemma ajoin_line a : aline (ajoin a) = aline a.
Proof. unfold ajoin. destruct (aundo a) as [|u2 [|u1 r]]; try reflexivity. now destruct (join2 u1 u2). Qed.
Lemma ajoin_cur a : acur (ajoin a) = acur a.
Proof. unfold ajoin. destruct (aundo a) as [|u2 [|u1 r]]; try reflexivity. now destruct (join2 u1 u2). Qed.
Lemma ajoin_clip a : aclip (ajoin a) = aclip a.
Proof. unfold ajoin. destruct (aundo a) as [|u2 [|u1 r]]; try reflexivity. now destruct (join2 u1 u2). Qed.
Lemma ajoin_hptr a : ahptr (ajoin a) = ahptr a.
Proof. unfold ajoin. destruct (aundo a) as [|u2 [|u1 r]]; try reflexivity. now destruct (join2 u1 u2). Qed.
Lemma ajoin_modh a : amodh (ajoin a) = amodh a.
Proof. unfold ajoin. destruct (aundo a) as [|u2 [|u1 r]]; try reflexivity. now destruct (join2 u1 u2). Qed.
Lemma ajoin_pend a : apend (ajoin a) = apend a.
Proof. unfold ajoin. destruct (aundo a) as [|u2 [|u1 r]]; try reflexivity. now destruct (join2 u1 u2). Qed.
Lemma aupdate_line a : aline (aupdate C a) = aline a.
Proof. now destruct (aupdate_shape C a) as [x ->]. Qed.
Lemma aupdate_cur a : acur (aupdate C a) = acur a.
Proof. now destruct (aupdate_shape C a) as [x ->]. Qed.
Lemma aupdate_undo a : aundo (aupdate C a) = aundo a.
Proof. now destruct (aupdate_shape C a) as [x ->]. Qed.
Lemma aupdate_clip a : aclip (aupdate C a) = aclip a.
Proof. now destruct (aupdate_shape C a) as [x ->]. Qed.
Lemma aupdate_hptr a : ahptr (aupdate C a) = ahptr a.
Proof. now destruct (aupdate_shape C a) as [x ->]. Qed.
Lemma aupdate_modh a : amodh (aupdate C a) = amodh a.
Proof. now destruct (aupdate_shape C a) as [x ->]. Qed.
Lemma aupdate_pend a : apend (aupdate C a) = apend a.
Proof. now destruct (aupdate_shape C a) as [x ->]. Qed.
End WithCfg.
