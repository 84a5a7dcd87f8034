(** What each command adds to the undo records, and what UNDO takes from them. *)
From Verif Require Import Base Utf8 Moji Color Prompt Buffer Commands KeyMap Session SpecScript MojiFacts
  Abs AbsRef AbsSess AbsSafe AbsInv Safe SafeSess Plain Spec TextFacts Reach SafetyFacts CmdFacts WordFacts
  EditFacts EditProps LineInv EditMore.

Section WithCfg.
Variable C : cfg.
Notation E := (cE C).

(** The lines the records lead back through, newest first. *)
Fixpoint chain (l : list moji) (st : list undo) : option (list (list moji)) :=
  match st with
  | [] => Some []
  | u :: st' => let* l' := undo1 E u l in let* r := chain l' st' in Some (l' :: r)
  end.

(** The change of line and records a single command makes: nothing or one more record; *)
Inductive change (a a1 : astate) : Prop :=
| ch_none : aline a1 = aline a -> aundo a1 = aundo a -> change a a1
| ch_push u : aundo a1 = u :: aundo a -> undo1 E u (aline a1) = Some (aline a) -> change a a1.
(** pasting may extend the last record; *)
Inductive pchange (a a1 : astate) : Prop :=
| pch_s : change a a1 -> pchange a a1
| pch_join u u0 u2 st : aundo a = u0 :: st -> aundo a1 = u :: st -> join2 u0 u2 = Some u -> u_pos u2 = acur a -> u_text u2 = [] ->
    undo1 E u2 (aline a1) = Some (aline a) ->
    (forall l0, undo1 E u0 (aline a) = Some l0 -> undo1 E u (aline a1) = Some l0) -> pchange a a1.
(** UNDO takes one away. *)
Inductive uchange (a a1 : astate) : Prop :=
| uch_p : pchange a a1 -> uchange a a1
| uch_undo u st : aundo a = u :: st -> aundo a1 = st -> undo1 E u (aline a) = Some (aline a1) -> uchange a a1.

Definition sane (a : astate) : Prop :=
  Forall (self E) (aline a) /\ heads C a /\ 0 <= acur a <= zlen (aline a).

Lemma sane_split a : sane a -> exists p q, aline a = p ++ q /\ acur a = zlen p /\
  Forall (self E) p /\ Forall (headok E) p /\ Forall (self E) q /\ Forall (headok E) q.
Proof.
  intros (Hs & Hh & Hc). exists (firstn (Z.to_nat (acur a)) (aline a)), (skipn (Z.to_nat (acur a)) (aline a)).
  split; [symmetry; apply firstn_skipn|]. split; [rewrite zlen_firstn; lia|].
  unfold heads in Hh. repeat split; try (now apply Forall_firstn); now apply Forall_skipn.
Qed.

Lemma undo1_put p d q : Forall (self E) d -> Forall (headok E) d ->
  undo1 E (mkUndo (zlen p) 0 (text d)) (p ++ q) = Some (p ++ d ++ q).
Proof.
  intros Hs Hh. unfold undo1. cbn [u_del u_pos u_text]. change (0 <? 0) with false. cbn iota.
  destruct (text d) as [|x t] eqn:Ht.
  - apply text_nil_iff in Ht. now subst d.
  - rewrite <- Ht, units_text by assumption. apply sliceInsert_spec.
Qed.
Lemma undo1_take p d q : undo1 E (mkUndo (zlen p) (zlen d) []) (p ++ d ++ q) = Some (p ++ q).
Proof.
  apply (undo1_ins E (zlen p) d (p ++ q)); [|apply sliceInsert_spec]. rewrite zlen_app.
  pose proof (zlen_nonneg p). pose proof (zlen_nonneg q). lia.
Qed.

Lemma change_aupdate a a1 : change a a1 -> change a (aupdate C a1).
Proof. destruct (aupdate_shape C a1) as [x ->]. intros [ | ]; [eapply ch_none|eapply ch_push]; eauto. Qed.
Lemma change_cur a a1 c : change a a1 -> change a (aset_cur a1 c).
Proof. intros [ | ]; [eapply ch_none|eapply ch_push]; eauto. Qed.
Lemma pchange_aupdate a a1 : pchange a a1 -> pchange a (aupdate C a1).
Proof. intros [H|]; [apply pch_s; now apply change_aupdate|]. destruct (aupdate_shape C a1) as [x ->]. eapply pch_join; eauto. Qed.

Lemma change_delete a p d q c : aline a = p ++ d ++ q -> Forall (self E) d -> Forall (headok E) d ->
  change a (aset_line (apush (aclip_write (aset_cur a c) (text d)) (mkUndo (zlen p) 0 (text d))) (p ++ q)).
Proof.
  intros Hl Hs Hh. eapply ch_push.
  - cbn [aundo aset_line apush aset_undo]. rewrite aclip_write_undo. reflexivity.
  - cbn [aline aset_line]. rewrite Hl. now apply undo1_put.
Qed.

Lemma change_insert a p q t : aline a = p ++ q -> acur a = zlen p ->
  change a (aset_cur (apush (aset_line a (p ++ units E t ++ q)) (mkUndo (zlen p) (zlen (units E t)) [])) (zlen p + zlen (units E t))).
Proof.
  intros Hl Hc. apply change_cur. eapply ch_push; [reflexivity|]. cbn [aline aset_line apush aset_undo]. rewrite Hl. apply undo1_take.
Qed.

Lemma change_replace a t a1 : sane a -> areplace C a (acur a) t = Some a1 -> pchange a a1.
Proof.
  intros HA Ha. destruct (sane_split a HA) as (p & q & Hl & Hc & _). rewrite (areplace_here C a p q t Hl Hc) in Ha.
  injection Ha as <-. apply pchange_aupdate. pose proof (change_insert a p q t Hl Hc) as HI.
  unfold ajoin. cbn [aundo aset_cur apush aset_undo aset_line]. destruct (aundo a) as [|u1 rest] eqn:Hu; [apply pch_s; exact HI|].
  destruct (join2 u1 _) as [u|] eqn:Hj; [|apply pch_s; exact HI].
  eapply pch_join; [exact Hu|reflexivity|exact Hj|symmetry; exact Hc|reflexivity|cbn [aline aset_undo aset_cur apush aset_line]; rewrite Hl; apply undo1_take|]. intros l0 Hl0. cbn [aline aset_undo aset_cur apush aset_line].
  eapply join2_ok; [exact Hj|reflexivity| |exact Hl0]. rewrite Hl. apply undo1_take.
Qed.

Lemma change_self_tail a k a1 : sane a -> aself_tail C a k = Some a1 -> change a a1.
Proof.
  intros HA Ha. destruct (sane_split a HA) as (p & q & Hl & Hc & _). rewrite (aself_tail_eq C a p q k Hl Hc) in Ha.
  injection Ha as <-. apply change_aupdate. now apply change_insert.
Qed.

Lemma change_adelete a p d q : aline a = p ++ d ++ q -> Forall (self E) d -> Forall (headok E) d ->
  change a (aset_line (apush a (mkUndo (zlen p) 0 (text d))) (p ++ q)).
Proof. intros Hl Hs Hh. eapply ch_push; [reflexivity|]. cbn [aline aset_line]. rewrite Hl. now apply (undo1_put p d q). Qed.

Lemma change_backdel a a1 : sane a -> aBackwardDelete C a = Some a1 -> change a a1.
Proof.
  intros HA Ha. destruct (sane_split a HA) as (p & q & Hl & Hc & Hsp & Hhp & _).
  destruct p as [|m p _] using rev_ind.
  - rewrite aBackwardDelete_start in Ha by (rewrite Hc; unfold zlen; cbn; lia). injection Ha as <-. now apply ch_none.
  - rewrite (aBackwardDelete_eq C a p m q Hl Hc) in Ha. injection Ha as <-. apply change_aupdate.
    apply Forall_app in Hsp as [_ Hsp]. apply Forall_app in Hhp as [_ Hhp].
    eapply ch_push; [reflexivity|]. cbn [aline aset_line]. rewrite Hl, <- app_assoc. now apply (undo1_put p [m] q).
Qed.
Lemma change_del a a1 : sane a -> aDelete C a = Some a1 -> change a a1.
Proof.
  intros HA Ha. destruct (sane_split a HA) as (p & q & Hl & Hc & _ & _ & Hsq & Hhq).
  destruct q as [|m q].
  - rewrite aDelete_end in Ha by (rewrite Hc, Hl, app_nil_r; reflexivity). injection Ha as <-. apply change_aupdate. now apply ch_none.
  - rewrite (aDelete_eq C a p m q Hl Hc) in Ha. injection Ha as <-. apply change_aupdate.
    inversion Hsq; inversion Hhq; subst. apply (change_adelete a p [m] q); [exact Hl|auto|auto].
Qed.
Lemma change_whole a : sane a -> change a (aKillWhole a).
Proof.
  intros (Hs & Hh & _). eapply ch_push; [reflexivity|]. cbn [aline aKillWhole aset_cur aset_line].
  pose proof (undo1_put [] (aline a) [] Hs Hh) as H. rewrite !app_nil_r in H. exact H.
Qed.
Lemma change_killline a a1 : sane a -> aKillLine a = Some a1 -> change a a1.
Proof.
  intros HA Ha. destruct (sane_split a HA) as (p & q & Hl & Hc & _ & _ & Hsq & Hhq).
  rewrite (aKillLine_eq a p q Hl Hc) in Ha. injection Ha as <-. eapply ch_push.
  - cbn [aundo aset_line apush aset_undo]. rewrite aclip_write_undo. reflexivity.
  - cbn [aline aset_line]. rewrite Hl. pose proof (undo1_put p q [] Hsq Hhq) as H. now rewrite !app_nil_r in H.
Qed.
Lemma adel_change a pos n d a1 a0 : aline a0 = aline a -> aundo a0 = aundo a ->
  sane a -> 0 <= pos -> slice (aline a) pos (pos + n) = Some d -> adelete a0 pos n = Some a1 -> change a a1.
Proof.
  intros Hl0 Hu0 (Hs & Hh & _) Hp Hd Ha. unfold adelete in Ha. rewrite Hl0 in Ha.
  destruct ((n <=? 0) || (zlen (aline a) <? pos + n)) eqn:Hn; [injection Ha as <-; now apply ch_none|].
  rewrite Hd in Ha. destruct (sliceDelete (aline a) pos n) as [l|] eqn:Hl; [|discriminate]. injection Ha as <-.
  eapply ch_push; [cbn [aundo aset_line apush aset_undo]; rewrite Hu0; reflexivity|]. cbn [aline aset_line].
  eapply (undo1_del E pos n); eauto; lia.
Qed.
Lemma change_rubout a a1 : sane a -> aWordRubout C a = Some a1 -> change a a1.
Proof.
  intros HA Ha. destruct (sane_split a HA) as (p & q & Hl & Hc & Hsp & Hhp & _).
  unfold aWordRubout in Ha. cbn zeta in Ha.
  destruct (slice (aline a) 0 (acur a)) as [pre|] eqn:Hpre; [|discriminate].
  set (ac := aset_cur a (acur a - Z.of_nat (count_while IsSpaceMoji (rev pre)))) in *.
  destruct (aWordTop ac) as [new|] eqn:Hnew; [|discriminate].
  destruct (slice (aline ac) new (acur a)) as [d|] eqn:Hd; [|discriminate].
  destruct (adelete (aclip_write ac (text d)) new (acur a - new)) as [a2|] eqn:Hdel; [|discriminate]. injection Ha as <-.
  apply change_aupdate, change_cur.
  assert (Hn : 0 <= new).
  { destruct (Z_le_dec 0 new) as [H|H]; [exact H|]. exfalso. unfold slice in Hd.
    replace (0 <=? new) with false in Hd by lia. cbn in Hd. discriminate. }
  eapply (adel_change a new (acur a - new) d a2 (aclip_write ac (text d))).
  - rewrite aclip_write_line. reflexivity.
  - rewrite aclip_write_undo. reflexivity.
  - exact HA.
  - exact Hn.
  - replace (new + (acur a - new)) with (acur a) by lia. exact Hd.
  - exact Hdel.
Qed.
Lemma change_discard a a1 : sane a -> aLineDiscard C a = Some a1 -> change a a1.
Proof.
  intros HA Ha. unfold aLineDiscard in Ha.
  destruct (slice (aline a) 0 (acur a)) as [d|] eqn:Hd; [|discriminate].
  destruct (adelete (aclip_write a (text d)) 0 (acur a)) as [a2|] eqn:Hdel; [|discriminate]. injection Ha as <-.
  apply change_aupdate, change_cur.
  eapply (adel_change a 0 (acur a) d a2 (aclip_write a (text d))); [apply aclip_write_line|apply aclip_write_undo|exact HA|lia| |exact Hdel].
  replace (0 + acur a) with (acur a) by lia. exact Hd.
Qed.
Lemma change_yank f a a1 : sane a -> aYank C f a = Some a1 -> pchange a a1.
Proof. unfold aYank. intros HA Ha. destruct (aclip a); [now apply change_replace in Ha|]. injection Ha as <-. apply pch_s; now apply ch_none. Qed.
Lemma change_forward a a1 : sane a -> aForwardChar C a = Some a1 -> pchange a a1.
Proof.
  unfold aForwardChar. intros HA Ha. destruct (_ <=? _); [|injection Ha as <-; apply pch_s; now apply ch_none].
  destruct (asuf a); [injection Ha as <-; apply pch_s; now apply ch_none|]. now apply change_replace in Ha.
Qed.
Lemma change_swap a a1 : sane a -> ~ swap_at_end a -> aSwapChar a = Some a1 -> change a a1.
Proof.
  intros HA Hsw Ha. destruct (sane_split a HA) as (p & q & Hl & Hc & Hsp & Hhp & Hsq & Hhq).
  destruct p as [|x p _] using rev_ind.
  { rewrite aSwapChar_none in Ha by (left; rewrite Hc; unfold zlen; cbn; lia). injection Ha as <-. now apply ch_none. }
  destruct q as [|y q].
  - destruct p as [|z p _] using rev_ind.
    { rewrite aSwapChar_none in Ha by (right; rewrite Hc, Hl, app_nil_r; unfold zlen; cbn; lia). injection Ha as <-. now apply ch_none. }
    exfalso. apply Hsw. unfold swap_at_end. rewrite Hl, Hc, app_nil_r, !zlen_app. unfold zlen; cbn [List.length]. lia.
  - rewrite (aSwapChar_mid a p x y q Hl Hc) in Ha. injection Ha as <-. apply change_cur. eapply ch_push; [reflexivity|].
    cbn [aline aset_line]. rewrite Hl, <- app_assoc. unfold undo1. cbn [u_del u_pos u_text]. change (0 <? 2) with true. cbn iota.
    pose proof (sliceDelete_spec p [y; x] q) as Hdel. cbn [app] in Hdel. change (zlen [y; x]) with 2 in Hdel. rewrite Hdel.
    assert (Ht : text [x; y] <> []) by (intros Ht; apply text_nil_iff in Ht; discriminate).
    apply Forall_app in Hsp as [_ Hsp]. apply Forall_app in Hhp as [_ Hhp]. inversion Hsp; inversion Hhp; inversion Hsq; inversion Hhq; subst.
    assert (Hxy : units E (text [x; y]) = [x; y]) by (apply units_text; auto).
    change (write x ++ write y ++ []) with (text [x; y]).
    revert Ht Hxy. generalize (text [x; y]) as t. intros [|b t] Ht Hxy; [congruence|]. rewrite Hxy. apply (sliceInsert_spec p q [x; y]).
Qed.

Definition plain_key (k : str) : Prop :=
  AreZeroWidthJoin E (altgr k) = false /\ AreVariationSelectorLike E (altgr k) = false /\ AreEmojiModifier E (altgr k) = false.
Lemma change_self k a a1 : sane a -> plain_key k -> aselfInsert C k a = Some a1 -> change a a1.
Proof.
  intros HA (H1 & H2 & H3) Ha. unfold aselfInsert in Ha. cbn zeta in Ha. rewrite H1, H2, H3 in Ha. cbn [andb orb] in Ha.
  destruct (apend a) as [|b t].
  - now apply change_self_tail in Ha.
  - apply change_self_tail in Ha; [|exact HA].
    destruct Ha as [ | ]; [eapply ch_none|eapply ch_push]; eauto.
Qed.

Lemma aUndo_line a a1 : aUndo C a = Some a1 ->
  match aundo a with
  | [] => a1 = a
  | u :: st => undo1 E u (aline a) = Some (aline a1) /\ aundo a1 = st
  end.
Proof.
  unfold aUndo, undo1. destruct (aundo a) as [|u st]; intros Ha; [now injection Ha as <-|].
  destruct (if 0 <? u_del u then _ else _) as [l1|]; [|discriminate]. destruct (u_text u) as [|x t].
  - injection Ha as <-. rewrite aupdate_line, aupdate_undo. split; reflexivity.
  - destruct (sliceInsert l1 (u_pos u) (units E (x :: t))) as [l2|]; [|discriminate]. injection Ha as <-.
    rewrite aupdate_line, aupdate_undo. split; reflexivity.
Qed.

(** The commands whose change of the line is one record (history browsing makes two). *)
Definition single_step (c : cmd) (a : astate) : Prop :=
  match c with
  | CPreviousHistory | CNextHistory | CInterrupt => False
  | CSwapChar => ~ swap_at_end a
  | CSelfInsert k => plain_key k
  | _ => True
  end.

(** The commands that paste. *)
Definition pasting (c : cmd) : bool := match c with CYank | CYankWithQuote | CForwardChar => true | _ => false end.

Lemma aexec_change b c a a1 r : sane a -> single_step c a -> aexec C b c a = Some (a1, r) ->
  change a a1 \/ (pasting c = true /\ pchange a a1) \/ (c = CUndo /\ uchange a a1).
Proof.
  intros HA Hc He.
  assert (G0 : forall (P : astate -> Prop) o, (forall a0, o = Some a0 -> P a0) -> acontinue o = Some (a1, r) -> P a1).
  { intros P o Ho Hq. unfold acontinue in Hq. opt Hq. injection Hq as <- _. now apply Ho. }
  pose proof (G0 (change a)) as G.
  assert (N : change a a) by now apply ch_none.
  assert (N1 : forall c, change a (aset_cur a c)) by (intros; now apply ch_none).
  destruct c; cbn [aexec] in He; cbn [single_step] in Hc; try contradiction; try discriminate; cbn [pasting].
  all: try (left; match goal with |- change _ _ => idtac end; match goal with H : acontinue (aForwardChar _ _) = _ |- _ => fail 1 | H : acontinue (aYank _ _ _) = _ |- _ => fail 1 | H : acontinue (aUndo _ _) = _ |- _ => fail 1 | _ => idtac end).
  all: try (right; left; split; [reflexivity|]; match goal with |- pchange _ _ => idtac end).
  all: try (right; right; split; [reflexivity|]; match goal with |- uchange _ _ => idtac end).
  - injection He as <- _. exact N.
  - injection He as <- _. apply change_aupdate, N1.
  - injection He as <- _. unfold aBackwardChar. destruct (_ <=? _); [exact N|apply change_aupdate, N1].
  - injection He as <- _. apply N1.
  - eapply G0; [|exact He]. intros. now apply change_forward.
  - eapply G; [|exact He]. intros. now apply change_backdel.
  - eapply G; [|exact He]. intros. now apply change_del.
  - destruct (_ <? _); [|injection He as <- _; exact N]. eapply G; [|exact He]. intros. now apply change_del.
  - eapply G; [|exact He]. intros. now apply change_killline.
  - injection He as <- _. now apply change_whole.
  - eapply G; [|exact He]. intros. now apply change_rubout.
  - eapply G; [|exact He]. intros. now apply change_discard.
  - injection He as <- _. now apply change_aupdate.
  - injection He as <- _. now apply change_aupdate.
  - injection He as <- _. exact N.
  - eapply G0; [|exact He]. intros. eapply change_yank; eauto.
  - eapply G0; [|exact He]. intros. eapply change_yank; eauto.
  - eapply G; [|exact He]. intros. now apply change_swap.
  - eapply G; [|exact He]. intros a0 Ha. unfold aBackwardWord in Ha. opt Ha. injection Ha as <-. apply change_aupdate, N1.
  - eapply G; [|exact He]. intros a0 Ha. unfold aForwardWord in Ha. opt Ha. injection Ha as <-. destruct b; [apply change_aupdate|]; apply N1.
  - eapply G0; [|exact He]. intros a0 Ha. pose proof (aUndo_line a a0 Ha) as Hu. destruct (aundo a) as [|u st] eqn:Hst.
    + subst. apply uch_p, pch_s, N.
    + destruct Hu as [H1 H2]. eapply uch_undo; eauto.
  - injection He as <- _. exact N.
  - eapply G; [|exact He]. intros a0 Ha. eapply change_self; eauto.
Qed.

End WithCfg.

(** ** C05 *)
Lemma abs_line s : aline (abs s) = line s. Proof. reflexivity. Qed.
Lemma heads_clean S s : Forall (self (cE (base S))) (line s) -> Forall (clean (cE (base S))) (line s) -> heads (base S) (abs s).
Proof.
  intros H1 H2. unfold heads. rewrite abs_line. rewrite Forall_forall in *. intros m Hm. apply clean_head; auto.
Qed.
Lemma plain_first C k : joins (cE C) (first_rune (altgr k)) = false -> plain_key C k.
Proof. intros H. apply EditProps.plain_key in H. exact H. Qed.

Lemma undo_last S m s p q c s1 r1 s2 r2 : scripted S -> reached S (Running m s) ->
  at_split s p q -> Forall (clean (cE (base S))) (line s) -> undoable (cE (base S)) c s ->
  exec (base S) c s = Some (s1, r1) -> line s1 <> line s -> exec (base S) CUndo s1 = Some (s2, r2) ->
  line s2 = line s /\ undoes s2 = undoes s.
Proof.
  intros HB HR [Hl Hc] Hcl Hu H1 Hne H2.
  pose proof (self_reached S _ HB HR) as Hself. cbn [buf_of] in Hself.
  assert (HA : sane (base S) (abs s)).
  { split; [exact Hself|]. split; [now apply heads_clean|]. rewrite abs_line, Hl. change (acur (abs s)) with (cursor s).
    rewrite Hc, zlen_app. pose proof (zlen_nonneg p). pose proof (zlen_nonneg q). lia. }
  assert (Hb : builtin c) by (destruct c; exact I || destruct Hu).
  apply exec_ref in H1 as [b H1]; [|exact Hb].
  assert (HS : single_step (base S) c (abs s)).
  { destruct c; cbn in Hu |- *; try exact I; try contradiction; [|now apply plain_first].
    unfold swap_at_end. rewrite abs_line. change (acur (abs s)) with (cursor s). lia. }
  apply aexec_change in H1; [|exact HA|exact HS].
  apply exec_ref in H2 as [b2 H2]; [|exact I]. cbn [aexec] in H2.
  destruct (aUndo (base S) (abs s1)) as [a2|] eqn:H2a; [|discriminate].
  apply acont_some in H2 as [H2 _]. subst a2. apply aUndo_line in H2a.
  assert (GP : change (base S) (abs s) (abs s1) -> line s2 = line s /\ undoes s2 = undoes s).
  { intros [Ha _|u Hun H]; [exfalso; exact (Hne Ha)|].
    rewrite Hun in H2a. rewrite abs_line in H. destruct H2a as [H2a H2b]. rewrite abs_line, H in H2a.
    apply (f_equal (fun o => match o with Some l => l | None => [] end)) in H2a. split; [symmetry; exact H2a|exact H2b]. }
  destruct H1 as [H1|[[Hpc H1]|[Hun _]]]; [exact (GP H1)| |subst c; destruct Hu].
  destruct H1 as [H1|u u0 u2 st Hs Hs1 Hj Hp Ht H1u2 _]; [exact (GP H1)|].
  exfalso. unfold join2 in Hj. destruct (u_pos u0 =? u_pos u2) eqn:Hpp; [|discriminate].
  apply Z.eqb_eq in Hpp. rewrite Hp in Hpp. change (acur (abs s)) with (cursor s) in Hpp. cbn [negb] in Hj.
  assert (Hd : u_del u0 = 0 \/ u_del u2 = 0).
  { destruct (u_del u0 =? 0) eqn:D1; [left; lia|]. destruct (u_del u2 =? 0) eqn:D2; [right; lia|]. cbn in Hj. destruct (_ && _) in Hj; discriminate Hj. }
  destruct Hd as [Hd|Hd].
  - assert (Hno : forall u rest, undoes s = u :: rest -> ~ (u_pos u = cursor s /\ u_del u = 0)).
    { destruct c; cbn in Hpc; try discriminate; exact Hu. }
    exact (Hno u0 st Hs (conj Hpp Hd)).
  - unfold undo1 in H1u2. rewrite Hd, Ht in H1u2. cbn in H1u2. injection H1u2 as H1u2. exact (Hne H1u2).
Qed.
