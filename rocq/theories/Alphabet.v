(** Nothing on the line, in the undo records, the clipboard or the prediction but
    characters that were supplied. *)
From Verif Require Import Base Utf8 Moji Color Prompt Buffer Commands KeyMap Session MojiFacts Abs AbsRef AbsSess AbsSafe AbsInv Safe SafeSess Plain Spec Reach Script SpecSupply.
Ltac lia := unfold rune in *; Lia.lia.

Section WithSess.
Variable S : scfg.
Notation C := (base S).
Notation E := (cE C).
Variable A : rune -> Prop.
Definition single (s : str) : Prop := all_runes A s.
Definition um (m : moji) : Prop := moji_valid m /\ Forall A (mrunes m).
Definition clean (p : str) : Prop := valid_utf8 p /\ single p.
Notation typed_ok := (typed_ok S A).
Notation joining := (joining S A).
Hypothesis HZ : joining -> A 8205 /\ A 65533.

Lemma zwj_on r : A r -> isZeroWidthJoin E r = true -> joining.
Proof.
  unfold isZeroWidthJoin, is_join_control. intros Ha [H1 H2]%andb_true_iff. split; [exact H1|].
  apply orb_true_iff in H2 as [H2|H2]; apply Z.eqb_eq in H2; subst; auto.
Qed.
Lemma um_fresh r pos : A r -> Forall A (mrunes (rune2moji E r pos)).
Proof. intros H. rewrite mrunes_rune2moji. now constructor. Qed.
Lemma A_units rs : forall last, Forall A rs -> (forall m, last = Some m -> Forall A (mrunes m)) -> Forall (fun m => Forall A (mrunes m)) (units_from E last rs).
Proof.
  assert (app1 : forall m r, Forall A (mrunes m) -> A r -> Forall A (mrunes m ++ [r])) by (intros; apply Forall_app; auto).
  assert (zwj1 : forall m n, joining -> Forall A (mrunes m) -> A n -> Forall A (mrunes (MZwj m (MRaw n)))).
  { intros m n Hz Hm Hn. cbn [mrunes]. apply Forall_app. split; [exact Hm|]. constructor; [apply HZ; exact Hz|]. now constructor. }
  induction rs as [|r|r n rs IH1 IH2] using rune_list_ind; intros last Hv Hl.
  - destruct last as [m|]; cbn; auto.
  - inversion_clear Hv as [|? ? Hr _]. destruct last as [m|].
    + specialize (Hl m eq_refl). rewrite units_some1. destruct (isZeroWidthJoin E r) eqn:Hz; [|destruct (isVariationSelectorLike E r); [|destruct (isEmojiModifier E r)]].
      * constructor; [|constructor]. apply zwj_on in Hz; [|assumption]. apply zwj1; auto. now apply HZ.
      * constructor; [|constructor]. cbn [mrunes]. auto.
      * constructor; [|constructor]. cbn [mrunes]. auto.
      * repeat constructor; auto. now apply um_fresh.
    + rewrite units_none. constructor; [now apply um_fresh|constructor].
  - inversion_clear Hv as [|? ? Hr Hv']. inversion Hv' as [|? ? Hn Hv'']; subst. destruct last as [m|].
    + specialize (Hl m eq_refl). rewrite units_some2. destruct (isZeroWidthJoin E r) eqn:Hz; [|destruct (isVariationSelectorLike E r); [|destruct (isEmojiModifier E r)]].
      * apply IH1; [exact Hv''|]. intros m' [= <-]. apply zwj_on in Hz; [|assumption]. apply zwj1; auto.
      * apply IH2; [exact Hv'|]. intros m' [= <-]. cbn [mrunes]. auto.
      * apply IH2; [exact Hv'|]. intros m' [= <-]. cbn [mrunes]. auto.
      * constructor; [exact Hl|]. apply IH2; [exact Hv'|]. intros m' [= <-]. now apply um_fresh.
    + rewrite units_none. apply IH2; [exact Hv'|]. intros m' [= <-]. now apply um_fresh.
Qed.
Lemma single_units s : single s -> Forall um (units E s).
Proof.
  intros H. pose proof (A_units (runes s) None H ltac:(discriminate)) as H1. pose proof (units_self E s) as H2.
  rewrite Forall_forall in *. intros m Hm. split; [apply (proj1 (H2 m Hm))|exact (H1 m Hm)].
Qed.
Lemma single_of l : Forall um l -> single (text l).
Proof.
  intros H. unfold single, all_runes. rewrite text_mrunes, runes_encode.
  - induction H as [|m l [_ Hm] _ IH]; [constructor|]. cbn [flat_map]. apply Forall_app. auto.
  - induction H as [|m l [Hm _] _ IH]; [constructor|]. cbn [flat_map]. apply Forall_app. auto.
Qed.
Lemma valid_glue rs t : Forall (fun r => valid_rune r = true) rs -> valid_utf8 t -> valid_utf8 (encode rs ++ t).
Proof. intros H Ht. apply valid_utf8_app; [now exists rs|exact Ht]. Qed.
Lemma valid_altgr k : valid_utf8 k -> valid_utf8 (altgr k).
Proof.
  intros H. unfold altgr. destruct k as [|a [|x [|]]]; try exact H. destruct (a =? 27) eqn:Ha; [|exact H]. apply Z.eqb_eq in Ha. subst.
  destruct H as (rs & Hv & He). pose proof (runes_encode rs Hv) as Hr. rewrite <- He, (runes_encode_rune 27 [x] eq_refl : runes [27; x] = 27 :: runes [x]) in Hr.
  subst rs. inversion Hv; subst. exists (runes [x]). split; [assumption|]. rewrite encode_cons in He. now injection He.
Qed.

Hypothesis Hpred : pcolor0 C = [] \/ forall t c, single t -> single (predictor C t c).
Hypothesis Hhist : Forall single (hist C).

Definition NU (a : astate) : Prop :=
  Forall um (aline a) /\ Forall (fun u => single (u_text u)) (aundo a) /\ clean (apend a) /\
  (forall k t, In (k, t) (amodh a) -> single t) /\ (forall t, aclip a = Some t -> single t) /\ Forall um (asuf a).

Lemma NU_set_cur a c : NU a -> NU (aset_cur a c). Proof. exact (fun H => H). Qed.
Lemma NU_set_hptr a c : NU a -> NU (aset_hptr a c). Proof. exact (fun H => H). Qed.
Lemma NU_set_line a l : NU a -> Forall um l -> NU (aset_line a l).
Proof. intros (_ & H) Hl. split; [exact Hl|exact H]. Qed.
Lemma NU_push a u : NU a -> single (u_text u) -> NU (apush a u).
Proof. intros (H1 & H2 & H3) Hu. split; [exact H1|]. split; [now constructor|exact H3]. Qed.
Lemma NU_clip a t : NU a -> single t -> NU (aset_clip a (Some t)).
Proof.
  intros (H1 & H2 & H3 & H4 & H5 & H6) Ht. repeat (split; [assumption|]). split; [|exact H6].
  intros t0 H; injection H as <-. exact Ht.
Qed.
Lemma NU_aclip_write a t : NU a -> single t -> NU (aclip_write a t).
Proof. intros H Ht. unfold aclip_write. destruct (aclip a); [now apply NU_clip|exact H]. Qed.
Lemma NU_set_suf a l : NU a -> Forall um l -> NU (aset_suf a l).
Proof. intros (H1 & H2 & H3 & H4 & H5 & H6) Hl. repeat (split; [assumption|]). exact Hl. Qed.
Lemma NU_aupdate a : NU a -> NU (aupdate C a).
Proof.
  intros H. unfold aupdate. destruct Hpred as [->|Hp]; [exact H|]. destruct (pcolor0 C); [exact H|].
  destruct (aline a); [now apply NU_set_suf|]. apply NU_set_suf; [exact H|]. apply single_units, Hp. apply single_of, H.
Qed.
Lemma NU_ains a pos l a' : NU a -> Forall um l -> ains a pos l = Some a' -> NU a'.
Proof.
  intros H Hl Hi. unfold ains in Hi. opt Hi. injection Hi as <-. apply NU_push; [|constructor].
  apply NU_set_line; [exact H|]. eapply Forall_sliceInsert; eauto. apply H.
Qed.
Lemma NU_adelete a pos n a' : NU a -> adelete a pos n = Some a' -> NU a'.
Proof.
  intros H Hd. unfold adelete in Hd. destruct ((n <=? 0) || (zlen (aline a) <? pos + n)) eqn:Hc; [injection Hd as <-; exact H|].
  opt Hd. injection Hd as <-. apply NU_set_line.
  - apply NU_push; [exact H|]. apply single_of. eapply Forall_slice; [exact Ev|apply H].
  - eapply Forall_sliceDelete; [|exact Ev0|apply H]. lia.
Qed.
Lemma NU_ajoin a : NU a -> NU (ajoin a).
Proof.
  intros H. unfold ajoin. destruct (aundo a) as [|u2 [|u1 st]] eqn:Hu; try exact H.
  destruct (join2 u1 u2) as [u|] eqn:Hj; [|exact H].
  pose proof H as (H1 & H2 & H3). rewrite Hu in H2. apply Forall_cons_iff in H2 as [P2 H2]. apply Forall_cons_iff in H2 as [P1 H2].
  split; [exact H1|]. split; [|exact H3]. constructor; [|exact H2].
  unfold join2 in Hj. destruct (negb (u_pos u1 =? u_pos u2)); [discriminate|]. destruct (_ && _); [discriminate|].
  destruct (_ && _); [discriminate|]. injection Hj as <-. cbn. destruct (str_eqb _ _); assumption.
Qed.
Lemma NU_areplace a pos t a' : NU a -> single t -> areplace C a pos t = Some a' -> NU a'.
Proof.
  intros H Ht Hr. unfold areplace in Hr. opt Hr. injection Hr as <-. apply NU_aupdate, NU_ajoin, NU_set_cur.
  eapply NU_ains; [|apply single_units; exact Ht|exact Ev0]. eapply NU_adelete; eauto.
Qed.
Lemma NU_BackwardDelete a a' : NU a -> aBackwardDelete C a = Some a' -> NU a'.
Proof.
  intros H Hb. unfold aBackwardDelete in Hb. destruct (0 <? acur a); [|injection Hb as <-; exact H].
  opt Hb. injection Hb as <-. apply NU_aupdate. eapply NU_adelete; [|exact Ev]. exact H.
Qed.
Lemma NU_tail a k a' : NU a -> single k -> aself_tail C a k = Some a' -> NU a'.
Proof.
  intros H Hk Hs. unfold aself_tail in Hs. opt Hs. injection Hs as <-.
  apply NU_aupdate, NU_set_cur. eapply NU_ains; [|apply single_units; exact Hk|exact Ev]. exact H.
Qed.
Lemma NU_pend a p : NU a -> clean p -> NU (aset_pend a p).
Proof. intros (H1 & H2 & H3 & H4) Hp. split; [exact H1|]. split; [exact H2|]. split; [exact Hp|exact H4]. Qed.
Lemma single_glue m k : um m -> single k -> single (write m ++ k).
Proof.
  intros (Hv & Ha) Hk. unfold single, all_runes. rewrite write_mrunes, runes_encode_app by exact Hv. apply Forall_app. split; [exact Ha|exact Hk].
Qed.
Lemma joiner_key k : single k -> AreZeroWidthJoin E (altgr k) = true -> joining.
Proof.
  intros Hk Hz. unfold AreZeroWidthJoin in Hz. apply andb_true_iff in Hz as [_ Hz]. apply (zwj_on _) in Hz; [exact Hz|].
  apply all_altgr in Hk. unfold all_runes in Hk. destruct (altgr k) as [|b k'].
  - exfalso. unfold isZeroWidthJoin in Hz. cbn in Hz. now rewrite andb_false_r in Hz.
  - rewrite runes_step in Hk. destruct (decode_rune (b :: k')) as [r n]. now inversion Hk.
Qed.
Lemma NU_self k a a' : NU a -> typed_ok k -> aselfInsert C k a = Some a' -> NU a'.
Proof.
  intros H [Hk Hv] Hs. unfold aselfInsert in Hs. pose proof (all_altgr _ _ Hk) as Hk'. fold (single (altgr k)) in Hk'.
  destruct (AreZeroWidthJoin E (altgr k) && (0 <? acur a)) eqn:Hz.
  - opt Hs. eapply NU_BackwardDelete; [|exact Hs]. apply NU_pend; [exact H|]. pose proof H as (H1 & _). pose proof (Forall_index _ _ _ _ Ev H1) as Hm.
    apply andb_true_iff in Hz as [Hz _]. specialize (Hv (joiner_key _ Hk Hz)).
    split; [|now apply single_glue]. rewrite write_mrunes. destruct Hm as [Hm _]. apply valid_glue; [exact Hm|now apply valid_altgr].
  - clear Hz. destruct (_ && (0 <? acur a)).
    + opt Hs. pose proof H as (H1 & _). pose proof (Forall_index _ _ _ _ Ev H1) as Hm. eapply NU_tail; [|apply single_glue; [exact Hm|exact Hk']|exact Hs].
      eapply NU_BackwardDelete; eauto.
    + destruct (apend a) as [|x p] eqn:Hp; [eapply NU_tail; eauto|]. pose proof H as (_ & _ & [Hc1 Hc2] & _). rewrite Hp in Hc1, Hc2.
      eapply NU_tail; [|  |exact Hs]; [apply NU_pend; [exact H|split; [apply valid_utf8_nil|constructor]]|].
      unfold single, all_runes. rewrite runes_app_valid by exact Hc1. apply Forall_app. split; [exact Hc2|exact Hk'].
Qed.
Lemma NU_KillWhole a : NU a -> NU (aKillWhole a).
Proof.
  intros H. unfold aKillWhole. apply NU_set_cur, NU_set_line; [|constructor]. apply NU_push; [exact H|]. apply single_of, H.
Qed.
Lemma NU_save a a' : NU a -> asave C a = Some a' -> NU a'.
Proof.
  intros H Hs. unfold asave in Hs.
  assert (G : NU (aset_modh a (aset Z.eqb (amodh a) (ahptr a) (atext a)))).
  { destruct H as (H1 & H2 & H3 & H4 & H5 & H6). repeat (split; [assumption|]). split; [|auto].
    intros k t Hi. apply In_aset in Hi as [Hi| ->]; [now apply H4 in Hi|]. now apply single_of. }
  destruct (_ <? _); [|injection Hs as <-; exact G]. opt Hs. destruct (str_eqb _ _); injection Hs as <-; [exact H|exact G].
Qed.
Lemma NU_show a a' : NU a -> ashow C a = Some a' -> NU a'.
Proof.
  intros H Hs. unfold ashow in Hs. apply NU_KillWhole in H. opt Hs.
  assert (Hp : single s).
  { unfold agetHistory in Ev. destruct (aget Z.eqb _ _) eqn:Hg.
    - injection Ev as <-. apply aget_In in Hg as [k' Hk']. destruct H as (_ & _ & _ & H & _). eapply H. exact Hk'.
    - destruct (_ || _); [injection Ev as <-; constructor|]. eapply Forall_index; [exact Ev|exact Hhist]. }
  destruct s as [|x t]; [injection Hs as <-; exact H|]. opt Hs. injection Hs as <-. apply NU_set_cur.
  eapply NU_ains; [exact H|apply single_units; exact Hp|exact Ev0].
Qed.
Lemma NU_Previous a a' : NU a -> aPrevious C a = Some a' -> NU a'.
Proof.
  intros H Hs. unfold aPrevious in Hs. destruct (_ <=? 0); [injection Hs as <-; exact H|].
  destruct (_ <=? 0); [destruct (negb _); [injection Hs as <-; exact H|]|]; opt Hs;
  (eapply NU_show; [|exact Hs]; apply NU_set_hptr; eapply NU_save; [|exact Ev]; exact H).
Qed.
Lemma NU_Next a a' : NU a -> aNext C a = Some a' -> NU a'.
Proof.
  intros H Hs. unfold aNext in Hs. destruct (_ <=? 0); [injection Hs as <-; exact H|].
  destruct (_ <? _); [injection Hs as <-; exact H|]. opt Hs.
  eapply NU_show; [|exact Hs]. apply NU_set_hptr. eapply NU_save; [|exact Ev]. exact H.
Qed.
Lemma Forall_aswap l i j l' : Forall um l -> aswap l i j = Some l' -> Forall um l'.
Proof.
  intros H Hs. unfold aswap in Hs. opt Hs.
  pose proof (Forall_index _ _ _ _ Ev H). pose proof (Forall_index _ _ _ _ Ev0 H).
  destruct (Forall_set_index _ _ _ _ _ Ev1 H) as [G _]; [assumption|].
  now destruct (Forall_set_index _ _ _ _ _ Hs G).
Qed.

Lemma NU_exec b c a a' r : NU a -> command_ok S A c -> aexec C b c a = Some (a', r) -> NU a'.
Proof.
  intros H Hk He.
  assert (G : forall o, (forall a0, o = Some a0 -> NU a0) -> acontinue o = Some (a', r) -> NU a').
  { intros o Ho Hc. unfold acontinue in Hc. opt Hc. injection Hc as <- _. now apply Ho. }
  destruct c; cbn [aexec] in He.
  - injection He as <- _. exact H.
  - injection He as <- _. destruct H as (H1 & H2 & H3). split; [constructor|]. split; [constructor|exact H3].
  - injection He as <- _. now apply NU_aupdate.
  - injection He as <- _. unfold aBackwardChar. destruct (_ <=? _); [exact H|now apply NU_aupdate].
  - injection He as <- _. exact H.
  - eapply G; [|exact He]. intros a0 Ha. unfold aForwardChar in Ha. destruct (_ <=? _); [|injection Ha as <-; exact H].
    destruct (asuf a) as [|m l] eqn:Hsuf; [injection Ha as <-; exact H|]. eapply NU_areplace; [exact H| |exact Ha].
    apply single_of. rewrite <- Hsuf. apply H.
  - eapply G; [|exact He]. intros a0 Ha. eapply NU_BackwardDelete; eauto.
  - eapply G; [|exact He]. intros a0 Ha. unfold aDelete in Ha. opt Ha. injection Ha as <-. apply NU_aupdate. eapply NU_adelete; eauto.
  - destruct (_ <? _); [|injection He as <- _; exact H]. eapply G; [|exact He]. intros a0 Ha. unfold aDelete in Ha. opt Ha.
    injection Ha as <-. apply NU_aupdate. eapply NU_adelete; eauto.
  - eapply G; [|exact He]. intros a0 Ha. unfold aKillLine in Ha. opt Ha. injection Ha as <-.
    assert (Hp : single (text l)) by (apply single_of; eapply Forall_slice; [exact Ev|apply H]).
    apply NU_set_line; [|eapply Forall_slice; [exact Ev0|apply H]]. apply NU_push; [|exact Hp]. now apply NU_aclip_write.
  - injection He as <- _. now apply NU_KillWhole.
  - eapply G; [|exact He]. intros a0 Ha. unfold aWordRubout in Ha. opt Ha. injection Ha as <-.
    apply NU_aupdate, NU_set_cur. eapply NU_adelete; [|exact Ev2]. apply NU_aclip_write; [exact H|].
    apply single_of. eapply Forall_slice; [exact Ev1|apply H].
  - eapply G; [|exact He]. intros a0 Ha. unfold aLineDiscard in Ha. opt Ha. injection Ha as <-.
    apply NU_aupdate, NU_set_cur. eapply NU_adelete; [|exact Ev0]. apply NU_aclip_write; [exact H|].
    apply single_of. eapply Forall_slice; [exact Ev|apply H].
  - injection He as <- _. now apply NU_aupdate.
  - injection He as <- _. now apply NU_aupdate.
  - injection He as <- _. exact H.
  - eapply G; [|exact He]. intros a0 Ha. unfold aYank in Ha. destruct (aclip a) as [t|] eqn:Hcl; [|injection Ha as <-; exact H].
    eapply NU_areplace; [exact H| |exact Ha]. apply all_trim_right. now apply H.
  - eapply G; [|exact He]. intros a0 Ha. unfold aYank in Ha. destruct (aclip a) as [t|] eqn:Hcl; [|injection Ha as <-; exact H].
    eapply NU_areplace; [exact H| |exact Ha]. apply all_yank_quote; [exact Hk|]. now apply H.
  - eapply G; [|exact He]. intros a0 Ha. unfold aSwapChar in Ha.
    destruct (_ =? _); (destruct (_ <? _); [injection Ha as <-; exact H|]); opt Ha; injection Ha as <-;
      try apply NU_set_cur; (apply NU_set_line; [|eapply Forall_aswap; [|exact Ev0]; apply H]);
      (apply NU_push; [exact H|]); cbn; (apply single_of; eapply Forall_slice; [exact Ev|apply H]).
  - eapply G; [|exact He]. intros a0 Ha. unfold aBackwardWord in Ha. opt Ha. injection Ha as <-. now apply NU_aupdate.
  - eapply G; [|exact He]. intros a0 Ha. unfold aForwardWord in Ha. opt Ha. injection Ha as <-. destruct b; [now apply NU_aupdate|exact H].
  - eapply G; [|exact He]. intros a0 Ha. unfold aUndo in Ha. destruct (aundo a) as [|u st] eqn:Hu; [injection Ha as <-; exact H|].
    opt Ha. injection Ha as <-. apply NU_aupdate.
    assert (H0 : Forall um l).
    { destruct (0 <? u_del u) eqn:Hd; [eapply Forall_sliceDelete; [|exact Ev|apply H]; lia|injection Ev as <-; apply H]. }
    pose proof H as (H1 & H2 & H3). rewrite Hu in H2. apply Forall_cons_iff in H2 as [Hp H2].
    assert (H5 : NU (aset_line (aset_undo a st) l)).
    { apply NU_set_line; [|exact H0]. split; [exact H1|]. split; [exact H2|exact H3]. }
    destruct (u_text u) as [|x t] eqn:Ht; [injection Ev0 as <-; exact H5|].
    opt Ev0. injection Ev0 as <-. apply NU_set_cur, NU_set_line; [exact H5|].
    eapply Forall_sliceInsert; [exact Ev1|exact H0|]. now apply single_units.
  - eapply G; [|exact He]. intros a0 Ha. eapply NU_Previous; eauto.
  - eapply G; [|exact He]. intros a0 Ha. eapply NU_Next; eauto.
  - injection He as <- _. exact H.
  - eapply G; [|exact He]. intros a0 Ha. eapply NU_self; [exact H|exact Hk|exact Ha].
  - discriminate.
Qed.

Definition ss_in (ss : search) : Prop := single (ss_found ss).
Variable Q : Prop.
Definition mode_in (m : mode) : Prop := match m with MSearch ss => ss_in ss | MQuoted => Q | MNormal => True end.
Lemma hist_in i h : index (hist C) i = Some h -> single h.
Proof. intros H. eapply Forall_index; [exact H|exact Hhist]. Qed.
Lemma search_update_in l : Forall single l -> forall i ss, single (ss_found (search_update S l i ss)).
Proof.
  induction 1 as [|h l Hh _ IH]; intros i ss; cbn [search_update]; [constructor|]. destruct (ci_contains S h (ss_str ss)); [exact Hh|apply IH].
Qed.
Lemma update_in ss : ss_in (update S ss).
Proof. unfold ss_in, update. apply search_update_in. now apply Forall_rev. Qed.
Lemma older_in f : forall i ss ss', ss_in ss -> search_older S f i ss = Some ss' -> ss_in ss'.
Proof.
  induction f as [|f IH]; intros i ss ss' H Hs; cbn [search_older] in Hs; [discriminate|]. cbv zeta in Hs.
  match type of Hs with context [if ?b then Some ss else _] => destruct b end; [now injection Hs as <-|]. opt Hs.
  destruct (_ && _); [injection Hs as <-; eapply hist_in; exact Ev|eapply IH; eauto].
Qed.
Lemma newer_in f : forall i ss ss', ss_in ss -> search_newer S f i ss = Some ss' -> ss_in ss'.
Proof.
  induction f as [|f IH]; intros i ss ss' H Hs; cbn [search_newer] in Hs; [discriminate|].
  destruct (zlen _ <=? i); [now injection Hs as <-|]. destruct (i =? _); [now injection Hs as <-|]. opt Hs.
  destruct (_ && _); [injection Hs as <-; eapply hist_in; exact Ev|eapply IH; eauto].
Qed.
Lemma search_key_in k ss ss' : ss_in ss -> search_key S k ss = Some (SContinue ss') -> ss_in ss'.
Proof.
  unfold search_key. intros H Hs. destruct (_ || _); [injection Hs as <-; apply update_in|]. destruct (str_eqb k [13]); [discriminate|].
  destruct (_ || _); [discriminate|]. destruct (str_eqb k [18]); [opt Hs; injection Hs as <-; eapply older_in; eauto|].
  destruct (str_eqb k [19]); [opt Hs; injection Hs as <-; eapply newer_in; eauto|].
  destruct (decode_rune k) as [r n]. destruct (is_control r); injection Hs as <-; [exact H|apply update_in].
Qed.
Definition NS (x : asess) : Prop :=
  match x with ARunning m a => mode_in m /\ NU a | AFinished a t _ => NU a /\ single t end.
Lemma NS_after a r x : NU a -> aafter (Some (a, r)) = Some x -> NS x.
Proof.
  intros H Ha. cbn in Ha. assert (G : NU (aset_suf a [])) by (apply NU_set_suf; [exact H|constructor]).
  destruct r; injection Ha as <-; cbn; (split; [exact I|exact H]) || (split; [exact G|apply single_of, H]).
Qed.
Lemma NS_step b e x x' : (forall k, e = EKey k -> Q -> typed_ok k) -> (forall t, e = EClip (Some t) -> single t) ->
  (forall k, e = EKey k -> command_ok S A (LookupCommand (kmap S) (gmap S) k) /\ (LookupCommand (kmap S) (gmap S) k = CQuotedInsert -> Q)) ->
  NS x -> astep S b e x = Some x' -> NS x'.
Proof.
  intros He1 He2 He3 H Hs. destruct x as [m a|a t r]; cbn [astep] in Hs; [|injection Hs as <-; exact H].
  destruct H as [Hm H]. destruct e as [k| |w|c].
  - specialize (He1 k eq_refl). destruct m as [| |ss].
    + unfold akey_normal in Hs. destruct (He3 k eq_refl) as [He4 He5].
      destruct (LookupCommand (kmap S) (gmap S) k) eqn:Hl;
        try (destruct (aexec C b _ a) as [[a1 r1]|] eqn:Hx; [|discriminate]; eapply NS_after; [|exact Hs]; eapply NU_exec; [exact H|exact He4|exact Hx]).
      * injection Hs as <-. split; [now apply He5|exact H].
      * injection Hs as <-. split; [constructor|exact H].
    + opt Hs. injection Hs as <-. split; [exact I|]. eapply NU_self; eauto.
    + unfold akey_search in Hs. opt Hs. destruct s as [ss'| |].
      * injection Hs as <-. split; [eapply search_key_in; eauto|exact H].
      * opt Hs. injection Hs as <-. split; [exact I|]. unfold aaccept in Ev0. eapply NU_areplace; [|exact Hm|exact Ev0].
        apply NU_set_cur, NU_set_line; [|constructor]. apply NU_push; [exact H|]. apply single_of, H.
      * injection Hs as <-. split; [exact I|exact H].
  - destruct m; injection Hs as <-; (split; [exact H || exact I|]); try exact H. constructor.
  - destruct m; injection Hs as <-; (split; [exact Hm|]); try exact H. now apply NU_aupdate.
  - injection Hs as <-. split; [exact Hm|]. destruct H as (H1 & H2 & H3 & H4 & H5 & H6). repeat (split; [assumption|]). split; [|exact H6].
    cbn. intros t ->. now apply He2.
Qed.
Lemma NU_start d cur cl : single d -> (forall t, cl = Some t -> single t) -> NU (astart S d cur cl).
Proof.
  intros Hd Hc. unfold astart. apply NU_aupdate. split; [now apply single_units|]. split; [repeat constructor|]. split; [split; [apply valid_utf8_nil|constructor]|].
  split; [intros k t []|]. split; [exact Hc|constructor].
Qed.
End WithSess.
