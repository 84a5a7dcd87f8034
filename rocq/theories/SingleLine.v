(** Sessions in which no string contains a joining code point, tabs allowed: as Plain.v,
    without the condition on tabs and without bounds. *)
From Verif Require Import Base Utf8 Moji Color Prompt Buffer Commands KeyMap Session MojiFacts Abs AbsRef AbsSess AbsSafe AbsInv Safe SafeSess Plain.
Ltac lia := unfold rune in *; Lia.lia.

Section WithSess.
Variable S : scfg.
Notation C := (base S).
Notation E := (cE C).

(** A code point that makes up a unit of its own: also a tab. *)
Definition single_rune (r : rune) : Prop := joinlike E r = false.
Definition single (s : str) : Prop := all_runes single_rune s.
Definition um (m : moji) : Prop := exists r, m = rune2moji E r 0 /\ single_rune r /\ valid_rune r = true.

Lemma units_single rs : Forall single_rune rs -> forall m, units_from E (Some m) rs = m :: map (fun r => rune2moji E r 0) rs.
Proof.
  induction rs as [|r|r n rs IH1 IH2] using rune_list_ind; intros H m.
  - reflexivity.
  - apply Forall_cons_iff in H as [Hj _]. rewrite units_some1. unfold joinlike in Hj.
    apply orb_false_iff in Hj as [Hj ->]. apply orb_false_iff in Hj as [-> ->]. reflexivity.
  - apply Forall_cons_iff in H as [Hj H]. rewrite units_some2. unfold joinlike in Hj.
    apply orb_false_iff in Hj as [Hj ->]. apply orb_false_iff in Hj as [-> ->].
    rewrite (IH2 H). reflexivity.
Qed.
Lemma single_units s : single s -> Forall um (units E s).
Proof.
  unfold single, all_runes, units. intros H. pose proof (runes_valid s) as HV. destruct (runes s) as [|r rs]; [constructor|].
  apply Forall_cons_iff in H as [Hr H]. apply Forall_cons_iff in HV as [Vr HV]. rewrite units_none, units_single by exact H. constructor.
  - exists r. auto.
  - apply Forall_map. rewrite Forall_forall in *. intros x Hx. exists x. auto.
Qed.
Lemma um_self m : um m -> self E m.
Proof. intros (r & -> & _ & H). now apply self_rune2moji. Qed.
Lemma um_head m : um m -> headok E m.
Proof. intros (r & -> & H & _). unfold headok. rewrite mrunes_rune2moji. apply H. Qed.
Lemma single_of l : Forall um l -> single (text l).
Proof.
  intros H. unfold single, all_runes. rewrite runes_text with (E := E).
  - induction H as [|m l (r & -> & Hr & _) _ IH]; [constructor|]. cbn [flat_map]. rewrite mrunes_rune2moji. now constructor.
  - eapply Forall_impl; [|exact H]. apply um_self.
Qed.
Hypothesis HVe : joinlike E RuneError = false.
Hypothesis HV34 : single_rune 34.
Hypothesis Hpred : pcolor0 C = [] \/ forall t c, single (predictor C t c).
Hypothesis Hhist : Forall single (hist C).

Definition NU (a : astate) : Prop :=
  Forall um (aline a) /\ Forall (fun u => single (u_text u)) (aundo a) /\ apend a = [] /\
  (forall k t, In (k, t) (amodh a) -> single t) /\ (forall t, aclip a = Some t -> single t) /\ Forall um (asuf a).

Lemma NU_set_cur a c : NU a -> NU (aset_cur a c). Proof. exact (fun H => H). Qed.
Lemma NU_set_hptr a c : NU a -> NU (aset_hptr a c). Proof. exact (fun H => H). Qed.
Lemma NU_set_line a l : NU a -> Forall um l -> NU (aset_line a l).
Proof. intros (_ & H) Hl. split; [exact Hl|exact H]. Qed.
Lemma NU_push a u : NU a -> single (u_text u) -> NU (apush a u).
Proof. intros (H1 & H2 & H3) Hu. split; [exact H1|]. split; [now constructor|exact H3]. Qed.
Lemma NU_clip a t : NU a -> single t -> NU (aset_clip a (Some t)).
Proof.
  intros (H1 & H2 & H3 & H4 & H5 & H6) Ht. repeat (split; [assumption|]). split; [|exact H6].
  intros t0 H; injection H as <-. exact Ht.
Qed.
Lemma NU_aclip_write a t : NU a -> single t -> NU (aclip_write a t).
Proof. intros H Ht. unfold aclip_write. destruct (aclip a); [now apply NU_clip|exact H]. Qed.
Lemma NU_set_suf a l : NU a -> Forall um l -> NU (aset_suf a l).
Proof. intros (H1 & H2 & H3 & H4 & H5 & H6) Hl. repeat (split; [assumption|]). exact Hl. Qed.
Lemma NU_aupdate a : NU a -> NU (aupdate C a).
Proof.
  intros H. unfold aupdate. destruct Hpred as [->|Hp]; [exact H|]. destruct (pcolor0 C); [exact H|].
  destruct (aline a); [now apply NU_set_suf|]. apply NU_set_suf; [exact H|]. apply single_units, Hp.
Qed.
Lemma NU_ains a pos l a' : NU a -> Forall um l -> ains a pos l = Some a' -> NU a'.
Proof.
  intros H Hl Hi. unfold ains in Hi. opt Hi. injection Hi as <-. apply NU_push; [|constructor].
  apply NU_set_line; [exact H|]. eapply Forall_sliceInsert; eauto. apply H.
Qed.
Lemma NU_adelete a pos n a' : NU a -> adelete a pos n = Some a' -> NU a'.
Proof.
  intros H Hd. unfold adelete in Hd. destruct ((n <=? 0) || (zlen (aline a) <? pos + n)) eqn:Hc; [injection Hd as <-; exact H|].
  opt Hd. injection Hd as <-. apply NU_set_line.
  - apply NU_push; [exact H|]. apply single_of. eapply Forall_slice; [exact Ev|apply H].
  - eapply Forall_sliceDelete; [|exact Ev0|apply H]. lia.
Qed.
Lemma NU_ajoin a : NU a -> NU (ajoin a).
Proof.
  intros H. unfold ajoin. destruct (aundo a) as [|u2 [|u1 st]] eqn:Hu; try exact H.
  destruct (join2 u1 u2) as [u|] eqn:Hj; [|exact H].
  pose proof H as (H1 & H2 & H3). rewrite Hu in H2. apply Forall_cons_iff in H2 as [P2 H2]. apply Forall_cons_iff in H2 as [P1 H2].
  split; [exact H1|]. split; [|exact H3]. constructor; [|exact H2].
  unfold join2 in Hj. destruct (negb (u_pos u1 =? u_pos u2)); [discriminate|]. destruct (_ && _); [discriminate|].
  destruct (_ && _); [discriminate|]. injection Hj as <-. cbn. destruct (str_eqb _ _); assumption.
Qed.
Lemma NU_areplace a pos t a' : NU a -> single t -> areplace C a pos t = Some a' -> NU a'.
Proof.
  intros H Ht Hr. unfold areplace in Hr. opt Hr. injection Hr as <-. apply NU_aupdate, NU_ajoin, NU_set_cur.
  eapply NU_ains; [|apply single_units; exact Ht|exact Ev0]. eapply NU_adelete; eauto.
Qed.
Lemma NU_self k a a' : NU a -> single k -> aselfInsert C k a = Some a' -> NU a'.
Proof.
  intros H Hk Hs. unfold aselfInsert in Hs. pose proof (all_altgr _ _ Hk) as Hk'.
  assert (Hj : joinlike E (fst (decode_rune (altgr k))) = false).
  { destruct (altgr k) as [|x t] eqn:Hal; [exact HVe|]. unfold all_runes in Hk'. rewrite runes_step in Hk'.
    apply Forall_cons_iff in Hk' as [Hx _]. exact Hx. }
  unfold AreZeroWidthJoin, AreVariationSelectorLike, AreEmojiModifier in Hs. unfold joinlike in Hj.
  apply orb_false_iff in Hj as [Hj Hj3]. apply orb_false_iff in Hj as [Hj1 Hj2]. rewrite Hj1, Hj2, Hj3, !andb_false_r in Hs.
  cbn [andb orb] in Hs. destruct H as (H1 & H2 & H3 & H4). rewrite H3 in Hs. unfold aself_tail in Hs. opt Hs. injection Hs as <-.
  apply NU_aupdate, NU_set_cur. eapply NU_ains; [|apply single_units; exact Hk'|exact Ev]. repeat (split; [assumption|]). exact H4.
Qed.
Lemma NU_BackwardDelete a a' : NU a -> aBackwardDelete C a = Some a' -> NU a'.
Proof.
  intros H Hb. unfold aBackwardDelete in Hb. destruct (0 <? acur a); [|injection Hb as <-; exact H].
  opt Hb. injection Hb as <-. apply NU_aupdate. eapply NU_adelete; [|exact Ev]. exact H.
Qed.
Lemma NU_KillWhole a : NU a -> NU (aKillWhole a).
Proof.
  intros H. unfold aKillWhole. apply NU_set_cur, NU_set_line; [|constructor]. apply NU_push; [exact H|]. apply single_of, H.
Qed.
Lemma NU_save a a' : NU a -> asave C a = Some a' -> NU a'.
Proof.
  intros H Hs. unfold asave in Hs.
  assert (G : NU (aset_modh a (aset Z.eqb (amodh a) (ahptr a) (atext a)))).
  { destruct H as (H1 & H2 & H3 & H4 & H5 & H6). repeat (split; [assumption|]). split; [|auto].
    intros k t Hi. apply In_aset in Hi as [Hi| ->]; [now apply H4 in Hi|]. now apply single_of. }
  destruct (_ <? _); [|injection Hs as <-; exact G]. opt Hs. destruct (str_eqb _ _); injection Hs as <-; [exact H|exact G].
Qed.
Lemma NU_show a a' : NU a -> ashow C a = Some a' -> NU a'.
Proof.
  intros H Hs. unfold ashow in Hs. apply NU_KillWhole in H. opt Hs.
  assert (Hp : single s).
  { unfold agetHistory in Ev. destruct (aget Z.eqb _ _) eqn:Hg.
    - injection Ev as <-. apply aget_In in Hg as [k' Hk']. destruct H as (_ & _ & _ & H & _). eapply H. exact Hk'.
    - destruct (_ || _); [injection Ev as <-; constructor|]. eapply Forall_index; [exact Ev|exact Hhist]. }
  destruct s as [|x t]; [injection Hs as <-; exact H|]. opt Hs. injection Hs as <-. apply NU_set_cur.
  eapply NU_ains; [exact H|apply single_units; exact Hp|exact Ev0].
Qed.
Lemma NU_Previous a a' : NU a -> aPrevious C a = Some a' -> NU a'.
Proof.
  intros H Hs. unfold aPrevious in Hs. destruct (_ <=? 0); [injection Hs as <-; exact H|].
  destruct (_ <=? 0); [destruct (negb _); [injection Hs as <-; exact H|]|]; opt Hs;
  (eapply NU_show; [|exact Hs]; apply NU_set_hptr; eapply NU_save; [|exact Ev]; exact H).
Qed.
Lemma NU_Next a a' : NU a -> aNext C a = Some a' -> NU a'.
Proof.
  intros H Hs. unfold aNext in Hs. destruct (_ <=? 0); [injection Hs as <-; exact H|].
  destruct (_ <? _); [injection Hs as <-; exact H|]. opt Hs.
  eapply NU_show; [|exact Hs]. apply NU_set_hptr. eapply NU_save; [|exact Ev]. exact H.
Qed.
Lemma Forall_aswap l i j l' : Forall um l -> aswap l i j = Some l' -> Forall um l'.
Proof.
  intros H Hs. unfold aswap in Hs. opt Hs.
  pose proof (Forall_index _ _ _ _ Ev H). pose proof (Forall_index _ _ _ _ Ev0 H).
  destruct (Forall_set_index _ _ _ _ _ Ev1 H) as [G _]; [assumption|].
  now destruct (Forall_set_index _ _ _ _ _ Hs G).
Qed.

Lemma NU_exec b c a a' r : NU a -> (forall k, c = CSelfInsert k -> single k) -> aexec C b c a = Some (a', r) -> NU a'.
Proof.
  intros H Hk He.
  assert (G : forall o, (forall a0, o = Some a0 -> NU a0) -> acontinue o = Some (a', r) -> NU a').
  { intros o Ho Hc. unfold acontinue in Hc. opt Hc. injection Hc as <- _. now apply Ho. }
  destruct c; cbn [aexec] in He.
  - injection He as <- _. exact H.
  - injection He as <- _. destruct H as (H1 & H2 & H3). split; [constructor|]. split; [constructor|exact H3].
  - injection He as <- _. now apply NU_aupdate.
  - injection He as <- _. unfold aBackwardChar. destruct (_ <=? _); [exact H|now apply NU_aupdate].
  - injection He as <- _. exact H.
  - eapply G; [|exact He]. intros a0 Ha. unfold aForwardChar in Ha. destruct (_ <=? _); [|injection Ha as <-; exact H].
    destruct (asuf a) as [|m l] eqn:Hsuf; [injection Ha as <-; exact H|]. eapply NU_areplace; [exact H| |exact Ha].
    apply single_of. rewrite <- Hsuf. apply H.
  - eapply G; [|exact He]. intros a0 Ha. eapply NU_BackwardDelete; eauto.
  - eapply G; [|exact He]. intros a0 Ha. unfold aDelete in Ha. opt Ha. injection Ha as <-. apply NU_aupdate. eapply NU_adelete; eauto.
  - destruct (_ <? _); [|injection He as <- _; exact H]. eapply G; [|exact He]. intros a0 Ha. unfold aDelete in Ha. opt Ha.
    injection Ha as <-. apply NU_aupdate. eapply NU_adelete; eauto.
  - eapply G; [|exact He]. intros a0 Ha. unfold aKillLine in Ha. opt Ha. injection Ha as <-.
    assert (Hp : single (text l)) by (apply single_of; eapply Forall_slice; [exact Ev|apply H]).
    apply NU_set_line; [|eapply Forall_slice; [exact Ev0|apply H]]. apply NU_push; [|exact Hp]. now apply NU_aclip_write.
  - injection He as <- _. now apply NU_KillWhole.
  - eapply G; [|exact He]. intros a0 Ha. unfold aWordRubout in Ha. opt Ha. injection Ha as <-.
    apply NU_aupdate, NU_set_cur. eapply NU_adelete; [|exact Ev2]. apply NU_aclip_write; [exact H|].
    apply single_of. eapply Forall_slice; [exact Ev1|apply H].
  - eapply G; [|exact He]. intros a0 Ha. unfold aLineDiscard in Ha. opt Ha. injection Ha as <-.
    apply NU_aupdate, NU_set_cur. eapply NU_adelete; [|exact Ev0]. apply NU_aclip_write; [exact H|].
    apply single_of. eapply Forall_slice; [exact Ev|apply H].
  - injection He as <- _. now apply NU_aupdate.
  - injection He as <- _. now apply NU_aupdate.
  - injection He as <- _. exact H.
  - eapply G; [|exact He]. intros a0 Ha. unfold aYank in Ha. destruct (aclip a) as [t|] eqn:Hcl; [|injection Ha as <-; exact H].
    eapply NU_areplace; [exact H| |exact Ha]. apply all_trim_right. now apply H.
  - eapply G; [|exact He]. intros a0 Ha. unfold aYank in Ha. destruct (aclip a) as [t|] eqn:Hcl; [|injection Ha as <-; exact H].
    eapply NU_areplace; [exact H| |exact Ha]. apply all_yank_quote; [exact HV34|]. now apply H.
  - eapply G; [|exact He]. intros a0 Ha. unfold aSwapChar in Ha.
    destruct (_ =? _); (destruct (_ <? _); [injection Ha as <-; exact H|]); opt Ha; injection Ha as <-;
      try apply NU_set_cur; (apply NU_set_line; [|eapply Forall_aswap; [|exact Ev0]; apply H]);
      (apply NU_push; [exact H|]); cbn; (apply single_of; eapply Forall_slice; [exact Ev|apply H]).
  - eapply G; [|exact He]. intros a0 Ha. unfold aBackwardWord in Ha. opt Ha. injection Ha as <-. now apply NU_aupdate.
  - eapply G; [|exact He]. intros a0 Ha. unfold aForwardWord in Ha. opt Ha. injection Ha as <-. destruct b; [now apply NU_aupdate|exact H].
  - eapply G; [|exact He]. intros a0 Ha. unfold aUndo in Ha. destruct (aundo a) as [|u st] eqn:Hu; [injection Ha as <-; exact H|].
    opt Ha. injection Ha as <-. apply NU_aupdate.
    assert (H0 : Forall um l).
    { destruct (0 <? u_del u) eqn:Hd; [eapply Forall_sliceDelete; [|exact Ev|apply H]; lia|injection Ev as <-; apply H]. }
    pose proof H as (H1 & H2 & H3). rewrite Hu in H2. apply Forall_cons_iff in H2 as [Hp H2].
    assert (H5 : NU (aset_line (aset_undo a st) l)).
    { apply NU_set_line; [|exact H0]. split; [exact H1|]. split; [exact H2|exact H3]. }
    destruct (u_text u) as [|x t] eqn:Ht; [injection Ev0 as <-; exact H5|].
    opt Ev0. injection Ev0 as <-. apply NU_set_cur, NU_set_line; [exact H5|].
    eapply Forall_sliceInsert; [exact Ev1|exact H0|]. now apply single_units.
  - eapply G; [|exact He]. intros a0 Ha. eapply NU_Previous; eauto.
  - eapply G; [|exact He]. intros a0 Ha. eapply NU_Next; eauto.
  - injection He as <- _. exact H.
  - eapply G; [|exact He]. intros a0 Ha. eapply NU_self; [exact H|now apply Hk|exact Ha].
  - discriminate.
Qed.

End WithSess.
