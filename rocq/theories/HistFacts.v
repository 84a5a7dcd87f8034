(** History browsing, incremental search and prediction. *)
From Verif Require Import Base Utf8 Moji Color Prompt Buffer Commands KeyMap Session SpecScript MojiFacts
  Abs AbsRef AbsSess AbsSafe AbsInv Safe SafeSess Plain Spec TextFacts Reach SafetyFacts CmdFacts WordFacts EditFacts EditProps LineInv EditMore SessFacts.

Section WithCfg.
Variable C : cfg.
Notation E := (cE C).
Notation N := (zlen (hist C)).

Definition ashown (a : astate) (i : Z) : str :=
  match aget Z.eqb (amodh a) i with Some t => t | None => nth (Z.to_nat i) (hist C) [] end.

Lemma index_nth l i (x : str) : index l i = Some x -> nth (Z.to_nat i) l [] = x.
Proof. unfold index. destruct (0 <=? i); [|discriminate]. apply nth_error_nth. Qed.
Lemma index_some (l : list str) i : 0 <= i < zlen l -> index l i = Some (nth (Z.to_nat i) l []).
Proof.
  intros H. unfold index. replace (0 <=? i) with true by lia. apply nth_error_nth'. unfold zlen in H. lia.
Qed.
Lemma agetHistory_eq a t : 0 <= ahptr a -> agetHistory C a = Some t -> t = ashown a (ahptr a).
Proof.
  intros H0 H. unfold agetHistory in H. unfold ashown. destruct (aget Z.eqb (amodh a) (ahptr a)); [now injection H|].
  destruct (Z.ltb_spec (ahptr a) 0); [lia|]. cbn [orb] in H. destruct (Z.leb_spec N (ahptr a)).
  - injection H as <-. symmetry. apply nth_overflow. unfold zlen in *. lia.
  - now rewrite (index_nth _ _ _ H).
Qed.
Lemma ashow_eq a a' : 0 <= ahptr a -> ashow C a = Some a' ->
  aline a' = units E (ashown a (ahptr a)) /\ acur a' = zlen (aline a') /\ ahptr a' = ahptr a /\ amodh a' = amodh a /\
  aclip a' = aclip a /\ apend a' = apend a.
Proof.
  intros H0 H. unfold ashow in H. opt H. apply agetHistory_eq in Ev; [|exact H0].
  change (ashown (aKillWhole a) (ahptr (aKillWhole a))) with (ashown a (ahptr a)) in Ev. rewrite <- Ev.
  destruct s as [|b t].
  - injection H as <-. repeat split.
  - set (t' := b :: t) in *. opt H. injection H as <-. unfold ains in Ev0. opt Ev0. injection Ev0 as <-.
    cbn [aline aset_line aKillWhole aset_cur apush aset_undo] in Ev1.
    pose proof (sliceInsert_spec [] [] (units E t')) as G. cbn [app zlen] in G. change (zlen (@nil moji)) with 0 in G. rewrite app_nil_r in G.
    rewrite G in Ev1. injection Ev1 as <-. repeat split.
Qed.
Lemma asave_eq a a' : asave C a = Some a' ->
  aline a' = aline a /\ acur a' = acur a /\ ahptr a' = ahptr a /\ aclip a' = aclip a /\ apend a' = apend a /\
  (forall i, i <> ahptr a -> aget Z.eqb (amodh a') i = aget Z.eqb (amodh a) i) /\
  ((aget Z.eqb (amodh a) (ahptr a) = None \/ N <= ahptr a \/ nth (Z.to_nat (ahptr a)) (hist C) [] <> atext a) ->
   ashown a' (ahptr a) = atext a).
Proof.
  intros H. unfold asave in H.
  assert (S : forall a', Some (aset_modh a (aset Z.eqb (amodh a) (ahptr a) (atext a))) = Some a' ->
    aline a' = aline a /\ acur a' = acur a /\ ahptr a' = ahptr a /\ aclip a' = aclip a /\ apend a' = apend a /\
  (forall i, i <> ahptr a -> aget Z.eqb (amodh a') i = aget Z.eqb (amodh a) i) /\ ashown a' (ahptr a) = atext a).
  { intros a1 H1. injection H1 as <-. repeat split.
    - intros i Hi. cbn [amodh aset_modh]. apply aget_aset_other; [apply Z.eqb_eq|congruence].
    - unfold ashown. cbn [amodh aset_modh]. rewrite aget_aset_same; [reflexivity|apply Z.eqb_eq]. }
  destruct (Z.ltb_spec (ahptr a) N) as [Hlt|Hge].
  - opt H. apply index_nth in Ev. destruct (str_eqb s (atext a)) eqn:He.
    + injection H as <-. apply str_eqb_eq in He. repeat split. intros [Hn|[Hn|Hn]]; [|lia|].
      * unfold ashown. rewrite Hn. congruence.
      * congruence.
    + apply S in H. intuition.
  - apply S in H. intuition.
Qed.

Lemma previous_eq a a' : 0 < ahptr a -> aPrevious C a = Some a' -> 0 < N ->
  exists a1, asave C a = Some a1 /\ ashow C (aset_hptr a1 (ahptr a - 1)) = Some a'.
Proof.
  intros H0 H HN. unfold aPrevious in H. replace (N <=? 0) with false in H by lia.
  replace (ahptr a <=? 0) with false in H by lia. opt H. eexists. split; [reflexivity|].
  now apply (asave_hptr (mkScfg C [] [])) in Ev as <-.
Qed.
Lemma next_eq a a' : ahptr a < N -> aNext C a = Some a' -> 0 < N ->
  exists a1, asave C a = Some a1 /\ ashow C (aset_hptr a1 (ahptr a + 1)) = Some a'.
Proof.
  intros H0 H HN. unfold aNext in H. replace (N <=? 0) with false in H by lia.
  replace (N <? ahptr a + 1) with false in H by lia. opt H. eexists. split; [reflexivity|].
  now apply (asave_hptr (mkScfg C [] [])) in Ev as <-.
Qed.

Notation moved := (browsed C).
Lemma moved_of s s' a1 j : 0 <= j -> j <> hptr s -> asave C (abs s) = Some a1 -> ashow C (aset_hptr a1 j) = Some (abs s') -> moved s s' j.
Proof.
  intros Hj Hne Hs Hw. apply asave_eq in Hs as (S1 & S2 & S3 & S4 & S5 & S6 & S7).
  apply ashow_eq in Hw as (W1 & W2 & W3 & W4 & W5 & W6); [|exact Hj].
  cbn [ahptr aset_hptr amodh aclip apend abs aline acur] in *.
  assert (Hsh : ashown (aset_hptr a1 j) j = shown (hist C) s j).
  { unfold ashown, shown. cbn [amodh aset_hptr]. now rewrite S6. }
  rewrite Hsh, <- (split_units C) in W1.
  constructor.
  - exact W3.
  - split; [rewrite app_nil_r; exact W1|]. rewrite W2, <- W1. reflexivity.
  - congruence.
  - congruence.
  - intros i Hi. unfold shown. now rewrite W4, S6.
  - intros Hg. unfold shown. rewrite W4. apply S7 in Hg. exact Hg.
Qed.
Lemma previous_history s s' r : exec C CPreviousHistory s = Some (s', r) -> 0 < hptr s -> 0 < N ->
  moved s s' (hptr s - 1).
Proof.
  intros H H0 HN. apply exec_ref in H as [b H]; [|exact I]. cbn [aexec] in H. unfold acontinue in H. opt H. apply some_pair in H as [<- _].
  apply previous_eq in Ev as (a1 & Hs & Hw); [|exact H0|exact HN]. cbn [abs ahptr] in Hw. eapply moved_of; [| |exact Hs|exact Hw]; lia.
Qed.
Lemma next_history s s' r : exec C CNextHistory s = Some (s', r) -> 0 <= hptr s < N -> moved s s' (hptr s + 1).
Proof.
  intros H H0. apply exec_ref in H as [b H]; [|exact I]. cbn [aexec] in H. unfold acontinue in H. opt H. apply some_pair in H as [<- _].
  apply next_eq in Ev as (a1 & Hs & Hw); [|cbn; lia|lia]. cbn [abs ahptr] in Hw. eapply moved_of; [| |exact Hs|exact Hw]; lia.
Qed.
Lemma previous_stop s s' r : exec C CPreviousHistory s = Some (s', r) -> N = 0 \/ (hptr s <= 0 /\ cycling C = false) -> s' = s.
Proof.
  intros H H0. cbn [exec] in H. unfold continue_, cmdPreviousHistory in H. destruct H0 as [HN|[H0 Hc]].
  - rewrite HN in H. cbn in H. now injection H.
  - destruct (N <=? 0); [now injection H|]. replace (hptr s <=? 0) with true in H by lia. rewrite Hc in H. now injection H.
Qed.
Lemma next_stop s s' r : exec C CNextHistory s = Some (s', r) -> N <= hptr s \/ N = 0 -> s' = s.
Proof.
  intros H H0. cbn [exec] in H. unfold continue_, cmdNextHistory in H. destruct (Z.leb_spec N 0); [now injection H|].
  replace (N <? hptr s + 1) with true in H by lia. now injection H.
Qed.
(** Wrapping round: the position after the newest entry. *)
Lemma previous_wrap s s' r : exec C CPreviousHistory s = Some (s', r) -> hptr s = 0 -> cycling C = true -> 0 < N ->
  hptr s' = N /\ at_split s' (split E (shown (hist C) s N)) [] /\ clip s' = clip s /\ pending s' = pending s /\
  (forall i, 0 <= i <= N -> shown (hist C) s' i = shown (hist C) s i).
Proof.
  intros H H0 Hc HN. apply exec_ref in H as [b H]; [|exact I]. cbn [aexec] in H. unfold acontinue in H. opt H. apply some_pair in H as [<- _].
  unfold aPrevious in Ev. replace (N <=? 0) with false in Ev by lia. cbn [ahptr abs] in Ev. rewrite H0, Hc in Ev. cbn [Z.leb negb] in Ev.
  destruct (asave C (aset_hptr (abs s) (N + 1))) as [a0|] eqn:Hsv; [|discriminate]. apply asave_eq in Hsv as (S1 & S2 & S3 & S4 & S5 & S6 & _). cbn [ahptr aset_hptr amodh aclip apend abs aline acur] in *.
  rewrite S3 in Ev. replace (N + 1 - 1) with N in Ev by lia. apply ashow_eq in Ev as (W1 & W2 & W3 & W4 & W5 & W6); [|cbn; lia].
  cbn [ahptr aset_hptr amodh aclip apend abs aline acur] in *.
  assert (Hsh : ashown (aset_hptr a0 N) N = shown (hist C) s N).
  { unfold ashown, shown. cbn [amodh aset_hptr]. rewrite S6; [reflexivity|lia]. }
  rewrite Hsh, <- (split_units C) in W1. split; [exact W3|].
  split; [split; [rewrite app_nil_r; exact W1|]; rewrite W2, <- W1; reflexivity|]. split; [congruence|]. split; [congruence|].
  intros i Hi. unfold shown. rewrite W4, S6; [reflexivity|lia].
Qed.

(** Only browsing touches the position and the remembered edits. *)
Definition akept (a a' : astate) : Prop := ahptr a' = ahptr a /\ amodh a' = amodh a.
Lemma akept_refl a : akept a a. Proof. split; reflexivity. Qed.
Lemma akept_trans a b c : akept a b -> akept b c -> akept a c.
Proof. intros [A1 A2] [B1 B2]. split; congruence. Qed.
Lemma akept_update a : akept a (aupdate C a).
Proof. split; [apply EditFacts.aupdate_hptr|apply aupdate_modh]. Qed.
Lemma akept_clip a t : akept a (aclip_write a t).
Proof. split; [apply aclip_write_hptr|apply aclip_write_modh]. Qed.
Lemma akept_join a : akept a (ajoin a).
Proof. split; [apply EditFacts.ajoin_hptr|apply ajoin_modh]. Qed.
Lemma akept_ins a p l a' : ains a p l = Some a' -> akept a a'.
Proof. unfold ains. intros H. opt H. injection H as <-. split; reflexivity. Qed.
Lemma akept_del a p n a' : adelete a p n = Some a' -> akept a a'.
Proof. unfold adelete. intros H. destruct (_ || _); [injection H as <-; apply akept_refl|]. opt H. injection H as <-. split; reflexivity. Qed.
Lemma akept_replace a p t a' : areplace C a p t = Some a' -> akept a a'.
Proof.
  unfold areplace. intros H. opt H. injection H as <-. eapply akept_trans; [eapply akept_del; eassumption|].
  eapply akept_trans; [eapply akept_ins; eassumption|]. eapply akept_trans; [|apply akept_update]. eapply akept_trans; [|apply akept_join]. split; reflexivity.
Qed.
Lemma akept_backdel a a' : aBackwardDelete C a = Some a' -> akept a a'.
Proof.
  unfold aBackwardDelete. destruct (0 <? acur a); intros H; [|injection H as <-; apply akept_refl]. opt H. injection H as <-.
  eapply akept_trans; [|apply akept_update]. apply akept_del in Ev. exact Ev.
Qed.
Lemma akept_tail a k a' : aself_tail C a k = Some a' -> akept a a'.
Proof.
  unfold aself_tail. intros H. opt H. injection H as <-. eapply akept_trans; [|apply akept_update]. apply akept_ins in Ev. exact Ev.
Qed.
Lemma akept_self k a a' : aselfInsert C k a = Some a' -> akept a a'.
Proof.
  unfold aselfInsert. destruct (AreZeroWidthJoin E (altgr k) && (0 <? acur a)).
  { intros H. opt H. apply akept_backdel in H. exact H. }
  destruct ((AreVariationSelectorLike E (altgr k) || AreEmojiModifier E (altgr k)) && (0 <? acur a)).
  { intros H. opt H. apply akept_tail in H. eapply akept_trans; [|exact H]. now apply akept_backdel. }
  destruct (apend a); intros H; apply akept_tail in H; exact H.
Qed.
Lemma akept_delete a a' : aDelete C a = Some a' -> akept a a'.
Proof. unfold aDelete. intros H. opt H. injection H as <-. eapply akept_trans; [|apply akept_update]. now apply akept_del in Ev. Qed.

Lemma akept_exec b c a a' r : c <> CPreviousHistory -> c <> CNextHistory -> aexec C b c a = Some (a', r) -> akept a a'.
Proof.
  intros HP HN H.
  assert (G : forall o, (forall x, o = Some x -> akept a x) -> acontinue o = Some (a', r) -> akept a a').
  { intros [x|] Hx Hc; cbn in Hc; [|discriminate]. injection Hc as <- _. now apply Hx. }
  destruct c; cbn [aexec] in H; try discriminate; try contradiction;
    try (injection H as <- _; first [split; reflexivity | exact (akept_update _)]).
  - injection H as <- _. unfold aBackwardChar. destruct (acur a <=? 0); [apply akept_refl|]. exact (akept_update (aset_cur a _)).
  - revert H; apply G; clear G; intros x H. unfold aForwardChar in H. destruct (zlen (aline a) <=? acur a); [|injection H as <-; split; reflexivity].
    destruct (asuf a); [injection H as <-; apply akept_refl|]. now apply akept_replace in H.
  - revert H; apply G; clear G; intros x H. now apply akept_backdel.
  - revert H; apply G; clear G; intros x H. now apply akept_delete.
  - destruct (0 <? zlen (aline a)); [|injection H as <- _; apply akept_refl]. revert H. apply G. exact (akept_delete a).
  - revert H; apply G; clear G; intros x H. unfold aKillLine in H. opt H. injection H as <-. exact (akept_clip _ _).
  - revert H; apply G; clear G; intros x H. unfold aWordRubout in H. opt H. injection H as <-. eapply akept_trans; [|apply akept_update].
    apply akept_del in Ev2. eapply akept_trans; [|exact Ev2]. exact (akept_clip _ _).
  - revert H; apply G; clear G; intros x H. unfold aLineDiscard in H. opt H. injection H as <-. eapply akept_trans; [|apply akept_update].
    apply akept_del in Ev0. eapply akept_trans; [|exact Ev0]. exact (akept_clip _ _).
  - revert H; apply G; clear G; intros x H. unfold aYank in H. destruct (aclip a); [|injection H as <-; apply akept_refl]. now apply akept_replace in H.
  - revert H; apply G; clear G; intros x H. unfold aYank in H. destruct (aclip a); [|injection H as <-; apply akept_refl]. now apply akept_replace in H.
  - revert H; apply G; clear G; intros x H. unfold aSwapChar in H. destruct (_ =? _); destruct (_ <? _); try (injection H as <-; apply akept_refl); opt H; injection H as <-; split; reflexivity.
  - revert H; apply G; clear G; intros x H. unfold aBackwardWord in H. opt H. injection H as <-. exact (akept_update (aset_cur a _)).
  - revert H; apply G; clear G; intros x H. unfold aForwardWord in H. opt H. injection H as <-. destruct b; [exact (akept_update (aset_cur a _))|split; reflexivity].
  - revert H; apply G; clear G; intros x H. unfold aUndo in H. destruct (aundo a); [injection H as <-; apply akept_refl|]. opt H. injection H as <-.
    eapply akept_trans; [|apply akept_update].
    destruct (u_text u); [injection Ev0 as <-; split; reflexivity|]. opt Ev0. injection Ev0 as <-. split; reflexivity.
  - revert H; apply G; clear G; intros x H. now apply akept_self in H.
Qed.
End WithCfg.

Section WithSess.
Variable S : scfg.
Notation C := (base S).
Notation E := (cE C).
Notation N := (zlen (hist C)).

Lemma kept_exec c s s' r : builtin c -> c <> CPreviousHistory -> c <> CNextHistory -> exec C c s = Some (s', r) -> history_untouched s s'.
Proof.
  intros HB HP HN H. apply exec_ref in H as [b H]; [|exact HB]. apply akept_exec in H as [H1 H2]; [|exact HP|exact HN].
  split; assumption.
Qed.

(** One event: nothing changes, or it was a browsing key. *)
Lemma step_history e m s m' s' : only_builtin S -> step S e (Running m s) = Some (Running m' s') ->
  history_untouched s s' \/
  (exists k c r s1, e = EKey k /\ m = MNormal /\ (c = CPreviousHistory \/ c = CNextHistory) /\ bound S k c /\
     exec C c (emit s [TCursorOff]) = Some (s1, r) /\ s' = emit (emit s1 [TCursorOn]) [TFlush] /\ m' = MNormal).
Proof.
  intros HB H. pose proof (only_builtin_keys S HB) as HK. destruct e as [k| |w|c]; cbn [step] in H.
  - destruct m as [| |ss].
    + unfold key_normal in H. specialize (HK k).
      assert (G : forall c, LookupCommand (kmap S) (gmap S) k = c -> c <> CPreviousHistory -> c <> CNextHistory ->
                 after_command S (exec C c (emit s [TCursorOff])) = Some (Running m' s') -> history_untouched s s').
      { intros c Hc H1 H2 Ha. destruct (exec C c (emit s [TCursorOff])) as [[s1 r]|] eqn:He; [|discriminate].
        rewrite Hc in HK. pose proof (kept_exec c _ _ _ HK H1 H2 He) as G.
        apply (exec_result S) in He as [->|[(_ & -> & _)|[(_ & -> & _)|(_ & -> & _)]]]; [|apply finish_state in Ha as [? Ha]; discriminate|apply finish_state in Ha as [? Ha]; discriminate|apply finish_state in Ha as [? Ha]; discriminate|exact HK].
        apply after_continue in Ha. injection Ha as _ ->. exact G. }
      destruct (LookupCommand (kmap S) (gmap S) k) as [] eqn:Hc;
        try (left; eapply G; [reflexivity|discriminate|discriminate|exact H]);
        try (left; unfold search_wait in H; opt H; injection H as _ <-; split; reflexivity);
        try (left; injection H as _ <-; split; reflexivity).
      * right. destruct (exec C CPreviousHistory (emit s [TCursorOff])) as [[s1 r]|] eqn:He; [|discriminate].
        pose proof He as He'. apply (exec_result S) in He as [->|[(E0 & _)|[(E0 & _)|(E0 & _)]]]; try discriminate E0; [|exact I].
        apply after_continue in H. injection H as -> ->. exists k, CPreviousHistory, CONTINUE, s1. auto 10.
      * right. destruct (exec C CNextHistory (emit s [TCursorOff])) as [[s1 r]|] eqn:He; [|discriminate].
        pose proof He as He'. apply (exec_result S) in He as [->|[(E0 & _)|[(E0 & _)|(E0 & _)]]]; try discriminate E0; [|exact I].
        apply after_continue in H. injection H as -> ->. exists k, CNextHistory, CONTINUE, s1. auto 10.
    + left. unfold key_quoted in H. destruct (selfInsert C k s) as [s1|] eqn:He; [|discriminate]. apply after_continue in H. injection H as _ ->.
      assert (He' : exec C (CSelfInsert k) s = Some (s1, CONTINUE)) by (cbn; now rewrite He).
      apply kept_exec in He'; try discriminate; [exact He'|exact I].
    + left. unfold key_search in H. opt H. destruct s0; [unfold search_wait in H; opt H; injection H as _ <-; split; reflexivity| |].
      * match type of H with after_command _ (continue_ ?o) = _ => destruct o as [s1|] eqn:Ho; [|discriminate] end. apply after_continue in H.
        injection H as _ ->. apply search_accept_ref in Ho. unfold aaccept in Ho. apply akept_replace in Ho. destruct Ho as [H1 H2]. split; assumption.
      * match type of H with after_command _ (continue_ ?o) = _ => destruct o as [s1|] eqn:Ho; [|discriminate] end. apply after_continue in H.
        injection H as _ ->. apply search_cancel_ref, same_abs in Ho as ((_ & _ & _ & H1 & H2 & _) & _). split; assumption.
  - left. destruct m.
    + discriminate.
    + apply after_continue in H. injection H as _ ->. split; reflexivity.
    + apply after_continue in H. injection H as _ ->. split; reflexivity.
  - left. destruct m; try (injection H as _ <-; split; reflexivity). opt H. injection H as _ <-.
    apply on_resize_ref in Ev. apply abs_fields in Ev as F. destruct F as [_ _ _ _ F5 F6 _].
    rewrite aupdate_modh in F5. rewrite EditFacts.aupdate_hptr in F6. split; assumption.
  - left. injection H as _ <-. split; reflexivity.
Qed.

(** While the position is elsewhere, what is remembered for [i] does not change. *)
Lemma step_away e m s m' s' i : only_builtin S -> reached S (Running m s) -> 0 <= i <= N -> hptr s <> i ->
  step S e (Running m s) = Some (Running m' s') -> shown (hist C) s' i = shown (hist C) s i.
Proof.
  intros HB HR Hi Hne H. apply step_history in H as [[H1 H2]|(k & c & r & s1 & -> & -> & Hc & _ & He & -> & _)]; [|..|exact HB].
  - unfold shown. now rewrite H2.
  - pose proof (pointer_in_bounds S _ (builtin_scripted S HB) HR) as Hp. cbn [buf_of] in Hp.
    change (shown (hist C) s1 i = shown (hist C) s i).
    destruct Hc as [->| ->].
    + destruct (Z.eq_dec N 0) as [HN|HN].
      { apply previous_stop in He; [|now left]. now rewrite He. }
      destruct (Z.eq_dec (hptr s) 0) as [H0|H0].
      * destruct (cycling C) eqn:Hcy.
        -- apply previous_wrap in He as (_ & _ & _ & _ & He); [|exact H0|exact Hcy|lia]. now apply He.
        -- apply previous_stop in He; [|right; split; [cbn; lia|exact Hcy]]. now rewrite He.
      * apply previous_history in He; [|cbn; lia|lia]. apply (mv_other _ _ _ _ He). cbn. congruence.
    + destruct (Z_le_gt_dec N (hptr s)) as [H0|H0].
      { apply next_stop in He; [|now left]. now rewrite He. }
      apply next_history in He; [|cbn; lia]. apply (mv_other _ _ _ _ He). cbn. congruence.
Qed.
(** Arriving at a position shows what is remembered for it. *)
Lemma step_arrive e m s m' s' : only_builtin S -> reached S (Running m s) -> hptr s' <> hptr s ->
  step S e (Running m s) = Some (Running m' s') -> at_split s' (split E (shown (hist C) s (hptr s'))) [].
Proof.
  intros HB HR Hne H. apply step_history in H as [[H1 H2]|(k & c & r & s1 & -> & -> & Hc & _ & He & -> & _)]; [congruence| |exact HB].
  pose proof (pointer_in_bounds S _ (builtin_scripted S HB) HR) as Hp. cbn [buf_of] in Hp. cbn [hptr emit] in *.
  apply at_split_emit, at_split_emit. change (shown (hist C) s (hptr s1)) with (shown (hist C) (emit s [TCursorOff]) (hptr s1)).
  destruct Hc as [->| ->].
  + destruct (Z.eq_dec N 0) as [HN|HN].
    { apply previous_stop in He; [|now left]. subst s1. now contradiction Hne. }
    destruct (Z.eq_dec (hptr s) 0) as [H0|H0].
    * destruct (cycling C) eqn:Hcy.
      -- apply previous_wrap in He as (H1 & He & _); [|exact H0|exact Hcy|lia]. now rewrite H1.
      -- apply previous_stop in He; [|right; split; [cbn; lia|exact Hcy]]. subst s1. now contradiction Hne.
    * apply previous_history in He; [|cbn; lia|lia]. rewrite (mv_at _ _ _ _ He). apply (mv_line _ _ _ _ He).
  + destruct (Z_le_gt_dec N (hptr s)) as [H0|H0].
    { apply next_stop in He; [|now left]. subst s1. now contradiction Hne. }
    apply next_history in He; [|cbn; lia]. rewrite (mv_at _ _ _ _ He). apply (mv_line _ _ _ _ He).
Qed.
(** Leaving a position remembers the line, unless browsing wraps round at the oldest entry. *)
Lemma step_leave e m s m' s' : only_builtin S -> reached S (Running m s) -> hptr s' <> hptr s ->
  step S e (Running m s) = Some (Running m' s') -> no_stale_edit (hist C) s -> ~ (hptr s = 0 /\ cycling C = true /\ exists k, e = EKey k /\ bound S k CPreviousHistory) ->
  shown (hist C) s' (hptr s) = written (line s).
Proof.
  intros HB HR Hne H Hst Hcy0. apply step_history in H as [[H1 H2]|(k & c & r & s1 & -> & -> & Hc & Hb & He & -> & _)]; [congruence| |exact HB].
  pose proof (pointer_in_bounds S _ (builtin_scripted S HB) HR) as Hp. cbn [buf_of] in Hp. cbn [hptr emit] in *.
  change (shown (hist C) s1 (hptr s) = written (line s)).
  destruct Hc as [->| ->].
  + destruct (Z.eq_dec N 0) as [HN|HN].
    { apply previous_stop in He; [|now left]. subst s1. now contradiction Hne. }
    destruct (Z.eq_dec (hptr s) 0) as [H0|H0].
    * destruct (cycling C) eqn:Hcy; [exfalso; apply Hcy0; split; [exact H0|]; split; [reflexivity|]; exists k; auto|].
      apply previous_stop in He; [|right; split; [cbn; lia|exact Hcy]]. subst s1. now contradiction Hne.
    * apply previous_history in He; [|cbn; lia|lia]. apply (mv_saved _ _ _ _ He). exact Hst.
  + destruct (Z_le_gt_dec N (hptr s)) as [H0|H0].
    { apply next_stop in He; [|now left]. subst s1. now contradiction Hne. }
    apply next_history in He; [|cbn; lia]. apply (mv_saved _ _ _ _ He). exact Hst.
Qed.

Lemma run_app es1 : forall es2 x, run S (es1 ++ es2) x = (let* y := run S es1 x in run S es2 y).
Proof. induction es1 as [|e es1 IH]; intros es2 x; cbn [app run]; [reflexivity|]. destruct (step S e x); [apply IH|reflexivity]. Qed.
Lemma run_finished es s t err : run S es (Finished s t err) = Some (Finished s t err).
Proof. induction es as [|e es IH]; [reflexivity|]. cbn [run step]. destruct e; exact IH. Qed.
Lemma reached_step e x x' : reached S x -> step S e x = Some x' -> reached S x'.
Proof.
  intros (d & cur & w & cl & es & H) Hs. exists d, cur, w, cl, (es ++ [e]).
  unfold readline in *. destruct (start S d cur w cl) as [y|]; [|discriminate]. rewrite run_app, H. cbn [run]. now rewrite Hs.
Qed.
(** Going away and coming back. *)
Lemma away_run es : forall m s m' s' i, only_builtin S -> reached S (Running m s) -> 0 <= i <= N ->
  (forall es1 es2 m1 s1, es = es1 ++ es2 -> es2 <> [] -> run S es1 (Running m s) = Some (Running m1 s1) -> hptr s1 <> i) ->
  run S es (Running m s) = Some (Running m' s') -> shown (hist C) s' i = shown (hist C) s i /\ reached S (Running m' s').
Proof.
  induction es as [|e es IH]; intros m s m' s' i HB HR Hi Haw H; cbn [run] in H.
  - injection H as <- <-. auto.
  - opt H. destruct s0 as [m1 s1|s1 t err]; [|rewrite run_finished in H; discriminate].
    assert (H0 : hptr s <> i) by (apply (Haw [] (e :: es) m s); [reflexivity|discriminate|reflexivity]).
    assert (HR1 : reached S (Running m1 s1)) by (eapply reached_step; eauto).
    apply IH with (i := i) in H as [H HR']; [|exact HB|exact HR1|exact Hi|].
    + split; [|exact HR']. rewrite H. eapply step_away; eauto.
    + intros es1 es2 m2 s2 He Hne Hr. apply (Haw (e :: es1) es2 m2 s2); [now rewrite He|exact Hne|]. cbn [run]. now rewrite Ev.
Qed.
Lemma come_back e m s m1 s1 es m2 s2 e' m3 s3 : only_builtin S -> reached S (Running m s) ->
  no_stale_edit (hist C) s -> ~ (hptr s = 0 /\ cycling C = true /\ exists k, e = EKey k /\ bound S k CPreviousHistory) ->
  step S e (Running m s) = Some (Running m1 s1) -> hptr s1 <> hptr s ->
  (forall es1 es2 m0 s0, es = es1 ++ es2 -> run S es1 (Running m1 s1) = Some (Running m0 s0) -> hptr s0 <> hptr s) ->
  run S es (Running m1 s1) = Some (Running m2 s2) ->
  step S e' (Running m2 s2) = Some (Running m3 s3) -> hptr s3 = hptr s ->
  at_split s3 (split E (written (line s))) [].
Proof.
  intros HB HR Hst Hcy H1 Hne Haw H2 H3 Hb.
  pose proof (pointer_in_bounds S _ (builtin_scripted S HB) HR) as Hp. cbn [buf_of] in Hp.
  assert (HR1 : reached S (Running m1 s1)) by (eapply reached_step; eauto).
  pose proof (step_leave _ _ _ _ _ HB HR Hne H1 Hst Hcy) as Hl.
  destruct (away_run es m1 s1 m2 s2 (hptr s) HB HR1 Hp) as [Ha HR2]; [|exact H2|].
  { intros es1 es2 m0 s0 He _ Hr. eapply Haw; eauto. }
  assert (Hne2 : hptr s2 <> hptr s) by (apply (Haw es [] m2 s2); [now rewrite app_nil_r|exact H2]).
  pose proof (step_arrive _ _ _ _ _ HB HR2 (fun K => Hne2 (eq_trans (eq_sym K) Hb)) H3) as G.
  now rewrite Hb, Ha, Hl in G.
Qed.
End WithSess.
