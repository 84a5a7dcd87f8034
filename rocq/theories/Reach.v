(** Transport of invariants to the states a ReadLine can reach; the history pointer. *)
From Verif Require Import Base Utf8 Moji Color Prompt Buffer Commands KeyMap Session MojiFacts
  Abs AbsRef AbsSess AbsSafe AbsInv Spec Script SpecScript.

Section WithSess.
Variable S : scfg.
Notation C := (base S).
Notation E := (cE C).

Lemma only_builtin_keys : only_builtin S -> builtin_keys S.
Proof. intros H k. specialize (H k). destruct (LookupCommand (kmap S) (gmap S) k); cbn; try exact I. now apply (H f). Qed.

Lemma reach_inv (I : asess -> Prop) : builtin_keys S ->
  (forall d cur cl, I (ARunning MNormal (astart S d cur cl))) ->
  (forall b e x x', I x -> astep S b e x = Some x' -> I x') ->
  forall x, reached S x -> I (abss x).
Proof.
  intros HB H0 HS x (d & cur & w & cl & es & H). unfold readline in H. opt H.
  eapply run_inv; [exact HB|exact HS| |exact H]. apply start_ref in Ev. rewrite Ev. apply H0.
Qed.

(** The same with user commands made of public calls. *)
Lemma builtin_scripted : only_builtin S -> scripted S.
Proof. intros H k f Hk. destruct (H k f Hk). Qed.
Definition just (k : str) (c : cmd) : scfg := mkScfg C [(k, c)] [].
Lemma just_lookup k c : LookupCommand (kmap (just k c)) (gmap (just k c)) k = c.
Proof. unfold LookupCommand, Lookup. cbn. now rewrite str_eqb_refl. Qed.
Lemma just_step k x : step S (EKey k) x = step (just k (LookupCommand (kmap S) (gmap S) k)) (EKey k) x.
Proof. destruct x as [[| |ss] s|s t r]; try reflexivity. cbn [step]. unfold key_normal. now rewrite just_lookup. Qed.
Lemma just_builtin k c : builtin c -> builtin_keys (just k c).
Proof.
  intros H k'. unfold LookupCommand, Lookup. cbn. destruct (str_eqb k' k); [exact H|exact I].
Qed.

Section Calls.
Variable K : astate -> Prop.
Hypothesis Kins : forall a p t a', K a -> ains a p (units E t) = Some a' -> K a'.
Hypothesis Kdel : forall a p n a', K a -> adelete a p n = Some a' -> K a'.
Hypothesis Krep : forall a p t a', K a -> areplace C a p t = Some a' -> K a'.
Hypothesis Kupd : forall a, K a -> K (aupdate C a).
Hypothesis Kcur : forall s n, K (abs s) -> K (abs (set_cursor s n)).
Hypothesis Kkeep : forall s n l, K (abs s) -> slice (cells s) 0 n = Some l -> K (abs (set_cells s l)).
Hypothesis Kexec : forall b c a a' r, K a -> aexec C b c a = Some (a', r) -> K a'.
Lemma K_call c s s' : K (abs s) -> do_call C c s = Some s' -> K (abs s').
Proof.
  intros H Hc. destruct c as [pos t|pos n|pos t|t| | | | | | |n|n|ts|c]; cbn [do_call] in Hc.
  - opt Hc. injection Hc as <-. apply InsertString_ref in Ev. eapply Kins; [exact H|exact (proj1 Ev)].
  - opt Hc. injection Hc as <-. apply Delete_ref in Ev. eapply Kdel; [exact H|exact Ev].
  - apply ReplaceAndRepaint_ref in Hc. eapply Krep; [exact H|exact Hc].
  - apply ReplaceAndRepaint_ref in Hc. eapply Krep; [exact H|exact Hc].
  - apply repaint_ref in Hc. rewrite Hc. now apply Kupd.
  - apply repaint_ref in Hc. rewrite Hc. now apply Kupd.
  - apply RepaintAll_ref in Hc. rewrite Hc. now apply Kupd.
  - apply repaint_ref in Hc. rewrite Hc. now apply Kupd.
  - injection Hc as <-. exact H.
  - injection Hc as <-. exact H.
  - injection Hc as <-. now apply Kcur.
  - opt Hc. injection Hc as <-. eapply Kkeep; eauto.
  - injection Hc as <-. exact H.
  - destruct c; try discriminate; opt Hc; injection Hc as <-; apply exec_ref in Ev as [b0 Ev]; try exact I; (eapply Kexec; [exact H|exact Ev]).
Qed.
End Calls.
Section Script.
Variable K : astate -> Prop.
Hypothesis Kcall : forall c s s', K (abs s) -> do_call C c s = Some s' -> K (abs s').
Lemma K_script p : forall s s' r, K (abs s) -> run_script C p s = Some (s', r) -> K (abs s').
Proof.
  induction p as [r0| |k IH|c p IH]; intros s s' r H Hr; cbn [run_script] in Hr.
  - now injection Hr as <- _.
  - discriminate.
  - eapply IH; eauto.
  - opt Hr. eapply IH; [|exact Hr]. eapply Kcall; eauto.
Qed.
Variable J : asess -> Prop.
Hypothesis JK : forall a, J (ARunning MNormal a) <-> K a.
Hypothesis Jafter : forall a r x, K a -> aafter (Some (a, r)) = Some x -> J x.
Hypothesis Jstep : forall km gm b e x x', J x -> astep (mkScfg C km gm) b e x = Some x' -> J x'.
Lemma J_builtin T e x x' : base T = C -> builtin_keys T -> J (abss x) -> step T e x = Some x' -> J (abss x').
Proof.
  destruct T as [C0 km gm]. cbn [base]. intros -> HB H Hs. apply step_ref in Hs as [b Hs]; [|exact HB]. eapply Jstep; [exact H|exact Hs].
Qed.
Lemma J_step e x x' : scripted S -> J (abss x) -> step S e x = Some x' -> J (abss x').
Proof.
  intros HS H Hs. destruct e as [k| |w|c]; try (match type of Hs with step S ?e _ = _ => apply (J_builtin (mkScfg C [] []) e x x' eq_refl (fun k => I) H) end; rewrite <- Hs; destruct x as [[| |ss] s|s t r]; reflexivity).
  destruct (LookupCommand (kmap S) (gmap S) k) eqn:Hc;
    try (rewrite just_step, Hc in Hs; eapply J_builtin; [| |exact H|exact Hs]; [reflexivity|apply just_builtin; exact I]).
  destruct x as [[| |ss] s|s t r];
    [|exact (J_builtin (mkScfg C [] []) (EKey k) (Running MQuoted s) x' eq_refl (fun k => I) H Hs)
     |exact (J_builtin (mkScfg C [] []) (EKey k) (Running (MSearch ss) s) x' eq_refl (fun k => I) H Hs)
     |exact (J_builtin (mkScfg C [] []) (EKey k) (Finished s t r) x' eq_refl (fun k => I) H Hs)].
  cbn [step] in Hs. unfold key_normal in Hs. rewrite Hc in Hs. cbn [exec] in Hs. destruct (HS k f Hc) as [p Hp]. rewrite Hp in Hs.
  destruct (run_script C p (emit s [TCursorOff])) as [[s' r]|] eqn:Hr; [|discriminate].
  pose proof (after_ref S (Some (s', r)) x' (Some (abs s', r))) as Ha. specialize (Ha ltac:(intros ? ? [= <- <-]; reflexivity) Hs).
  eapply Jafter; [|exact Ha]. eapply K_script; [|exact Hr]. apply JK. exact H.
Qed.
End Script.
Lemma reach_script (K : astate -> Prop) (J : asess -> Prop) x : (forall a, J (ARunning MNormal a) <-> K a) ->
  (forall e x x', J (abss x) -> step S e x = Some x' -> J (abss x')) ->
  (forall d cur cl, K (astart S d cur cl)) -> reached S x -> J (abss x).
Proof.
  intros JK JS H0 (d & cur & w & cl & es & H). unfold readline in H. opt H. apply start_ref in Ev.
  assert (G : J (abss s)) by (rewrite Ev; apply JK, H0). clear Ev. revert s G H.
  induction es as [|e es IH]; intros s G H; cbn [run] in H; [now injection H as <-|]. opt H. eapply IH; [|exact H]. eapply JS; eauto.
Qed.

(** The history pointer (no condition on the text). *)
Definition HI (x : asess) : Prop :=
  match x with
  | ARunning m a => mode_ok S m /\ 0 <= ahptr a <= zlen (hist C)
  | AFinished a _ _ => 0 <= ahptr a <= zlen (hist C)
  end.

Lemma aupdate_hptr a : ahptr (aupdate C a) = ahptr a.
Proof. destruct (aupdate_shape C a) as [x ->]. reflexivity. Qed.
Lemma ains_hptr a p l a' : ains a p l = Some a' -> ahptr a' = ahptr a.
Proof. unfold ains. intros H. opt H. injection H as <-. reflexivity. Qed.
Lemma adelete_hptr a p n a' : adelete a p n = Some a' -> ahptr a' = ahptr a.
Proof. unfold adelete. intros H. destruct (_ || _); [now injection H as <-|]. opt H. injection H as <-. reflexivity. Qed.
Lemma ajoin_hptr a : ahptr (ajoin a) = ahptr a.
Proof. unfold ajoin. destruct (aundo a) as [|u2 [|u1 r]]; try reflexivity. destruct (join2 u1 u2); reflexivity. Qed.
Lemma areplace_hptr a p t a' : areplace C a p t = Some a' -> ahptr a' = ahptr a.
Proof.
  unfold areplace. intros H. opt H. injection H as <-. rewrite aupdate_hptr, ajoin_hptr. cbn.
  rewrite (ains_hptr _ _ _ _ Ev0). now rewrite (adelete_hptr _ _ _ _ Ev).
Qed.
Lemma aBackwardDelete_hptr a a' : aBackwardDelete C a = Some a' -> ahptr a' = ahptr a.
Proof.
  unfold aBackwardDelete. destruct (0 <? acur a); intros H; [|now injection H as <-]. opt H. injection H as <-.
  rewrite aupdate_hptr. now rewrite (adelete_hptr _ _ _ _ Ev).
Qed.
Lemma aself_tail_hptr a k a' : aself_tail C a k = Some a' -> ahptr a' = ahptr a.
Proof. unfold aself_tail. intros H. opt H. injection H as <-. rewrite aupdate_hptr. cbn. now rewrite (ains_hptr _ _ _ _ Ev). Qed.
Lemma aselfInsert_hptr k a a' : aselfInsert C k a = Some a' -> ahptr a' = ahptr a.
Proof.
  unfold aselfInsert. destruct (AreZeroWidthJoin E (altgr k) && (0 <? acur a)).
  { intros H. opt H. apply aBackwardDelete_hptr in H. exact H. }
  destruct ((AreVariationSelectorLike E (altgr k) || AreEmojiModifier E (altgr k)) && (0 <? acur a)).
  { intros H. opt H. apply aself_tail_hptr in H. rewrite H. now apply aBackwardDelete_hptr. }
  destruct (apend a); intros H; apply aself_tail_hptr in H; exact H.
Qed.
Lemma aclip_hptr a t : ahptr (aclip_write a t) = ahptr a.
Proof. destruct (aclip_shape a t) as [cl ->]. reflexivity. Qed.
Lemma ashow_hptr a a' : ashow C a = Some a' -> ahptr a' = ahptr a.
Proof.
  unfold ashow. destruct (agetHistory C (aKillWhole a)) as [[|x l]|]; intros H; [now injection H as <-| |discriminate].
  opt H. injection H as <-. cbn. now rewrite (ains_hptr _ _ _ _ Ev).
Qed.
Lemma asave_hptr a a' : asave C a = Some a' -> ahptr a' = ahptr a.
Proof.
  unfold asave. destruct (ahptr a <? zlen (hist C)); intros H; [|now injection H as <-].
  destruct (index (hist C) (ahptr a)) as [h|]; [|discriminate]. destruct (str_eqb h (atext a)); now injection H as <-.
Qed.

Lemma aexec_hptr b c a a' r : 0 <= ahptr a <= zlen (hist C) -> aexec C b c a = Some (a', r) ->
  0 <= ahptr a' <= zlen (hist C).
Proof.
  intros Hh H.
  assert (G : forall o, (forall x, o = Some x -> ahptr x = ahptr a) -> acontinue o = Some (a', r) ->
              0 <= ahptr a' <= zlen (hist C)).
  { intros [x|] Hx Hc; cbn in Hc; [|discriminate]. injection Hc as <- _. now rewrite (Hx x eq_refl). }
  assert (GD : forall x, aDelete C a = Some x -> ahptr x = ahptr a).
  { unfold aDelete. intros x H0. opt H0. injection H0 as <-. rewrite aupdate_hptr. now apply adelete_hptr in Ev. }
  destruct c; cbn [aexec] in H; try discriminate;
    try (injection H as <- _; rewrite ?aupdate_hptr; exact Hh).
  - injection H as <- _. unfold aBackwardChar. destruct (acur a <=? 0); [|rewrite aupdate_hptr]; exact Hh.
  - revert H; apply G; clear G; intros x H. unfold aForwardChar in H. destruct (zlen (aline a) <=? acur a); [|now injection H as <-].
    destruct (asuf a); [now injection H as <-|]. now apply areplace_hptr in H.
  - revert H; apply G; clear G; intros x H. now apply aBackwardDelete_hptr.
  - revert H; apply G; clear G; intros x H. now apply GD.
  - destruct (0 <? zlen (aline a)); [|injection H as <- _; exact Hh]. revert H. apply G. exact GD.
  - revert H; apply G; clear G; intros x H. unfold aKillLine in H. opt H. injection H as <-. cbn. apply aclip_hptr.
  - revert H; apply G; clear G; intros x H. unfold aWordRubout in H. opt H. injection H as <-. rewrite aupdate_hptr. cbn.
    rewrite (adelete_hptr _ _ _ _ Ev2), aclip_hptr. reflexivity.
  - revert H; apply G; clear G; intros x H. unfold aLineDiscard in H. opt H. injection H as <-. rewrite aupdate_hptr. cbn.
    rewrite (adelete_hptr _ _ _ _ Ev0), aclip_hptr. reflexivity.
  - revert H; apply G; clear G; intros x H. unfold aYank in H. destruct (aclip a); [|now injection H as <-]. now apply areplace_hptr in H.
  - revert H; apply G; clear G; intros x H. unfold aYank in H. destruct (aclip a); [|now injection H as <-]. now apply areplace_hptr in H.
  - revert H; apply G; clear G; intros x H. unfold aSwapChar in H. destruct (_ =? _); destruct (_ <? _); try (now injection H as <-); opt H; now injection H as <-.
  - revert H; apply G; clear G; intros x H. unfold aBackwardWord in H. opt H. injection H as <-. now rewrite aupdate_hptr.
  - revert H; apply G; clear G; intros x H. unfold aForwardWord in H. opt H. injection H as <-. destruct b; [now rewrite aupdate_hptr|reflexivity].
  - revert H; apply G; clear G; intros x H. unfold aUndo in H. destruct (aundo a); [now injection H as <-|]. opt H. injection H as <-. rewrite aupdate_hptr.
    destruct (u_text u); [now injection Ev0 as <-|]. opt Ev0. now injection Ev0 as <-.
  - destruct (aPrevious C a) as [x|] eqn:Hp; [|discriminate]. cbn in H. injection H as <- _. revert Hp. unfold aPrevious.
    destruct (zlen (hist C) <=? 0) eqn:H0; [intros H; injection H as <-; exact Hh|].
    destruct (ahptr a <=? 0) eqn:H1.
    + destruct (negb (cycling C)); [intros H; injection H as <-; exact Hh|].
      intros H. opt H. apply ashow_hptr in H. rewrite H. apply asave_hptr in Ev. cbn in *. lia.
    + intros H. opt H. apply ashow_hptr in H. rewrite H. apply asave_hptr in Ev. cbn in *. lia.
  - destruct (aNext C a) as [x|] eqn:Hp; [|discriminate]. cbn in H. injection H as <- _. revert Hp. unfold aNext.
    destruct (zlen (hist C) <=? 0) eqn:H0; [intros H; injection H as <-; exact Hh|].
    destruct (zlen (hist C) <? ahptr a + 1) eqn:H1; [intros H; injection H as <-; exact Hh|].
    intros H. opt H. apply ashow_hptr in H. rewrite H. apply asave_hptr in Ev. cbn in *. lia.
  - revert H; apply G; clear G; intros x H. now apply aselfInsert_hptr in H.
Qed.

Lemma HI_step b e x x' : HI x -> astep S b e x = Some x' -> HI x'.
Proof.
  intros H Hs. destruct x as [m a|a t r]; cbn [astep] in Hs; [|injection Hs as <-; exact H].
  destruct H as [Hm Hh]. destruct e as [k| |w|c].
  - destruct m as [| |ss].
    + unfold akey_normal in Hs.
      assert (G : forall c, aafter (aexec C b c a) = Some x' -> HI x').
      { intros c Hc. destruct (aexec C b c a) as [[a' r]|] eqn:He; [|discriminate]. apply aexec_hptr in He; [|exact Hh].
        cbn in Hc. destruct r; injection Hc as <-; cbn; auto. }
      destruct (LookupCommand (kmap S) (gmap S) k); try (now apply (G _ Hs));
        injection Hs as <-; (split; [|exact Hh]); try exact I.
      cbn. unfold ss_ok. cbn. pose proof (zlen_nonneg (hist C)). lia.
    + opt Hs. injection Hs as <-. split; [exact I|]. apply aselfInsert_hptr in Ev. now rewrite Ev.
    + unfold akey_search in Hs. destruct (search_key_ok S k ss Hm) as (act & Ha & Hact). rewrite Ha in Hs.
      destruct act as [ss'| |].
      * injection Hs as <-. split; [now apply Hact|exact Hh].
      * opt Hs. injection Hs as <-. split; [exact I|]. unfold aaccept in Ev. apply areplace_hptr in Ev. now rewrite Ev.
      * injection Hs as <-. split; [exact I|exact Hh].
  - destruct m; injection Hs as <-; try (split; [exact I|exact Hh]). exact Hh.
  - destruct m; injection Hs as <-; (split; [exact Hm|]); rewrite ?aupdate_hptr; exact Hh.
  - injection Hs as <-. split; [exact Hm|exact Hh].
Qed.
End WithSess.

Section Pointer.
Variable S : scfg.
Notation C := (base S).
Notation E := (cE C).
Lemma HI_reached x : scripted S -> reached S x -> HI S (abss x).
Proof.
  intros HB. set (K := fun a => 0 <= ahptr a <= zlen (hist C)).
  apply (reach_script S K); [| |intros d cur cl; unfold K, astart; rewrite aupdate_hptr; cbn; pose proof (zlen_nonneg (hist C)); lia].
  { intros a. unfold HI, K. cbn. tauto. }
  intros e y y'. apply (J_step S K); [apply (K_call S K)| | | |exact HB]; unfold K.
  - intros a p t a' H Ha. apply ains_hptr in Ha. now rewrite Ha.
  - intros a p n a' H Ha. apply adelete_hptr in Ha. now rewrite Ha.
  - intros a p t a' H Ha. apply areplace_hptr in Ha. now rewrite Ha.
  - intros a H. now rewrite aupdate_hptr.
  - intros s n H. exact H.
  - intros s n l H _. exact H.
  - intros b c a a' r. apply aexec_hptr.
  - intros a. unfold HI. cbn. tauto.
  - intros a r z H Hz. cbn in Hz. destruct r; injection Hz as <-; cbn; auto.
  - intros km gm b e0 z z' H Hs. exact (HI_step (mkScfg C km gm) b e0 z z' H Hs).
Qed.

Lemma pointer_in_bounds x : scripted S -> reached S x -> 0 <= hptr (buf_of x) <= zlen (hist C).
Proof. intros HB Hr. apply HI_reached in Hr; [|exact HB]. destruct x; cbn in Hr; [apply Hr|exact Hr]. Qed.
Lemma search_reads_ok ss s k : scripted S -> reached S (Running (MSearch ss) s) ->
  exists a, search_key S k ss = Some a.
Proof.
  intros HB Hr. apply HI_reached in Hr as [Hm _]; [|exact HB]. destruct (search_key_ok S k ss Hm) as (a & Ha & _). eauto.
Qed.
Lemma save_reads_ok x : scripted S -> reached S x ->
  exists s', saveModifiedHistory C (buf_of x) = Some s'.
Proof.
  intros HB Hr. apply pointer_in_bounds in Hr; [|exact HB]. unfold saveModifiedHistory.
  destruct (_ <? _) eqn:Hx; [|eauto]. destruct (index_lt (hist C) (hptr (buf_of x))) as (h & ->); [lia|].
  destruct (str_eqb _ _); eauto.
Qed.
Lemma get_reads_ok s : exists t, getHistory C s = Some t.
Proof.
  unfold getHistory. destruct (aget _ _ _); [eauto|]. destruct (_ || _) eqn:Hx; [eauto|]. apply index_lt. lia.
Qed.
End Pointer.
