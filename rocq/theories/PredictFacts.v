(** When the prediction on display belongs to the present line. *)
From Verif Require Import Base Utf8 Moji Color Prompt Buffer Commands KeyMap Session SpecScript MojiFacts
  Abs AbsRef AbsSess AbsSafe AbsInv Safe SafeSess Plain Spec TextFacts Reach SafetyFacts CmdFacts WordFacts EditFacts EditProps LineInv EditMore SessFacts HistFacts SearchFacts.

(** Prediction switched off. *)
Section Off.
Variable C : cfg.
Notation E := (cE C).
Hypothesis Hoff : pcolor0 C = [].
Definition skept (a a' : astate) : Prop := asuf a' = asuf a.
Lemma skept_refl a : skept a a. Proof. reflexivity. Qed.
Lemma skept_trans a b c : skept a b -> skept b c -> skept a c.
Proof. unfold skept. congruence. Qed.
Lemma skept_update a : skept a (aupdate C a).
Proof. unfold skept, aupdate. rewrite Hoff. reflexivity. Qed.
Lemma skept_clip a t : skept a (aclip_write a t).
Proof. unfold skept, aclip_write. destruct (aclip a); reflexivity. Qed.
Lemma skept_join a : skept a (ajoin a).
Proof. unfold skept, ajoin. destruct (aundo a) as [|u2 [|u1 r]]; try reflexivity. destruct (join2 u1 u2); reflexivity. Qed.
Lemma skept_ins a p l a' : ains a p l = Some a' -> skept a a'.
Proof. unfold ains. intros H. opt H. injection H as <-. reflexivity. Qed.
Lemma skept_del a p n a' : adelete a p n = Some a' -> skept a a'.
Proof. unfold adelete. intros H. destruct (_ || _); [injection H as <-; apply skept_refl|]. opt H. injection H as <-. reflexivity. Qed.
Lemma skept_replace a p t a' : areplace C a p t = Some a' -> skept a a'.
Proof.
  unfold areplace. intros H. opt H. injection H as <-. eapply skept_trans; [eapply skept_del; eassumption|].
  eapply skept_trans; [eapply skept_ins; eassumption|]. eapply skept_trans; [|apply skept_update]. eapply skept_trans; [|apply skept_join]. reflexivity.
Qed.
Lemma skept_backdel a a' : aBackwardDelete C a = Some a' -> skept a a'.
Proof.
  unfold aBackwardDelete. destruct (0 <? acur a); intros H; [|injection H as <-; apply skept_refl]. opt H. injection H as <-.
  eapply skept_trans; [|apply skept_update]. apply skept_del in Ev. exact Ev.
Qed.
Lemma skept_tail a k a' : aself_tail C a k = Some a' -> skept a a'.
Proof.
  unfold aself_tail. intros H. opt H. injection H as <-. eapply skept_trans; [|apply skept_update]. apply skept_ins in Ev. exact Ev.
Qed.
Lemma skept_self k a a' : aselfInsert C k a = Some a' -> skept a a'.
Proof.
  unfold aselfInsert. destruct (AreZeroWidthJoin E (altgr k) && (0 <? acur a)).
  { intros H. opt H. apply skept_backdel in H. exact H. }
  destruct ((AreVariationSelectorLike E (altgr k) || AreEmojiModifier E (altgr k)) && (0 <? acur a)).
  { intros H. opt H. apply skept_tail in H. eapply skept_trans; [|exact H]. now apply skept_backdel. }
  destruct (apend a); intros H; apply skept_tail in H; exact H.
Qed.
Lemma skept_delete a a' : aDelete C a = Some a' -> skept a a'.
Proof. unfold aDelete. intros H. opt H. injection H as <-. eapply skept_trans; [|apply skept_update]. now apply skept_del in Ev. Qed.

Lemma skept_save a a' : asave C a = Some a' -> skept a a'.
Proof.
  unfold asave. destruct (_ <? _); intros H; [opt H|injection H as <-; reflexivity].
  destruct (str_eqb _ _); injection H as <-; reflexivity.
Qed.
Lemma skept_show a a' : ashow C a = Some a' -> skept a a'.
Proof.
  unfold ashow. intros H. opt H. destruct s; [injection H as <-; reflexivity|]. opt H. injection H as <-. apply skept_ins in Ev0. exact Ev0.
Qed.
Lemma skept_exec b c a a' r : aexec C b c a = Some (a', r) -> skept a a'.
Proof.
  intros H.
  assert (G : forall o, (forall x, o = Some x -> skept a x) -> acontinue o = Some (a', r) -> skept a a').
  { intros [x|] Hx Hc; cbn in Hc; [|discriminate]. injection Hc as <- _. now apply Hx. }
  destruct c; cbn [aexec] in H; try discriminate;
    try (injection H as <- _; first [reflexivity | exact (skept_update _)]).
  - injection H as <- _. unfold aBackwardChar. destruct (acur a <=? 0); [apply skept_refl|]. exact (skept_update (aset_cur a _)).
  - revert H; apply G; clear G; intros x H. unfold aForwardChar in H. destruct (zlen (aline a) <=? acur a); [|injection H as <-; reflexivity].
    destruct (asuf a); [injection H as <-; apply skept_refl|]. now apply skept_replace in H.
  - revert H; apply G; clear G; intros x H. now apply skept_backdel.
  - revert H; apply G; clear G; intros x H. now apply skept_delete.
  - destruct (0 <? zlen (aline a)); [|injection H as <- _; apply skept_refl]. revert H. apply G. exact (skept_delete a).
  - revert H; apply G; clear G; intros x H. unfold aKillLine in H. opt H. injection H as <-. exact (skept_clip _ _).
  - revert H; apply G; clear G; intros x H. unfold aWordRubout in H. opt H. injection H as <-. eapply skept_trans; [|apply skept_update].
    apply skept_del in Ev2. eapply skept_trans; [|exact Ev2]. exact (skept_clip _ _).
  - revert H; apply G; clear G; intros x H. unfold aLineDiscard in H. opt H. injection H as <-. eapply skept_trans; [|apply skept_update].
    apply skept_del in Ev0. eapply skept_trans; [|exact Ev0]. exact (skept_clip _ _).
  - revert H; apply G; clear G; intros x H. unfold aYank in H. destruct (aclip a); [|injection H as <-; apply skept_refl]. now apply skept_replace in H.
  - revert H; apply G; clear G; intros x H. unfold aYank in H. destruct (aclip a); [|injection H as <-; apply skept_refl]. now apply skept_replace in H.
  - revert H; apply G; clear G; intros x H. unfold aSwapChar in H. destruct (_ =? _); destruct (_ <? _); try (injection H as <-; apply skept_refl); opt H; injection H as <-; reflexivity.
  - revert H; apply G; clear G; intros x H. unfold aBackwardWord in H. opt H. injection H as <-. exact (skept_update (aset_cur a _)).
  - revert H; apply G; clear G; intros x H. unfold aForwardWord in H. opt H. injection H as <-. destruct b; [exact (skept_update (aset_cur a _))|reflexivity].
  - revert H; apply G; clear G; intros x H. unfold aUndo in H. destruct (aundo a); [injection H as <-; apply skept_refl|]. opt H. injection H as <-.
    eapply skept_trans; [|apply skept_update].
    destruct (u_text u); [injection Ev0 as <-; reflexivity|]. opt Ev0. injection Ev0 as <-. reflexivity.
  - revert H; apply G; clear G; intros x H. unfold aPrevious in H. destruct (_ <=? 0); [injection H as <-; reflexivity|].
    destruct (ahptr a <=? 0); [destruct (negb _); [injection H as <-; reflexivity|]|]; opt H; apply skept_show in H; apply skept_save in Ev;
      unfold skept in *; rewrite H; exact Ev.
  - revert H; apply G; clear G; intros x H. unfold aNext in H. destruct (_ <=? 0); [injection H as <-; reflexivity|].
    destruct (_ <? _); [injection H as <-; reflexivity|]. opt H; apply skept_show in H; apply skept_save in Ev;
      unfold skept in *; rewrite H; exact Ev.
  - revert H; apply G; clear G; intros x H. now apply skept_self in H.
Qed.
End Off.

Lemma predicted_asuf s : predicted s = asuf (abs s).
Proof. unfold predicted, abs. cbn [asuf]. destruct (suffix s); reflexivity. Qed.

Section OffSess.
Variable S : scfg.
Notation C := (base S).
Hypothesis Hoff : pcolor0 C = [].
Definition OS (x : asess) : Prop := match x with ARunning _ a => asuf a = [] | AFinished a _ _ => asuf a = [] end.
Lemma OS_step b e x x' : OS x -> astep S b e x = Some x' -> OS x'.
Proof.
  assert (Ha : forall a o x', (forall a1 r, o = Some (a1, r) -> skept a a1) -> asuf a = [] -> aafter o = Some x' -> OS x').
  { intros a o x0 Ho H Hx. unfold aafter in Hx. destruct o as [[a1 r]|]; [|discriminate]. specialize (Ho a1 r eq_refl). unfold skept in Ho.
    destruct r; injection Hx as <-; cbn; congruence. }
  intros H Hs. destruct x as [m a|a t r]; cbn [astep] in Hs; [|injection Hs as <-; exact H].
  destruct e as [k| |w|c].
  - destruct m as [| |ss].
    + unfold akey_normal in Hs. destruct (LookupCommand _ _ _); try (injection Hs as <-; exact H);
        (eapply Ha; [|exact H|exact Hs]; intros a1 r0 He; eapply (skept_exec C Hoff); exact He).
    + opt Hs. injection Hs as <-. apply (skept_self C Hoff) in Ev. unfold skept in Ev. cbn. rewrite Ev. exact H.
    + unfold akey_search in Hs. opt Hs. destruct s; try (injection Hs as <-; exact H). opt Hs. injection Hs as <-.
      unfold aaccept in Ev0. apply (skept_replace C Hoff) in Ev0. unfold skept in Ev0. cbn. rewrite Ev0. exact H.
  - destruct m; injection Hs as <-; exact H.
  - destruct m; injection Hs as <-; try exact H. cbn. pose proof (skept_update C Hoff a) as G. unfold skept in G. rewrite G. exact H.
  - injection Hs as <-. exact H.
Qed.
End OffSess.
Section OffReached.
Variable S : scfg.
Notation C := (base S).
Hypothesis Hoff : pcolor0 C = [].
Lemma no_prediction x : scripted S -> reached S x -> predicted (buf_of x) = [].
Proof.
  intros HB HR. assert (H : OS (abss x)); [|rewrite predicted_asuf; destruct x; exact H].
  set (K := fun a => asuf a = []). apply (reach_script S K OS); [reflexivity| | |exact HR].
  2:{ intros d cu cl. unfold K, astart. pose proof (skept_update C Hoff) as G. unfold skept in G. rewrite G. reflexivity. }
  intros e y y'. apply (J_step S K); [apply (K_call S K)| | | |exact HB]; unfold K.
  - intros a p t a' H Ha. apply skept_ins in Ha. unfold skept in Ha. congruence.
  - intros a p n a' H Ha. apply skept_del in Ha. unfold skept in Ha. congruence.
  - intros a p t a' H Ha. apply (skept_replace C Hoff) in Ha. unfold skept in Ha. congruence.
  - intros a H. pose proof (skept_update C Hoff a) as G. unfold skept in G. congruence.
  - intros s n H. exact H.
  - intros s n l H _. exact H.
  - intros b c a a' r H Ha. apply (skept_exec C Hoff) in Ha. unfold skept in Ha. congruence.
  - intros a. reflexivity.
  - intros a r z H Hz. cbn in Hz. destruct r; injection Hz as <-; try exact H; reflexivity.
  - intros km gm b e0 z z' H Hs. exact (OS_step (mkScfg C km gm) Hoff b e0 z z' H Hs).
Qed.
Lemma predicted_nil s : predicted s = [] -> suffix s = None \/ suffix s = Some [].
Proof. unfold predicted. destruct (suffix s) as [[|]|]; [now right|discriminate|now left]. Qed.
Lemma forward_off s s' r p : scripted S -> reached S (Running MNormal s) -> exec C CForwardChar s = Some (s', r) -> at_split s p [] -> s' = s.
Proof.
  intros HB HR H Hs. eapply forward_char_end; [exact H|exact Hs|]. apply predicted_nil. apply (no_prediction (Running MNormal s) HB HR).
Qed.
End OffReached.

Section On.
Variable C : cfg.
Notation E := (cE C).
(** The command asked the predictor last, or left line and prediction alone. *)
Definition upd (a a' : astate) : Prop := (exists y, a' = aupdate C y) \/ (aline a' = aline a /\ asuf a' = asuf a).
Lemma upd_replace a pos t a' : areplace C a pos t = Some a' -> upd a a'.
Proof. unfold areplace. intros H. opt H. injection H as <-. left. eauto. Qed.
Lemma upd_backdel a a' : aBackwardDelete C a = Some a' -> upd a a'.
Proof. unfold aBackwardDelete. destruct (0 <? acur a); intros H; [opt H|]; injection H as <-; [left; eauto|right; auto]. Qed.
Lemma upd_tail a k a' : aself_tail C a k = Some a' -> exists y, a' = aupdate C y.
Proof. unfold aself_tail. intros H. opt H. injection H as <-. eauto. Qed.
Lemma upd_self k a a' : aselfInsert C k a = Some a' -> upd a a'.
Proof.
  unfold aselfInsert. destruct (AreZeroWidthJoin E (altgr k) && (0 <? acur a)).
  { intros H. opt H. apply upd_backdel in H. exact H. }
  destruct ((AreVariationSelectorLike E (altgr k) || AreEmojiModifier E (altgr k)) && (0 <? acur a)).
  { intros H. opt H. apply upd_tail in H. now left. }
  destruct (apend a); intros H; apply upd_tail in H; now left.
Qed.
Lemma upd_refl a : upd a a. Proof. right. auto. Qed.
Lemma upd_exec b c a a' r : refreshing c = true -> aexec C b c a = Some (a', r) -> upd a a'.
Proof.
  intros Hc H.
  assert (G : forall o, (forall x, o = Some x -> upd a x) -> acontinue o = Some (a', r) -> upd a a').
  { intros [x|] Hx Hy; cbn in Hy; [|discriminate]. injection Hy as <- _. now apply Hx. }
  assert (GD : forall x, aDelete C a = Some x -> upd a x).
  { unfold aDelete. intros x H0. opt H0. injection H0 as <-. left; eauto. }
  destruct c; try discriminate Hc; cbn [aexec] in H; try discriminate;
    try (injection H as <- _; first [exact (upd_refl _) | left; eexists; reflexivity]).
  - injection H as <- _. unfold aBackwardChar. destruct (acur a <=? 0); [apply upd_refl|left; eauto].
  - revert H; apply G; clear G; intros x H. unfold aForwardChar in H. destruct (zlen (aline a) <=? acur a); [|injection H as <-; right; auto].
    destruct (asuf a) eqn:Hs; [injection H as <-; apply upd_refl|]. now apply upd_replace in H.
  - revert H; apply G; clear G; intros x H. now apply upd_backdel.
  - revert H; apply G; exact GD.
  - destruct (0 <? zlen (aline a)); [|injection H as <- _; apply upd_refl]. revert H. apply G. exact GD.
  - revert H; apply G; clear G; intros x H. unfold aWordRubout in H. opt H. injection H as <-. left; eauto.
  - revert H; apply G; clear G; intros x H. unfold aLineDiscard in H. opt H. injection H as <-. left; eauto.
  - revert H; apply G; clear G; intros x H. unfold aYank in H. destruct (aclip a); [|injection H as <-; apply upd_refl]. now apply upd_replace in H.
  - revert H; apply G; clear G; intros x H. unfold aYank in H. destruct (aclip a); [|injection H as <-; apply upd_refl]. now apply upd_replace in H.
  - revert H; apply G; clear G; intros x H. unfold aBackwardWord in H. opt H. injection H as <-. left; eauto.
  - revert H; apply G; clear G; intros x H. unfold aForwardWord in H. opt H. injection H as <-. destruct b; [left; eauto|right; auto].
  - revert H; apply G; clear G; intros x H. unfold aUndo in H. destruct (aundo a); [injection H as <-; apply upd_refl|]. opt H. injection H as <-. left; eauto.
  - revert H; apply G; clear G; intros x H. now apply upd_self in H.
Qed.

Hypothesis Hon : pcolor0 C <> [].
Hypothesis Hcur : forall t i j, predictor C t i = predictor C t j.
Definition cura (a : astate) : Prop := asuf a = match aline a with [] => [] | _ => units E (predictor C (atext a) 0) end.
Lemma cura_update a : cura (aupdate C a).
Proof.
  unfold cura. rewrite aupdate_line. unfold aupdate. destruct (pcolor0 C); [contradiction|].
  destruct (aline a) eqn:Hl; [reflexivity|]. cbn [asuf aset_suf]. unfold atext. cbn [aline aset_suf]. now rewrite (Hcur _ (acur a) 0).
Qed.
Lemma cura_upd a a' : cura a -> upd a a' -> cura a'.
Proof.
  intros H [[y ->]|[H1 H2]]; [apply cura_update|]. unfold cura, atext in *. rewrite H1, H2. exact H.
Qed.
End On.

Section OnSess.
Variable S : scfg.
Notation C := (base S).
Notation E := (cE C).
Hypothesis Hon : pcolor0 C <> [].
Hypothesis Hcur : forall t i j, predictor C t i = predictor C t j.

Definition CS (x : asess) : Prop := match x with ARunning _ a => cura C a | AFinished _ _ _ => True end.
Lemma CS_step b e x x' : refreshing_event S e -> CS x -> astep S b e x = Some x' -> CS x'.
Proof.
  intros Hr.
  assert (Ha : forall a o x', (forall a1 r, o = Some (a1, r) -> upd C a a1) -> cura C a -> aafter o = Some x' -> CS x').
  { intros a o x0 Ho H Hx. unfold aafter in Hx. destruct o as [[a1 r]|]; [|discriminate]. specialize (Ho a1 r eq_refl).
    destruct r; injection Hx as <-; cbn; try exact I. eapply cura_upd; eauto. }
  intros H Hs. destruct x as [m a|a t r]; cbn [astep] in Hs; [|injection Hs as <-; exact H].
  destruct e as [k| |w|c].
  - destruct m as [| |ss].
    + unfold akey_normal in Hs. specialize (Hr _ eq_refl). destruct (LookupCommand _ _ _); try (injection Hs as <-; exact H);
        try discriminate Hr; (eapply Ha; [|exact H|exact Hs]; intros a1 r0 He; eapply upd_exec; [|exact He]; reflexivity).
    + opt Hs. injection Hs as <-. apply upd_self in Ev. eapply cura_upd; eauto.
    + unfold akey_search in Hs. opt Hs. destruct s; try (injection Hs as <-; exact H). opt Hs. injection Hs as <-.
      unfold aaccept, areplace in Ev0. opt Ev0. injection Ev0 as <-. now apply cura_update.
  - destruct m; injection Hs as <-; try exact H. exact I.
  - destruct m; injection Hs as <-; try exact H. now apply cura_update.
  - injection Hs as <-. exact H.
Qed.
Lemma CS_run es : forall x x', only_builtin S -> Forall (refreshing_event S) es -> CS (abss x) -> run S es x = Some x' -> CS (abss x').
Proof.
  induction es as [|e es IH]; intros x x' HB Hf H Hr; cbn [run] in Hr; [injection Hr as <-; exact H|].
  opt Hr. apply Forall_cons_iff in Hf as [Hf Hf']. apply step_ref in Ev as [b Ev]; [|now apply only_builtin_keys].
  eapply IH; [exact HB|exact Hf'| |exact Hr]. eapply CS_step; eauto.
Qed.
Lemma prediction_kept d cur w cl es m s : only_builtin S -> Forall (refreshing_event S) es ->
  readline S d cur w cl es = Some (Running m s) -> prediction_current C s.
Proof.
  intros HB Hf H. unfold readline in H. opt H. apply CS_run in H; [|exact HB|exact Hf|].
  - cbn [abss CS] in H. unfold cura in H. unfold prediction_current. rewrite predicted_asuf, H.
    change (aline (abs s)) with (line s). destruct (line s) eqn:Hl; [reflexivity|].
    rewrite (split_units C). unfold atext. change (aline (abs s)) with (line s). rewrite Hl. now rewrite (Hcur _ 0 (cursor s)).
  - apply start_ref in Ev. rewrite Ev. cbn [CS]. unfold astart. now apply cura_update.
Qed.
(** Accepting it. *)
Lemma forward_accept s s' r p : exec C CForwardChar s = Some (s', r) -> at_split s p [] ->
  at_split s' (p ++ split E (written (predicted s))) [].
Proof.
  intros H [Hl Hc]. apply exec_ref in H as [b H]; [|exact I]. cbn [aexec] in H. unfold aForwardChar in H.
  rewrite predicted_asuf. rewrite app_nil_r in Hl.
  assert (Hz : zlen (aline (abs s)) <=? acur (abs s) = true).
  { change (aline (abs s)) with (line s). change (acur (abs s)) with (cursor s). rewrite Hl, Hc. lia. }
  rewrite Hz in H. change (@written) with (@text). rewrite (split_units C).
  destruct (asuf (abs s)) as [|m l] eqn:Hs.
  - apply acont_some in H as [H _]. apply abs_fields in H as F. destruct F as [F1 F2 _ _ _ _ _].
    change (aline (abs s)) with (line s) in F1. change (acur (abs s)) with (cursor s) in F2.
    change (units E (text [])) with (@nil moji). rewrite app_nil_r. split; [rewrite app_nil_r|]; congruence.
  - assert (Hl' : aline (abs s) = p ++ []) by (rewrite app_nil_r; exact Hl).
    rewrite (areplace_here C (abs s) p [] _ Hl' Hc) in H.
    apply acont_some in H as [H _]. apply abs_fields in H as F. destruct F as [F1 F2 _ _ _ _ _].
    rewrite aupdate_line, ajoin_line in F1. rewrite aupdate_cur, ajoin_cur in F2.
    cbn [aline acur aset_line aset_cur apush aset_undo] in F1, F2. rewrite app_nil_r in F1. split; [now rewrite app_nil_r|]. now rewrite F2, zlen_app.
Qed.
End OnSess.
