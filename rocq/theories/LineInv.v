(** What holds of every unit that comes out of a text holds of every unit on a reachable
    line. *)
From Verif Require Import Base Utf8 Moji Color Prompt Buffer Commands KeyMap Session MojiFacts
  Abs AbsRef AbsSess AbsSafe AbsInv Safe SafeSess Plain Spec Script SpecScript TextFacts Reach SafetyFacts.

Section WithCfg.
Variable C : cfg.
Notation E := (cE C).
Variable P : moji -> Prop.
Hypothesis HP : forall t, Forall P (units E t).

Definition LI (a : astate) : Prop := Forall P (aline a).
Lemma LI_aupdate a : LI a -> LI (aupdate C a).
Proof. destruct (aupdate_shape C a) as [x ->]. exact (fun H => H). Qed.
Lemma LI_clip a t : LI a -> LI (aclip_write a t).
Proof. unfold aclip_write. destruct (aclip a); exact (fun H => H). Qed.
Lemma LI_ins a pos l a' : LI a -> Forall P l -> ains a pos l = Some a' -> LI a'.
Proof. unfold ains. intros H Hl Ha. opt Ha. injection Ha as <-. exact (Forall_sliceInsert _ _ _ _ _ Ev H Hl). Qed.
Lemma LI_del a pos n a' : LI a -> adelete a pos n = Some a' -> LI a'.
Proof.
  unfold adelete. intros H Ha. destruct ((n <=? 0) || _) eqn:Hn; [injection Ha as <-; exact H|]. opt Ha. injection Ha as <-.
  eapply Forall_sliceDelete; [|exact Ev0|exact H]. lia.
Qed.
Lemma LI_join a : LI a -> LI (ajoin a).
Proof. unfold ajoin. destruct (aundo a) as [|u2 [|u1 r]]; try exact (fun H => H). destruct (join2 u1 u2); exact (fun H => H). Qed.
Lemma LI_replace a pos t a' : LI a -> areplace C a pos t = Some a' -> LI a'.
Proof.
  unfold areplace. intros H Ha. opt Ha. injection Ha as <-. apply LI_aupdate, LI_join.
  eapply LI_ins in Ev0; [exact Ev0|eapply LI_del; eauto|apply HP].
Qed.
Lemma LI_backdel a a' : LI a -> aBackwardDelete C a = Some a' -> LI a'.
Proof.
  unfold aBackwardDelete. intros H Ha. destruct (0 <? acur a); [|injection Ha as <-; exact H]. opt Ha. injection Ha as <-.
  apply LI_aupdate. eapply LI_del; [|exact Ev]. exact H.
Qed.
Lemma LI_tail a k a' : LI a -> aself_tail C a k = Some a' -> LI a'.
Proof.
  unfold aself_tail. intros H Ha. opt Ha. injection Ha as <-. apply LI_aupdate. eapply LI_ins in Ev; [exact Ev|exact H|apply HP].
Qed.
Lemma LI_self k a a' : LI a -> aselfInsert C k a = Some a' -> LI a'.
Proof.
  unfold aselfInsert. intros H Ha. destruct (AreZeroWidthJoin _ _ && _).
  { opt Ha. eapply LI_backdel; [|exact Ha]. exact H. }
  destruct ((_ || _) && _).
  { opt Ha. eapply LI_tail; [|exact Ha]. eapply LI_backdel; eauto. }
  destruct (apend a); eapply LI_tail; try exact Ha; exact H.
Qed.
Lemma LI_whole a : LI (aKillWhole a). Proof. constructor. Qed.
Lemma LI_save a a' : LI a -> asave C a = Some a' -> LI a'.
Proof.
  unfold asave. intros H Ha. destruct (ahptr a <? _); [opt Ha; destruct (str_eqb _ _)|]; injection Ha as <-; exact H.
Qed.
Lemma LI_show a a' : ashow C a = Some a' -> LI a'.
Proof.
  unfold ashow. intros Ha. cbn zeta in Ha. destruct (agetHistory C (aKillWhole a)) as [[|x l]|]; [| |discriminate]; [injection Ha as <-; constructor|]. opt Ha. injection Ha as <-.
  eapply LI_ins in Ev; [exact Ev|constructor|apply HP].
Qed.
Lemma Forall_aswapP l i j l' : Forall P l -> aswap l i j = Some l' -> Forall P l'.
Proof.
  intros H Hs. unfold aswap in Hs. opt Hs.
  pose proof (Forall_index _ _ _ _ Ev H). pose proof (Forall_index _ _ _ _ Ev0 H).
  destruct (Forall_set_index _ _ _ _ _ Ev1 H) as [G _]; [assumption|].
  now destruct (Forall_set_index _ _ _ _ _ Hs G).
Qed.
Lemma LI_exec b c a a' r : LI a -> aexec C b c a = Some (a', r) -> LI a'.
Proof.
  intros H He.
  assert (G : forall o, (forall a0, o = Some a0 -> LI a0) -> acontinue o = Some (a', r) -> LI a').
  { intros o Ho Hc. unfold acontinue in Hc. opt Hc. injection Hc as <- _. now apply Ho. }
  destruct c; cbn [aexec] in He.
  - injection He as <- _. exact H.
  - injection He as <- _. constructor.
  - injection He as <- _. now apply LI_aupdate.
  - injection He as <- _. unfold aBackwardChar. destruct (_ <=? _); [exact H|now apply LI_aupdate].
  - injection He as <- _. exact H.
  - eapply G; [|exact He]. intros a0 Ha. unfold aForwardChar in Ha. destruct (_ <=? _); [|injection Ha as <-; exact H].
    destruct (asuf a) as [|m l]; [injection Ha as <-; exact H|]. eapply LI_replace; [exact H|exact Ha].
  - eapply G; [|exact He]. intros a0 Ha. eapply LI_backdel; eauto.
  - eapply G; [|exact He]. intros a0 Ha. unfold aDelete in Ha. opt Ha. injection Ha as <-. apply LI_aupdate. eapply LI_del; eauto.
  - destruct (_ <? _); [|injection He as <- _; exact H]. eapply G; [|exact He]. intros a0 Ha. unfold aDelete in Ha. opt Ha.
    injection Ha as <-. apply LI_aupdate. eapply LI_del; eauto.
  - eapply G; [|exact He]. intros a0 Ha. unfold aKillLine in Ha. opt Ha. injection Ha as <-.
    exact (Forall_slice _ _ _ _ _ Ev0 H).
  - injection He as <- _. apply LI_whole.
  - eapply G; [|exact He]. intros a0 Ha. unfold aWordRubout in Ha. opt Ha. injection Ha as <-.
    apply LI_aupdate. eapply LI_del in Ev2; [exact Ev2|]. apply LI_clip. exact H.
  - eapply G; [|exact He]. intros a0 Ha. unfold aLineDiscard in Ha. opt Ha. injection Ha as <-.
    apply LI_aupdate. eapply LI_del in Ev0; [exact Ev0|]. now apply LI_clip.
  - injection He as <- _. now apply LI_aupdate.
  - injection He as <- _. now apply LI_aupdate.
  - injection He as <- _. exact H.
  - eapply G; [|exact He]. intros a0 Ha. unfold aYank in Ha. destruct (aclip a); [|injection Ha as <-; exact H].
    eapply LI_replace; eauto.
  - eapply G; [|exact He]. intros a0 Ha. unfold aYank in Ha. destruct (aclip a); [|injection Ha as <-; exact H].
    eapply LI_replace; eauto.
  - eapply G; [|exact He]. intros a0 Ha. unfold aSwapChar in Ha.
    destruct (_ =? _); (destruct (_ <? _); [injection Ha as <-; exact H|]); opt Ha; injection Ha as <-;
      exact (Forall_aswapP _ _ _ _ H Ev0).
  - eapply G; [|exact He]. intros a0 Ha. unfold aBackwardWord in Ha. opt Ha. injection Ha as <-. now apply LI_aupdate.
  - eapply G; [|exact He]. intros a0 Ha. unfold aForwardWord in Ha. opt Ha. injection Ha as <-. destruct b; [now apply LI_aupdate|exact H].
  - eapply G; [|exact He]. intros a0 Ha. unfold aUndo in Ha. destruct (aundo a) as [|u st]; [injection Ha as <-; exact H|].
    opt Ha. injection Ha as <-. apply LI_aupdate.
    assert (H0 : Forall P l).
    { destruct (0 <? u_del u) eqn:Hd; [eapply Forall_sliceDelete; [|exact Ev|exact H]; lia|injection Ev as <-; exact H]. }
    destruct (u_text u) as [|x t] eqn:Ht; [injection Ev0 as <-; exact H0|].
    opt Ev0. injection Ev0 as <-. exact (Forall_sliceInsert _ _ _ _ _ Ev1 H0 (HP _)).
  - eapply G; [|exact He]. intros a0 Ha. unfold aPrevious in Ha. destruct (_ <=? 0); [injection Ha as <-; exact H|].
    destruct (ahptr a <=? 0); [destruct (negb _); [injection Ha as <-; exact H|]|]; opt Ha; eapply LI_show; eauto.
  - eapply G; [|exact He]. intros a0 Ha. unfold aNext in Ha. destruct (_ <=? 0); [injection Ha as <-; exact H|].
    destruct (_ <? _); [injection Ha as <-; exact H|]. opt Ha. eapply LI_show; eauto.
  - injection He as <- _. exact H.
  - eapply G; [|exact He]. intros a0 Ha. eapply LI_self; eauto.
  - discriminate.
Qed.
End WithCfg.

Section WithSess.
Variable S : scfg.
Notation C := (base S).
Notation E := (cE C).
Variable P : moji -> Prop.
Hypothesis HP : forall t, Forall P (units E t).
Definition LIS (x : asess) : Prop := match x with ARunning _ a => LI P a | AFinished a _ _ => LI P a end.
Lemma LIS_after o x : (forall a r, o = Some (a, r) -> LI P a) -> aafter o = Some x -> LIS x.
Proof.
  unfold aafter. destruct o as [[a r]|]; [|discriminate]. intros Ho H. specialize (Ho a r eq_refl).
  destruct r; injection H as <-; exact Ho.
Qed.
Lemma LIS_step b e x x' : LIS x -> astep S b e x = Some x' -> LIS x'.
Proof.
  intros H Hs. destruct x as [m a|a t r]; cbn [astep] in Hs; [|injection Hs as <-; exact H].
  destruct e as [k| |w|c].
  - destruct m as [| |ss].
    + unfold akey_normal in Hs. destruct (LookupCommand _ _ _); try (injection Hs as <-; exact H);
        (eapply LIS_after; [|exact Hs]; intros a0 r0 Ha; eapply (LI_exec C P HP); [exact H|exact Ha]).
    + opt Hs. injection Hs as <-. eapply (LI_self C P HP); [exact H|exact Ev].
    + unfold akey_search in Hs. opt Hs. destruct s; try (injection Hs as <-; exact H). opt Hs. injection Hs as <-.
      unfold aaccept in Ev0. eapply (LI_replace C P HP); [|exact Ev0]. constructor.
  - destruct m; injection Hs as <-; exact H.
  - destruct m; injection Hs as <-; try exact H. now apply LI_aupdate.
  - injection Hs as <-. exact H.
Qed.
End WithSess.
Section Reached.
Variable S : scfg.
Notation C := (base S).
Notation E := (cE C).
Variable P : moji -> Prop.
Hypothesis HP : forall t, Forall P (units E t).
Lemma LI_call c s s' : LI P (abs s) -> do_call C c s = Some s' -> LI P (abs s').
Proof.
  apply (K_call S (LI P)).
  - intros a p t a' H Ha. eapply LI_ins; [exact H|apply HP|exact Ha].
  - intros a p n a' H Ha. eapply LI_del; [exact H|exact Ha].
  - intros a p t a' H Ha. eapply LI_replace; [exact HP|exact H|exact Ha].
  - intros a H. now apply LI_aupdate.
  - intros s0 n H. exact H.
  - intros s0 n l H Hl. unfold LI in *. cbn in *. unfold emojis in *. rewrite Forall_map in *. exact (Forall_slice _ _ _ _ _ Hl H).
  - intros b c0 a a' r H Ha. eapply LI_exec; [exact HP|exact H|exact Ha].
Qed.
Lemma LIS_sstep e x x' : scripted S -> LIS P (abss x) -> step S e x = Some x' -> LIS P (abss x').
Proof.
  intros HS. apply (J_step S (LI P) LI_call); [| | |exact HS].
  - intros a. reflexivity.
  - intros a r y H Hy. eapply LIS_after; [|exact Hy]. intros a0 r0 [= <- <-]. exact H.
  - intros km gm b e0 y y' H Hs. eapply (LIS_step (mkScfg C km gm)); [exact HP|exact H|exact Hs].
Qed.
Lemma LIS_reached x : scripted S -> reached S x -> Forall P (line (buf_of x)).
Proof.
  intros HB HR. assert (H : LIS P (abss x)); [|destruct x; exact H].
  apply (reach_script S (LI P) (LIS P)); [reflexivity|intros e y y'; now apply LIS_sstep| |exact HR].
  intros d cu cl. apply LI_aupdate. apply HP.
Qed.
End Reached.

(** Every unit of a reachable line is what its own text splits into. *)
Lemma self_reached S x : scripted S -> reached S x -> Forall (self (cE (base S))) (line (buf_of x)).
Proof. apply (LIS_reached S). apply units_self. Qed.
