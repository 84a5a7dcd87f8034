(** User commands that read keys, in lines with tabs: the session goes on. *)
From Verif Require Import Base Utf8 Moji Color Prompt Buffer Commands KeyMap Session MojiFacts Abs AbsRef AbsSess
  AbsSafe AbsInv Safe SafeSess Plain Tabs Spec Reach SafetyFacts SpecTabs TabsFacts Script SpecScript SpecTabScript TabScript
  Interact SpecInteract SpecTabInteract.
Ltac lia := unfold rune in *; Lia.lia.

Section WithSess.
Variable S : scfg.
Notation C := (base S).
Notation E := (cE C).
Hypothesis HVe : joinlike E RuneError = false.
Hypothesis HVa : forall r, 32 <= r < 127 -> joinlike E r = false.
Hypothesis Hpred : pcolor0 C = [] \/ forall t c, sh S (predictor C t c).
Hypothesis Hhist : Forall (sh S) (hist C).
Hypothesis HE : env_ok E.
Hypothesis Hrw : forall r, rw E r <= 8.
Context {Q : Type}.
Variable U : programs Q.
Variable I : Q -> bool -> list moji -> Z -> Prop.

Definition GT (w : Z) (y : isess Q) : Prop :=
  match y with
  | ISess x => ITS S w x
  | IUser q s => exists sh, JTS S sh w s /\ I q sh (line s) (cursor s)
  end.
Lemma segT p : forall sh w s, JTS S sh w s -> tab_gcareful S I sh p s ->
  exists s' a, run_seg S p s = Some (s', a) /\
    match a with inl _ => JT S w s' /\ in_bounds s' | inr q => GT w (IUser q s') end.
Proof.
  induction p as [r| |k IH|c p IH|q]; intros sh w s HJ Hc; cbn [tab_gcareful] in Hc; cbn [run_seg].
  - exists s, (inl r). split; [reflexivity|]. split; [apply HJ|now apply HJ].
  - destruct Hc.
  - now apply (IH s sh).
  - destruct Hc as [Hok Hn]. destruct (call_survives S HVe HVa Hpred Hhist HE Hrw sh w c s HJ Hok) as (s1 & Hs1 & HJ1). rewrite Hs1. eapply IH; [exact HJ1|now apply Hn].
  - exists (emit s [TFlush]), (inr q). split; [reflexivity|]. exists sh. split; [exact HJ|exact Hc].
Qed.
Lemma settleT p sh w s : JTS S sh w s -> tab_gcareful S I sh p s -> exists y, settle S (run_seg S p s) = Some y /\ GT w y.
Proof.
  intros HJ Hc. destruct (segT p sh w s HJ Hc) as (s' & [r|q] & -> & H); cbn [settle].
  - destruct H as [HJ' Hb']. assert (HI' : ITS S w (Running MNormal s')) by now apply JT_ITS.
    pose proof HI' as ((HC' & Ht') & (Hm & HA') & (HN' & _) & Hw'). destruct (ITS_wide S HVa Hrw _ _ _ HI') as ((_ & _ & Hlim) & _ & _).
    destruct (after_safe S HE s' r w HC' Hlim Ht') as (x' & Hx & HS'). rewrite Hx. exists (ISess x'). split; [reflexivity|].
    pose proof (after_ref S (Some (s', r)) x' (Some (abs s', r))) as Ha. rewrite Hx in Ha. specialize (Ha ltac:(intros ? ? [= <- <-]; reflexivity) eq_refl).
    split; [exact HS'|]. split; [|split; [|exact Hw']].
    + cbn [aafter] in Ha. destruct r; injection Ha as <-; try exact HA'. split; [exact Logic.I|exact HA'].
    + eapply TS_after; [|exact Ha]. intros a r0 [= <- <-]. exact HN'.
  - exists (IUser q s'). split; [reflexivity|exact H].
Qed.
Lemma JT_clip w s c : JT S w s -> ordinary_clip E c -> JT S w (set_clip s c).
Proof.
  intros (H1 & H2 & H3 & (N1 & N2 & N3 & N4 & N5 & N6 & N7) & H5) Hc. split; [exact H1|]. split; [exact H2|]. split; [exact H3|]. split; [|exact H5].
  split; [exact N1|]. split; [exact N2|]. split; [exact N3|]. split; [exact N4|]. split; [exact N5|]. split; [|exact N7].
  cbn. intros t ->. apply ordinary_sh. now apply Hc.
Qed.
Lemma istepT w e y : GT w y -> ordinary_there S U I e y -> exists y' w', istep S U e y = Some y' /\ GT w' y'.
Proof.
  intros HI He. destruct y as [x|q s]; cbn [ordinary_there istep] in *.
  - destruct He as (He & Hsh & Hk).
    assert (G : (no_swap_at_end S e x /\ careful_there S e x) -> exists y' w', (let* x' := step S e x in Some (@ISess Q x')) = Some y' /\ GT w' y').
    { intros [H1 H2]. destruct (stepT_keep S HVe HVa Hpred Hhist HE Hrw w e x HI) as (x' & w' & -> & H').
      - apply ordinary_fine; try assumption. intros k s f Hk' Hx Hl. destruct (H2 k s f Hk' Hx Hl) as (p & Hf & Hp).
        now apply (careful_survives S HVe HVa Hpred Hhist HE Hrw f p).
      - exists (ISess x'), w'. split; [reflexivity|exact H']. }
    assert (G0 : (forall k s, e = EKey k -> x = Running MNormal s -> False) -> no_swap_at_end S e x /\ careful_there S e x).
    { intros Hn. split; [intros k s -> ->; now destruct (Hn k s)|intros k s f -> ->; now destruct (Hn k s)]. }
    destruct e as [k| |w0|c]; try (apply G, G0; intros; discriminate).
    destruct x as [[| |ss] s|s t r]; try (apply G, G0; intros; discriminate).
    destruct (bound U k) as [p|] eqn:Hk'; [|now apply G].
    destruct (settleT p true w (emit s [TCursorOff])) as (y & Hy & HG); [|exact Hk|exists y, w; auto].
    apply ITS_JT in HI as [HJ Hi]. split; [exact HJ|]. intros _. exact Hi.
  - destruct HI as (sh & HJ & Hq). destruct e as [k| |w0|c].
    + destruct (settleT (resume U q (Some k)) sh w s HJ) as (y & Hy & HG); [|exists y, w; auto]. apply He; [exact Hq|apply HJ].
    + destruct (settleT (resume U q None) sh w s HJ) as (y & Hy & HG); [|exists y, w; auto]. apply He; [exact Hq|apply HJ].
    + exists (IUser q s), w. split; [reflexivity|]. exists sh. auto.
    + exists (IUser q (set_clip s c)), w. split; [reflexivity|]. exists sh. split; [|exact Hq].
      destruct HJ as [HJ Hsh]. split; [now apply JT_clip|exact Hsh].
Qed.
Lemma irunT es : forall w y, (forall es1 e es2 z, es = es1 ++ e :: es2 -> irun S U es1 y = Some z -> ordinary_there S U I e z) ->
  GT w y -> exists y' w', irun S U es y = Some y' /\ GT w' y'.
Proof.
  induction es as [|e es IH]; intros w y Hf HI; cbn [irun]; [eauto|].
  destruct (istepT w e y HI (Hf [] e es y eq_refl eq_refl)) as (y1 & w1 & Hst & HI1).
  rewrite Hst. apply (IH w1); [|exact HI1]. intros es1 e1 es2 z -> Hz. apply (Hf (e :: es1) e1 es2 z eq_refl). cbn [irun]. now rewrite Hst.
Qed.
End WithSess.

Lemma interactive_tabs_safe S Q (U : programs Q) I default cur w cl es : ordinary_sources S ->
  ordinary_text (cE (base S)) default -> ordinary_clip (cE (base S)) cl ->
  (forall es1 e es2 y, es = es1 ++ e :: es2 -> ireadline S U default cur w cl es1 = Some y -> ordinary_there S U I e y) ->
  0 <= cur -> prompt_width (base S) + 11 < w ->
  exists y, ireadline S U default cur w cl es = Some y /\ match y with ISess x => in_bounds (buf_of x) | IUser _ _ => True end.
Proof.
  intros (H2 & H3 & H4 & H5 & H6 & H7) Hd Hcl Hok Hc Hw.
  assert (P1 : joinlike (cE (base S)) RuneError = false) by now rewrite <- joins_like.
  assert (P2 : forall r, 32 <= r < 127 -> joinlike (cE (base S)) r = false) by (intros r Hr; rewrite <- joins_like; now apply H5).
  assert (P3 : pcolor0 (base S) = [] \/ forall t c, sh S (predictor (base S) t c)) by (destruct H6 as [H6|H6]; [now left|right; intros t c; now apply ordinary_sh]).
  assert (P4 : Forall (sh S) (hist (base S))) by (eapply Forall_impl; [|exact H7]; apply ordinary_sh).
  destruct (startT S P2 P3 H2 H3 default cur w cl Hc) as (x & Hx & HS).
  - unfold prompt_width, PW in *. lia.
  - now apply ordinary_sh.
  - destruct cl; [|exact Logic.I]. now apply ordinary_sh, Hcl.
  - unfold ireadline in *. rewrite Hx in *.
    destruct (irunT S P1 P2 P3 P4 H2 H3 U I es w (ISess x)) as (y & w2 & Hy & HG); [exact Hok|exact HS|].
    exists y. split; [exact Hy|]. destruct y as [x2|q s]; [|exact Logic.I]. destruct HG as (HG & _). destruct x2; apply HG.
Qed.
