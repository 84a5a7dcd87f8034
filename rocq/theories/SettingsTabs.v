(** Settings that change, in lines with tabs. *)
From Verif Require Import Base Utf8 Moji Color Prompt Buffer Commands KeyMap Session MojiFacts Abs AbsRef AbsSess
  AbsSafe AbsInv Safe SafeSess Plain Tabs Spec Reach SafetyFacts SpecTabs TabsFacts Script SpecScript SpecTabScript TabScript
  SpecIndep Settings SpecSettings SettingsFacts.
Ltac lia := unfold rune in *; Lia.lia.

Section Change.
Variables S1 S2 : scfg.
Hypothesis HF : may_follow S1 S2.

Lemma sr_same r : sr S1 r -> sr S2 r.
Proof. unfold sr. now rewrite (join_same S1 S2 HF). Qed.
Lemma sh_same t : sh S1 t -> sh S2 t.
Proof. intros [H1 H2]. split; [|exact H2]. eapply Forall_impl; [|exact H1]. exact sr_same. Qed.
Lemma sm_same m : sm S1 m -> sm S2 m.
Proof. intros (r & -> & H1 & H2). exists r. rewrite (moji_same S1 S2 HF). split; [reflexivity|]. split; [now apply sr_same|exact H2]. Qed.
Lemma TA_same n a : TA S1 n a -> TA S2 n a.
Proof.
  intros (H1 & H2 & H3 & H4 & H5 & H6 & H7 & H8). split; [eapply Forall_impl; [|exact H1]; exact sm_same|]. split; [exact H2|].
  split; [eapply Forall_impl; [|exact H3]; intros u; apply sh_same|]. split; [exact H4|].
  split; [intros k t Hk; eapply sh_same, H5; exact Hk|]. split; [intros t Ht; now apply sh_same, H6|].
  split; [eapply Forall_impl; [|exact H7]; exact sm_same|exact H8].
Qed.
Lemma TS_same x : TS S1 x -> TS S2 x.
Proof.
  destruct x as [m a|a t r]; [|apply TA_same]. intros [H1 H2]. split; [now apply TA_same|]. destruct m as [| |ss]; try exact I.
  destruct H2 as [(rs & E1 & E2 & E3) H2]. split; [|now apply sh_same]. exists rs. split; [exact E1|]. split; [|exact E3].
  eapply Forall_impl; [|exact E2]. intros r [K1 K2]. split; [now apply sr_same|exact K2].
Qed.
Lemma sInv_same x : sInv S1 x -> sInv S2 x.
Proof.
  destruct x as [m s|s t r]; cbn [sInv]; [|now apply (AInv_same S1 S2 HF)]. intros [Hm HA]. split; [|now apply (AInv_same S1 S2 HF)].
  destruct m as [| |ss]; try exact I. destruct Hm as [[Hz Hp]|Hp].
  - left. split; [|exact Hp]. destruct (hist (base S1)) as [|h0 h1] eqn:Hh; [|rewrite zlen_cons in Hz; pose proof (zlen_nonneg h1); lia].
    now rewrite (mf_empty _ _ HF Hh).
  - right. pose proof (hist_longer S1 S2 HF). lia.
Qed.
Lemma ITS_same w x : ITS S1 w x -> ITS S2 w x.
Proof.
  intros (H1 & H2 & H3 & H4). split; [now apply (SC_same S1 S2 HF)|]. split; [now apply sInv_same|]. split; [now apply TS_same|].
  now rewrite <- (PW_same S1 S2 HF).
Qed.
End Change.

Definition tab_setting (T : scfg) (e : event) (x : sess) : Prop :=
  ordinary_event T e /\ short_line x /\ no_swap_at_end T e x /\ careful_there T e x.
Lemma tab_setting_step S w e x : ordinary_sources S -> ITS S w x -> tab_setting S e x -> exists x' w', step S e x = Some x' /\ ITS S w' x'.
Proof.
  intros (H2 & H3 & H4 & H5 & H6 & H7) HI (K0 & K1 & K2 & K3).
  assert (P1 : joinlike (cE (base S)) RuneError = false) by now rewrite <- joins_like.
  assert (P2 : forall r, 32 <= r < 127 -> joinlike (cE (base S)) r = false) by (intros r Hr; rewrite <- joins_like; now apply H5).
  assert (P3 : pcolor0 (base S) = [] \/ forall t c, sh S (predictor (base S) t c)) by (destruct H6 as [H6|H6]; [now left|right; intros t c; now apply ordinary_sh]).
  assert (P4 : Forall (sh S) (hist (base S))) by (eapply Forall_impl; [|exact H7]; apply ordinary_sh).
  apply (stepT_keep S P1 P2 P3 P4 H2 H3 w e x HI). apply ordinary_fine; try assumption.
  intros k s f Hk Hy Hl. destruct (K3 k s f Hk Hy Hl) as (p & Hf & Hp). now apply (careful_survives S P1 P2 P3 P4 H2 H3 f p).
Qed.
Lemma tab_settings_run ses : forall S w x, ITS S w x -> each_follows S ses -> Forall (fun p => ordinary_sources (fst p)) ses ->
  (forall ses1 T e ses2 y, ses = ses1 ++ (T, e) :: ses2 -> run_settings ses1 x = Some y -> tab_setting T e y) ->
  exists x' S' w', run_settings ses x = Some x' /\ ITS S' w' x'.
Proof.
  induction ses as [|[T e] ses IH]; intros S w x HI HF HC Hev; cbn [run_settings]; [exists x, S, w; auto|].
  destruct HF as [HF HF']. apply Forall_cons_iff in HC as [HC HC']. cbn [fst] in HC.
  destruct (tab_setting_step T w e x HC (ITS_same S T HF w x HI) (Hev [] T e ses x eq_refl eq_refl)) as (x1 & w1 & Hs & HI1).
  rewrite Hs. apply (IH T w1 x1 HI1 HF' HC'). intros ses1 T1 e1 ses2 y -> Hy. apply (Hev ((T, e) :: ses1) T1 e1 ses2 y eq_refl).
  cbn [run_settings]. now rewrite Hs.
Qed.
Lemma tab_settings_safe S default cur w cl ses : ordinary_sources S -> Forall (fun p => ordinary_sources (fst p)) ses -> each_follows S ses ->
  ordinary_text (cE (base S)) default -> ordinary_clip (cE (base S)) cl ->
  (forall ses1 T e ses2 x, ses = ses1 ++ (T, e) :: ses2 -> readline_settings S default cur w cl ses1 = Some x ->
     ordinary_event T e /\ short_line x /\ no_swap_at_end T e x /\ careful_there T e x) ->
  0 <= cur -> prompt_width (base S) + 11 < w ->
  exists x, readline_settings S default cur w cl ses = Some x /\ in_bounds (buf_of x).
Proof.
  intros HS HC HF Hd Hcl Hev Hc Hw. pose proof HS as (H2 & H3 & H4 & H5 & H6 & H7).
  assert (P2 : forall r, 32 <= r < 127 -> joinlike (cE (base S)) r = false) by (intros r Hr; rewrite <- joins_like; now apply H5).
  assert (P3 : pcolor0 (base S) = [] \/ forall t c, sh S (predictor (base S) t c)) by (destruct H6 as [H6|H6]; [now left|right; intros t c; now apply ordinary_sh]).
  destruct (startT S P2 P3 H2 H3 default cur w cl) as (x & Hx & HI); auto.
  - unfold prompt_width, PW in *. lia.
  - now apply ordinary_sh.
  - destruct cl; [|exact I]. now apply ordinary_sh, Hcl.
  - unfold readline_settings in *. rewrite Hx in *.
    destruct (tab_settings_run ses S w x HI HF HC Hev) as (x' & S' & w2 & Hr & HI'). exists x'. split; [exact Hr|].
    destruct HI' as (HI' & _). destruct x'; apply HI'.
Qed.
