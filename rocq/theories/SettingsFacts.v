(** Settings that change keep the session going. *)
From Verif Require Import Base Utf8 Moji Color Prompt Buffer Commands KeyMap Session MojiFacts Abs AbsRef AbsSess
  AbsSafe AbsInv Safe SafeSess Plain Spec Reach SafetyFacts SpecComp CompSafe CompProps Script SpecScript ScriptFacts
  SpecIndep IndepFacts Settings SpecSettings.
Ltac lia := unfold rune in *; Lia.lia.

Section Change.
Variables S1 S2 : scfg.
Notation E1 := (cE (base S1)).
Notation E2 := (cE (base S2)).
Hypothesis HF : may_follow S1 S2.

Lemma zwj_same r : isZeroWidthJoin E1 r = isZeroWidthJoin E2 r.
Proof. unfold isZeroWidthJoin. now rewrite (mf_zwj _ _ HF). Qed.
Lemma vs_same r : isVariationSelectorLike E1 r = isVariationSelectorLike E2 r.
Proof. unfold isVariationSelectorLike. now rewrite (mf_vs _ _ HF), (mf_vsme _ _ HF). Qed.
Lemma mod_same r : isEmojiModifier E1 r = isEmojiModifier E2 r.
Proof. unfold isEmojiModifier. now rewrite (mf_mod _ _ HF). Qed.
Lemma esc_same r : isToBeEscaped E1 r = isToBeEscaped E2 r.
Proof.
  unfold isToBeEscaped. rewrite vs_same, (mf_sur _ _ HF). f_equal. apply Bool.eq_true_iff_eq. rewrite !Z.eqb_eq. apply (mf_zero _ _ HF).
Qed.
Lemma moji_same r p : rune2moji E1 r p = rune2moji E2 r p.
Proof. unfold rune2moji. now rewrite (mf_amb _ _ HF), esc_same. Qed.
Lemma join_same r : joinlike E1 r = joinlike E2 r.
Proof. unfold joinlike. now rewrite zwj_same, vs_same, mod_same. Qed.
Lemma units_from_same rs : forall last, units_from E1 last rs = units_from E2 last rs.
Proof.
  induction rs as [|r|r n rs IH1 IH2] using rune_list_ind; intros [m|]; try reflexivity.
  - rewrite !units_some1. now rewrite zwj_same, vs_same, mod_same, moji_same.
  - rewrite !units_none. now rewrite moji_same.
  - rewrite !units_some2. now rewrite zwj_same, vs_same, mod_same, moji_same, IH1, !IH2.
  - rewrite !units_none. now rewrite moji_same, IH2.
Qed.
Lemma units_same t : units E1 t = units E2 t.
Proof. apply units_from_same. Qed.
Lemma self_same m : self E1 m -> self E2 m.
Proof. intros [H1 H2]. split; [exact H1|]. now rewrite <- units_from_same. Qed.
Lemma undo1_same u l : undo1 E1 u l = undo1 E2 u l.
Proof. unfold undo1. destruct (if 0 <? u_del u then _ else _); [|reflexivity]. destruct (u_text u); [reflexivity|]. now rewrite units_same. Qed.
Lemma undo_same st : forall l, undo_ok E1 l st -> undo_ok E2 l st.
Proof.
  induction st as [|u st IH]; intros l H; [exact H|]. destruct H as (l' & H1 & H2 & H3). exists l'. rewrite <- undo1_same.
  split; [exact H1|]. split; [exact H2|]. now apply IH.
Qed.
Lemma hist_longer : zlen (hist (base S1)) <= zlen (hist (base S2)).
Proof. destruct (mf_hist _ _ HF) as [more ->]. rewrite zlen_app. pose proof (zlen_nonneg more). lia. Qed.
Lemma AInv_same a : AInv (base S1) a -> AInv (base S2) a.
Proof.
  intros ((H1 & H2 & H3) & H4). pose proof hist_longer. split; [|exact H4]. split; [eapply Forall_impl; [|exact H1]; exact self_same|].
  split; [lia|]. now apply undo_same.
Qed.
Lemma plain_rune_same r : plain_rune S1 r -> plain_rune S2 r.
Proof. unfold plain_rune. now rewrite join_same. Qed.
Lemma plain_same t : plain S1 t -> plain S2 t.
Proof. unfold plain, all_runes. intros H. eapply Forall_impl; [|exact H]. exact plain_rune_same. Qed.
Lemma pm_same m : pm S1 m -> pm S2 m.
Proof. intros (r & H1 & H2 & H3). exists r. rewrite <- moji_same. split; [exact H1|]. split; [now apply plain_rune_same|exact H3]. Qed.
Lemma NA_same a : NA S1 a -> NA S2 a.
Proof.
  intros (H1 & H2 & H3 & H4 & H5 & H6). split; [eapply Forall_impl; [|exact H1]; exact pm_same|].
  split; [eapply Forall_impl; [|exact H2]; intros u; apply plain_same|]. split; [exact H3|].
  split; [intros k t Hk; eapply plain_same, H4; exact Hk|]. split; [intros t Ht; now apply plain_same, H5|].
  eapply Forall_impl; [|exact H6]. exact pm_same.
Qed.
Lemma PW_same : PW (base S1) = PW (base S2).
Proof. exact (mf_prompt _ _ HF). Qed.
Lemma SC_same w x : SC S1 w x -> SC S2 w x.
Proof.
  assert (G : forall s, CInv (base S1) s -> CInv (base S2) s).
  { intros s ((H1 & H2) & H3). split; [|exact H3]. split; [exact H1|]. now rewrite <- PW_same. }
  destruct x as [m s|s t r]; intros [H1 H2]; (split; [now apply G|exact H2]).
Qed.
Lemma IS_same w x : IS S1 w x -> IS S2 w x.
Proof.
  intros (H1 & H2 & H3 & H4). split; [now apply SC_same|]. split; [|split; [|now rewrite <- PW_same]].
  - destruct x as [m s|s t r]; cbn [abss sInv] in *; [|now apply AInv_same]. destruct H2 as [Hm HA]. split; [|now apply AInv_same].
    destruct m as [| |ss]; try exact I. destruct Hm as [[Hz Hp]|Hp].
    + left. split; [|exact Hp]. destruct (hist (base S1)) as [|h0 h1] eqn:Hh; [|rewrite zlen_cons in Hz; pose proof (zlen_nonneg h1); lia].
      now rewrite (mf_empty _ _ HF Hh).
    + right. pose proof hist_longer. lia.
  - destruct x as [m s|s t r]; cbn [abss NS] in *; [|now apply NA_same]. destruct H3 as [HN Hm]. split; [now apply NA_same|].
    destruct m as [| |ss]; try exact I. destruct Hm as [Ha Hb]. split; [exact Ha|now apply plain_same].
Qed.
End Change.

Lemma careful_step S w e x : careful_editor S -> IS S w x -> simple_or_command S e x -> exists x' w', step S e x = Some x' /\ IS S w' x'.
Proof.
  intros (HU & HE & Hrw & H4 & H5 & H6 & H7) HI Hev.
  assert (Hpred : pcolor0 (base S) = [] \/ forall t c, plain S (predictor (base S) t c)) by (destruct H6 as [H6|H6]; [now left|right; intros t c; now apply simple_plain]).
  assert (Hhist : Forall (plain S) (hist (base S))) by (eapply Forall_impl; [|exact H7]; apply simple_plain).
  assert (HV34 : plain_rune S 34) by (split; [lia|]; now rewrite <- joins_like).
  assert (HVe : joinlike (cE (base S)) RuneError = false) by now rewrite <- joins_like.
  assert (Huser : forall k f, LookupCommand (kmap S) (gmap S) k = CUser f -> keeps S f).
  { intros k f Hk. destruct (HU k f Hk) as (p & Hf & Hp). eapply careful_keeps; eassumption. }
  destruct Hev as [He|(k & f & -> & Hk & Hr)]; [eapply step_keep; eauto; now apply simple_plain_event|eapply step_user; eauto].
Qed.
Lemma settings_run ses : forall S w x, IS S w x -> each_follows S ses -> Forall (fun p => careful_editor (fst p)) ses ->
  (forall ses1 T e ses2 y, ses = ses1 ++ (T, e) :: ses2 -> run_settings ses1 x = Some y -> simple_or_command T e y) ->
  exists x' S' w', run_settings ses x = Some x' /\ IS S' w' x'.
Proof.
  induction ses as [|[T e] ses IH]; intros S w x HI HF HC Hev; cbn [run_settings]; [exists x, S, w; auto|].
  destruct HF as [HF HF']. apply Forall_cons_iff in HC as [HC HC']. cbn [fst] in HC.
  destruct (careful_step T w e x HC (IS_same S T HF w x HI) (Hev [] T e ses x eq_refl eq_refl)) as (x1 & w1 & Hs & HI1).
  rewrite Hs. apply (IH T w1 x1 HI1 HF' HC'). intros ses1 T1 e1 ses2 y -> Hy. apply (Hev ((T, e) :: ses1) T1 e1 ses2 y eq_refl).
  cbn [run_settings]. now rewrite Hs.
Qed.
Lemma settings_safe S default cur w cl ses : careful_editor S -> Forall (fun p => careful_editor (fst p)) ses -> each_follows S ses ->
  simple_text (cE (base S)) default -> simple_clip (cE (base S)) cl ->
  (forall ses1 T e ses2 x, ses = ses1 ++ (T, e) :: ses2 -> readline_settings S default cur w cl ses1 = Some x -> simple_or_command T e x) ->
  0 <= cur -> prompt_width (base S) + 11 < w ->
  exists x, readline_settings S default cur w cl ses = Some x /\ in_bounds (buf_of x).
Proof.
  intros HS HC HF Hd Hcl Hev Hc Hw. pose proof HS as (HU & HE & Hrw & H4 & H5 & H6 & H7).
  assert (Hpred : pcolor0 (base S) = [] \/ forall t c, plain S (predictor (base S) t c)) by (destruct H6 as [H6|H6]; [now left|right; intros t c; now apply simple_plain]).
  assert (Hhist : Forall (plain S) (hist (base S))) by (eapply Forall_impl; [|exact H7]; apply simple_plain).
  assert (HV34 : plain_rune S 34) by (split; [lia|]; now rewrite <- joins_like).
  assert (HVe : joinlike (cE (base S)) RuneError = false) by now rewrite <- joins_like.
  assert (Huser : forall k f, LookupCommand (kmap S) (gmap S) k = CUser f -> keeps S f).
  { intros k f Hk. destruct (HU k f Hk) as (p & Hf & Hp). eapply careful_keeps; eassumption. }
  destruct (readline_keep S HVe HV34 Hpred Hhist HE Hrw Huser default cur w cl []) as (x & w' & Hx & HI); auto.
  - unfold prompt_width, PW in *. lia.
  - now apply simple_plain.
  - destruct cl; [|exact I]. now apply simple_plain, Hcl.
  - intros es1 e es2 y He. destruct es1; discriminate He.
  - unfold readline_settings in *. unfold readline in Hx. destruct (start S default cur w cl) as [x0|]; [|discriminate Hx]. injection Hx as ->.
    destruct (settings_run ses S w' x HI HF HC Hev) as (x' & S' & w2 & Hr & HI'). exists x'. split; [exact Hr|].
    destruct HI' as (HI' & _). destruct x'; apply HI'.
Qed.

(** The outcome. *)
Lemma builtin_same S1 S2 : same_but_display S1 S2 -> builtin_keys S2 -> builtin_keys S1.
Proof. intros HS HB. unfold builtin_keys in *. now rewrite (sd_kmap _ _ HS), (sd_gmap _ _ HS). Qed.
Lemma run_settings_rel S2 : builtin_keys S2 -> pcolor0 (base S2) = [] -> forall ses es2, Forall (fun p => same_but_display (fst p) S2) ses ->
  without_resizes (map snd ses) = without_resizes es2 ->
  forall x1 x2 y1 y2, srel (abss x1) (abss x2) -> run_settings ses x1 = Some y1 -> run S2 es2 x2 = Some y2 -> srel (abss y1) (abss y2).
Proof.
  intros HB2 Hoff. assert (HS2 : same_but_display S2 S2) by (constructor; auto). induction ses as [|[T e1] ses IH].
  - intros es2 _ Hw x1 x2 y1 y2 Hx H1 H2. cbn [run_settings] in H1. injection H1 as <-. symmetry in Hw. apply srel_sym.
    eapply resizes_only; [exact Hoff|exact HB2|exact Hw|exact H2|]. now apply srel_sym.
  - intros es2 HF Hw x1 x2 y1 y2 Hx H1 H2. apply Forall_cons_iff in HF as [HS HF]. cbn [map snd fst] in *.
    pose proof (builtin_same T S2 HS HB2) as HBT.
    assert (R1 : forall w, e1 = EResize w -> srel (abss y1) (abss y2)).
    { intros w ->. cbn [run_settings] in H1. destruct (step T (EResize w) x1) as [x1'|] eqn:Hs; [|discriminate].
      eapply (IH es2 HF Hw x1' x2); [|exact H1|exact H2]. apply step_ref in Hs as [b Hb]; [|exact HBT]. eapply astep_resize; eauto. }
    destruct (match e1 with EResize _ => true | _ => false end) eqn:He1; [destruct e1; try discriminate; now eapply R1|]. clear R1.
    revert x2 Hx H2. induction es2 as [|e2 es2 IH2]; intros x2 Hx H2; [destruct e1; discriminate|].
    destruct (match e2 with EResize _ => true | _ => false end) eqn:He2.
    + destruct e2 as [| |w|]; try discriminate. cbn [run] in H2. destruct (step S2 (EResize w) x2) as [x2'|] eqn:Hs; [|discriminate].
      apply (IH2 Hw x2'); [|exact H2]. apply step_ref in Hs as [b Hb]; [|exact HB2]. apply srel_sym.
      eapply astep_resize; [exact HS2|apply srel_sym, Hx|exact Hb].
    + assert (He : e1 = e2 /\ without_resizes (map snd ses) = without_resizes es2).
      { clear -Hw He1 He2. unfold without_resizes in *. cbn [filter] in Hw. destruct e1, e2; try discriminate; injection Hw; intros; split; congruence. }
      destruct He as [<- Hw']. cbn [run run_settings] in H1, H2. destruct (step T e1 x1) as [x1'|] eqn:Hs1; [|discriminate]. destruct (step S2 e1 x2) as [x2'|] eqn:Hs2; [|discriminate].
      eapply (IH es2 HF Hw' x1' x2'); [|exact H1|exact H2]. apply step_ref in Hs1 as [b1 Hb1]; [|exact HBT]. apply step_ref in Hs2 as [b2 Hb2]; [|exact HB2].
      pose proof (astep_rel _ _ HS b1 b2 e1 _ _ Hx) as G. rewrite Hb1, Hb2 in G. exact G.
Qed.
Lemma settings_told S S2 default cur cl w w2 ses es x1 x2 : only_builtin S2 -> same_but_display S S2 ->
  Forall (fun p => same_but_display (fst p) S2) ses -> without_resizes (map snd ses) = without_resizes es ->
  readline_settings S default cur w cl ses = Some x1 -> readline S2 default cur w2 cl es = Some x2 -> told x1 = told x2.
Proof.
  intros HB HS HF Hw H1 H2. unfold readline_settings, readline in *.
  destruct (start S default cur w cl) as [z1|] eqn:Hs1; [|discriminate].
  destruct (start S2 default cur w2 cl) as [z2|] eqn:Hs2; [|discriminate]. apply told_srel.
  eapply run_settings_rel; [now apply only_builtin_keys|exact (sd_off2 _ _ HS)|exact HF|exact Hw| |exact H1|exact H2].
  apply start_ref in Hs1, Hs2. rewrite Hs1, Hs2. now apply start_rel.
Qed.
