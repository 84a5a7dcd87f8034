(** Every command keeps the screen right. *)
From Verif Require Import Base Utf8 Moji Color Prompt Buffer Commands KeyMap Session MojiFacts Abs AbsRef AbsSess
  AbsSafe AbsInv Safe Spec SpecScreen ScreenFacts ScreenPaint.
Ltac lia := unfold rune in *; Lia.lia.

Section Screen.
Variable C : cfg.
Notation E := (cE C).
Hypothesis HE : env_ok E.
Hypothesis HP : pcolor0 C = [] \/ forall t c, nt (StringToMoji E (predictor C t c)).
Variable other : terminal.
Notation D := (display E other).
Notation W := (total_width E).
Notation ok := (Forall (fun m => 0 <= width E m)).
Notation shown := (shown E).
Notation inside := (inside E other).
Notation pw := (snd (callPromptWriter E (prompt C))).

(** The cursor is inside the visible part. *)
Definition Wv (s : buf) : Prop := W (part (line s) (view s) (cursor s)) < ViewWidth s.
(** The state is such that painting it fits the row. *)
Definition G (s : buf) : Prop :=
  nt (line s) /\ topc s = pw /\ wide C s /\ 0 <= view s <= cursor s /\ cursor s <= zlen (line s) /\
  nt (suflist (suffix s)) /\ Wv s.

Lemma G_view s : nt (line s) -> topc s = pw -> wide C s -> 0 < ViewWidth s /\ Forall (fun c => width E (c_moji c) < ViewWidth s) (cells s).
Proof. intros H1 H2 H3. apply (wide_cells C HE); [|exact H3]. split; [apply nt_cok; exact H1|]. unfold PW. lia. Qed.
Lemma zlen_line s : zlen (line s) = zlen (cells s). Proof. apply zlen_map. Qed.
Lemma VW_lim s : topc s + ViewWidth s = termw s - 3.
Proof. unfold ViewWidth, forbiddenWidth. lia. Qed.

(** [s'] is painted on whatever there was, or on a screen showing [s]. *)
Definition R0 (lim : Z) (s s' : buf) : Prop :=
  forall sc, exists ts, out s' = out s ++ ts /\ shown s' (D ts sc) /\ inside lim sc ts.
Definition R (lim : Z) (s s' : buf) : Prop :=
  forall sc, shown s sc -> exists ts, out s' = out s ++ ts /\ shown s' (D ts sc) /\ inside lim sc ts.
(** The part of [shown] that does not say how much of the line there is. *)
Definition some (s : buf) (sc : screen) : Prop := exists k pred,
  cursor s <= k <= zlen (line s) /\ ok pred /\
  (forall x, topc s <= x -> row sc x = image E (topc s) (part (line s) (view s) k ++ pred) x) /\
  col sc = topc s + W (part (line s) (view s) (cursor s)).
Definition used (s : buf) (v k : Z) : Prop := k = zlen (line s) \/ ViewWidth s <= W (part (line s) v (k + 1)) + 2.
Lemma R0_R lim s s' : R0 lim s s' -> R lim s s'.
Proof. intros H sc _. apply H. Qed.
Lemma R0_pre lim s0 s s' ts : out s = out s0 ++ ts -> (forall m, ~ In (TMoji m) ts) -> R0 lim s s' -> R0 lim s0 s'.
Proof.
  intros Ho Hts H sc. destruct (H (D ts sc)) as (t1 & H1 & H2 & H3). exists (ts ++ t1). split; [rewrite H1, Ho; now rewrite app_assoc|].
  split; [now rewrite D_app|]. apply inside_app; [|exact H3]. intros a m b Hx. exfalso. apply (Hts m). rewrite Hx. apply in_or_app. right. now left.
Qed.
Lemma R0_same lim s0 s s' : out s = out s0 -> R0 lim s s' -> R0 lim s0 s'.
Proof. intros H. apply (R0_pre lim s0 s s' []); [now rewrite app_nil_r|auto]. Qed.
Lemma R_trans lim s s1 s2 : R lim s s1 -> R lim s1 s2 -> R lim s s2.
Proof.
  intros H1 H2 sc Hs. destruct (H1 sc Hs) as (t1 & O1 & S1 & I1). destruct (H2 _ S1) as (t2 & O2 & S2 & I2).
  exists (t1 ++ t2). split; [rewrite O2, O1; now rewrite app_assoc|]. split; [now rewrite D_app|]. now apply inside_app.
Qed.
Lemma R_emits lim s s' vs sc : emits s s' vs -> shown s' (D vs sc) /\ inside lim sc vs ->
  exists ts, out s' = out s ++ ts /\ shown s' (D ts sc) /\ inside lim sc ts.
Proof. intros (ts & H1 & <-) [H2 H3]. exists ts. split; [exact H1|]. rewrite D_vis in H2. split; [exact H2|]. now apply inside_vis. Qed.
(** Fields the screen does not depend on. *)
Lemma shown_same s s' sc : line s' = line s -> view s' = view s -> cursor s' = cursor s -> topc s' = topc s -> termw s' = termw s -> suffix s' = suffix s ->
  shown s sc -> shown s' sc.
Proof.
  intros H1 H2 H3 H4 H5 H6 (k & pred & Hs). exists k, pred. unfold shows, ViewWidth in *. rewrite H1, H2, H3, H4, H5, H6. exact Hs.
Qed.

(** ** repaint *)
Lemma repaintW_screen s s' : nt (line s) -> 0 < ViewWidth s -> Wv s -> nt (suflist (suffix s)) ->
  repaintWithoutUpdateSuffix C s = Some s' -> R0 (termw s - 3) s s'.
Proof.
  intros Hn Hv Hw Hsuf H. pose proof (repaintW_paints C s s' H) as Hp. unfold repaintWithoutUpdateSuffix in H.
  destruct (getView2 C s) as [[e w]|] eqn:Hg; [|discriminate]. apply (getView2_emits C HE) in Hg as (Hw1 & Hw2 & He1 & He2 & Hcu & Hmax); auto.
  destruct (puts C (GotoHead s) (view (GotoHead s)) e) as [s2|] eqn:Hp1; [|discriminate].
  pose proof (paints_fields _ _ (puts_paints C _ _ _ _ Hp1)) as (F1 & F2 & F3 & F4 & F5 & F6 & F7 & _).
  apply puts_emits in Hp1 as (Em1 & _); [|exact Hn].
  set (o3 := match pcolor0 C, suffix s2 with _ :: _, Some (_ :: _) => _ | _, _ => _ end) in H. destruct o3 as [s3|] eqn:Ho3; [|discriminate]. subst o3.
  assert (G3 : exists pred, paints s2 s3 /\ emits s2 s3 (tm pred) /\ (pred = [] \/ cursor s = zlen (line s) /\ exists rest, suffix s = Some (pred ++ rest)) /\ w + W pred < ViewWidth s).
  { assert (Gn : s3 = s2 -> exists pred, paints s2 s3 /\ emits s2 s3 (tm pred) /\ (pred = [] \/ cursor s = zlen (line s) /\ exists rest, suffix s = Some (pred ++ rest)) /\ w + W pred < ViewWidth s).
    { intros ->. exists []. split; [apply paints_refl|]. split; [now apply emits_same|]. split; [now left|]. rewrite W_nil. lia. }
    destruct (pcolor0 C) as [|c0 p0] eqn:Hp0; [apply Gn; congruence|]. destruct (suffix s2) as [[|m0 l0]|] eqn:Hsx; [apply Gn; congruence| |apply Gn; congruence].
    destruct (paint_suffix C (ViewWidth s2) w (Suffix C s2)) as [ts|] eqn:Hps; [|discriminate]. injection Ho3 as <-.
    assert (Hvw : ViewWidth s2 = ViewWidth s) by (unfold ViewWidth; rewrite F6, F7; reflexivity). rewrite Hvw in Hps.
    apply paint_suffix_emits in Hps as (p & r & Hpr & -> & Hww); [|exact Hw2]. exists p. split; [apply paints_emit|]. split; [|split; [|exact Hww]].
    - eexists. split; [reflexivity|]. change (TAttr (c0 :: p0) :: tm p ++ [TAttr (pcolor1 C)]) with ([TAttr (c0 :: p0)] ++ tm p ++ [TAttr (pcolor1 C)]).
      rewrite !vis_app, vis_tm. cbn. now rewrite app_nil_r.
    - unfold Suffix in Hpr. rewrite Hp0, Hsx in Hpr. rewrite F5, F2 in Hpr. cbn [cursor GotoHead emit cells] in Hpr. rewrite zlen_line.
      destruct (cursor s =? zlen (cells s)) eqn:Hce.
      + right. split; [lia|]. exists r. change (suffix s) with (suffix (GotoHead s)). rewrite <- F3. now rewrite Hpr.
      + left. symmetry in Hpr. now apply app_eq_nil in Hpr as [-> _]. }
  destruct G3 as (pred & Pa3 & Em3 & Hpred & Hww).
  pose proof (paints_fields _ _ Pa3) as (K1 & K2 & K3 & K4 & K5 & K6 & K7 & _).
  assert (L3 : line (GotoHead (eraseline s3)) = line s) by (unfold line in *; exact (eq_trans K1 F1)).
  pose proof (paints_fields _ _ Hp) as (P1 & P2 & P3 & P4 & P5 & P6 & P7 & _).
  apply puts_emits in H as (Em4 & Hb4 & _); [|rewrite L3; exact Hn]. rewrite L3 in Em4.
  cbn [view cursor GotoHead eraseline emit] in Em4, Hb4. rewrite K4, K5, F4, F5 in Em4. cbn [view cursor GotoHead emit] in Em4.
  assert (Hce : cursor s <= e) by (apply Hmax; [lia|exact Hw]).
  set (a := part (line s) (view s) (cursor s)) in *. set (b := part (line s) (cursor s) e ++ pred).
  assert (Hab : part (line s) (view s) e ++ pred = a ++ b) by (unfold a, b; rewrite app_assoc, <- part_split by lia; reflexivity).
  assert (Em : emits s s' (([TGoto (topc s + 1)] ++ tm (a ++ b) ++ [TErase]) ++ [TGoto (topc s + 1)] ++ tm a)).
  { rewrite <- Hab. replace (tm (part (line s) (view s) e ++ pred)) with (tm (part (line s) (view s) e) ++ tm pred) by (unfold tm; now rewrite map_app).
    rewrite <- !app_assoc.
    eapply emits_trans; [apply (emits_emit s [TGoto (topc s + 1)])|]. eapply emits_trans; [exact Em1|]. eapply emits_trans; [exact Em3|].
    change ([TErase] ++ [TGoto (topc s + 1)] ++ tm a) with ([TErase; TGoto (topc s + 1)] ++ tm a).
    eapply emits_trans; [|exact Em4]. exists [TErase; TGoto (topc s3 + 1)]. split; [cbn; now rewrite <- app_assoc|]. cbn. rewrite K7, F7. reflexivity. }
  intros sc. apply (R_emits _ _ _ _ _ Em).
  assert (Hok1 : ok (a ++ b)).
  { rewrite <- Hab. apply Forall_app. split; [now apply (nt_ok C HE), nt_part|]. destruct Hpred as [-> |(_ & rest & Hr)]; [constructor|].
    apply (nt_ok C HE). rewrite Hr in Hsuf. cbn [suflist] in Hsuf. now apply Forall_app in Hsuf. }
  assert (HW1 : W (a ++ b) < ViewWidth s) by (rewrite <- Hab, W_app, <- Hw1; exact Hww).
  destruct (screen_repaint E other (topc s) a b sc (termw s - 3) Hok1) as (S1 & S2 & S3); [pose proof (VW_lim s); lia|].
  split; [|exact S3]. assert (PL : line s' = line s) by exact P1. exists e, pred. unfold shows. rewrite P3, P4, P5, P7. unfold ViewWidth. rewrite P6, P7, PL, Hab. repeat split; auto; try lia.
  - destruct Hpred as [Hpred|(Hz & Hr)]; [now left|]. right. repeat split; auto. lia.
  - destruct (Z.eq_dec e (zlen (line s))) as [He|He]; [now left|right]. fold (ViewWidth s). destruct (Z_lt_dec (W (part (line s) (view s) (e + 1))) (ViewWidth s)) as [Hlt|Hge]; [|lia].
    specialize (Hmax (e + 1) ltac:(lia) Hlt). lia.
Qed.

(** Painted from any screen ([Q0]) or from a right one ([Q]), and ready for the next command. *)
Definition Q0 (s s' : buf) : Prop := R0 (termw s - 3) s s' /\ G s' /\ termw s' = termw s.
Definition Q (s s' : buf) : Prop := R (termw s - 3) s s' /\ G s' /\ termw s' = termw s.
Lemma Q0_Q s s' : Q0 s s' -> Q s s'.
Proof. intros (H1 & H2). split; [now apply R0_R|exact H2]. Qed.
Lemma Q0_pre s0 s s' ts : out s = out s0 ++ ts -> termw s = termw s0 -> (forall m, ~ In (TMoji m) ts) -> Q0 s s' -> Q0 s0 s'.
Proof. intros H1 H2 H3 (H4 & H5 & H6). split; [rewrite <- H2; eapply R0_pre; eauto|]. split; [exact H5|congruence]. Qed.
Lemma Q0_same s0 s s' : out s = out s0 -> termw s = termw s0 -> Q0 s s' -> Q0 s0 s'.
Proof. intros H1 H2. apply (Q0_pre s0 s s' []); [now rewrite app_nil_r|exact H2|auto]. Qed.
Lemma Q_trans s s1 s2 : Q s s1 -> Q s1 s2 -> Q s s2.
Proof. intros (H1 & H2 & H3) (H4 & H5 & H6). rewrite H3 in H4. split; [eapply R_trans; eauto|]. split; [exact H5|congruence]. Qed.
Lemma Q_refl s : G s -> Q s s.
Proof. intros H. split; [|auto]. intros sc Hs. exists []. rewrite app_nil_r. split; [reflexivity|]. split; [exact Hs|apply inside_nil]. Qed.
Lemma Q_quiet s ts : G s -> vis ts = [] -> Q s (emit s ts).
Proof.
  intros H Hv. split; [|split; [exact H|reflexivity]]. intros sc Hs. exists ts. split; [reflexivity|].
  rewrite <- (D_vis C), Hv. split; [exact Hs|]. apply (inside_vis C). rewrite Hv. apply inside_nil.
Qed.

Lemma repaint_Q s s' : repaint C s = Some s' -> nt (line s') -> topc s = pw -> wide C s' -> Wv s -> nt (suflist (suffix s)) -> Q0 s s'.
Proof.
  intros H Hn Ht Hw Hv Hs. pose proof (repaint_shape C s s' H) as (l & ts & Hs' & He). unfold repaint in H. destruct (updateSuffix_fields C s) as [x Hx].
  assert (Hl : line s' = line s) by (rewrite Hs'; exact He).
  assert (Htw : termw s' = termw s) by (rewrite Hs', Hx; reflexivity).
  assert (Hw0 : wide C s) by (unfold wide, V in *; change (emojis (cells s')) with (line s') in Hw; rewrite Hl, Htw in Hw; exact Hw).
  rewrite Hl in Hn. destruct (G_view s Hn Ht Hw0) as [HV _].
  assert (Hsuf : nt (suflist (suffix (updateSuffix C s)))).
  { unfold updateSuffix. destruct HP as [Hp|Hp]; [rewrite Hp; exact Hs|]. destruct (pcolor0 C); [exact Hs|]. destruct (cells s); [constructor|apply Hp]. }
  split; [|split; [|exact Htw]].
  - replace (out s) with (out (updateSuffix C s)) by (rewrite Hx; reflexivity). apply (R0_same _ s (updateSuffix C s)); [rewrite Hx; reflexivity|].
    replace (termw s) with (termw (updateSuffix C s)) by (rewrite Hx; reflexivity).
    apply repaintW_screen; auto; rewrite Hx; auto.
  - assert (Hb : 0 <= view s <= cursor s /\ cursor s <= zlen (line s)).
    { unfold repaintWithoutUpdateSuffix in H. destruct (getView2 C (updateSuffix C s)) as [[e w]|] eqn:Hg; [|discriminate].
      rewrite Hx in Hg. apply (getView2_emits C HE) in Hg as (_ & _ & He1 & He2 & Hcu & _); [|exact Hn|exact HV]. cbn [view cursor set_suffix] in *.
      change (line (set_suffix s x)) with (line s) in *. lia. }
    assert (F : view s' = view s /\ cursor s' = cursor s /\ topc s' = topc s /\ suffix s' = suffix (updateSuffix C s)) by (rewrite Hs'; cbn; rewrite Hx; auto).
    destruct F as (F1 & F2 & F3 & F4). unfold G. unfold Wv, ViewWidth. rewrite Hl, F1, F2, F3, F4, Htw. split; [exact Hn|]. split; [exact Ht|]. split; [exact Hw|]. split; [lia|]. split; [lia|]. split; [exact Hsuf|exact Hv].
Qed.

Lemma Reset_Wv s : nt (line s) -> topc s = pw -> wide C s -> 0 <= cursor s <= zlen (line s) -> Wv (ResetViewStart C s).
Proof.
  intros Hn Ht Hw Hc. destruct (G_view s Hn Ht Hw) as [HV HF].
  destruct (ResetViewStart_spec C s) as (p & b & q & He & Hz & Hcu & Hb & Hd); [lia|exact HV|exact HF|].
  unfold Wv. change (line (ResetViewStart C s)) with (line s). change (cursor (ResetViewStart C s)) with (cursor s).
  change (ViewWidth (ResetViewStart C s)) with (ViewWidth s). rewrite <- Hz.
  assert (Hl : line s = emojis p ++ emojis b ++ emojis q) by (change (line s) with (emojis (cells s)); rewrite He; unfold emojis; now rewrite !map_app).
  assert (Hnb : nt (emojis b)) by (rewrite Hl in Hn; apply Forall_app in Hn as [_ Hn]; now apply Forall_app in Hn).
  rewrite (nt_width C b Hnb) in Hb. pose proof (zlen_nonneg p). pose proof (zlen_nonneg b).
  assert (Hle : cursor s <= zlen p + zlen b).
  { destruct Hd as [Hd|[-> Hd]]; [lia|]. assert (Hz2 : zlen (cells s) = zlen p + zlen b) by (rewrite He, app_nil_r; apply zlen_app). rewrite zlen_line in Hc. lia. }
  assert (Hp : emojis b = part (line s) (zlen p) (zlen p + zlen b)).
  { rewrite Hl. replace (zlen p) with (zlen (emojis p)) by apply zlen_emojis. replace (zlen b) with (zlen (emojis b)) by apply zlen_emojis.
    symmetry. apply part_app_mid. }
  rewrite Hp in Hb. rewrite (part_split (line s) (zlen p) (cursor s)) in Hb by lia. rewrite W_app in Hb.
  pose proof (W_nonneg E _ (nt_ok C HE _ (nt_part (line s) (cursor s) (zlen p + zlen b) Hn))). lia.
Qed.
Lemma repaint_bounds s s' : repaint C s = Some s' -> 0 <= view s <= cursor s /\ cursor s <= zlen (line s).
Proof.
  unfold repaint, repaintWithoutUpdateSuffix, getView2. destruct (updateSuffix_fields C s) as [x ->].
  destruct (getView C _) as [[e w]|]; [|discriminate]. destruct (slice _ _ _) eqn:Hs; [|discriminate].
  intros _. apply slice_some in Hs as (H1 & H2 & _). rewrite zlen_line. exact (conj H1 H2).
Qed.
Lemma reset_Q s s' : repaint C (ResetViewStart C s) = Some s' -> nt (line s') -> topc s = pw -> wide C s' ->
  nt (suflist (suffix s)) -> Q0 s s'.
Proof.
  intros H Hn Ht Hw Hs. pose proof (repaint_bounds _ _ H) as [Hc1 Hc2]. change (cursor (ResetViewStart C s)) with (cursor s) in *. change (line (ResetViewStart C s)) with (line s) in *. pose proof (repaint_shape C _ s' H) as (l & ts & Hs' & He). destruct (updateSuffix_fields C (ResetViewStart C s)) as [x Hx].
  assert (Hl : line s' = line s) by (rewrite Hs'; exact He).
  assert (Htw : termw s' = termw s) by (rewrite Hs', Hx; reflexivity).
  assert (Hw0 : wide C s) by (unfold wide, V in *; change (emojis (cells s')) with (line s') in Hw; rewrite Hl, Htw in Hw; exact Hw).
  assert (Hn0 : nt (line s)) by (rewrite <- Hl; exact Hn).
  apply (Q0_same s (ResetViewStart C s)); [reflexivity|reflexivity|]. apply repaint_Q; auto. apply Reset_Wv; auto. lia.
Qed.

(** ** Shapes of the editing steps *)
Lemma Delete_shape s pos n s1 w : Delete C s pos n = Some (s1, w) ->
  exists l us, s1 = set_undoes (set_cells s l) us /\ (0 <= pos <= zlen (line s) -> firstn (Z.to_nat pos) (line s1) = firstn (Z.to_nat pos) (line s)) /\
    (0 <= pos <= zlen (line s) -> pos <= zlen (line s1)).
Proof.
  unfold Delete. destruct ((n <=? 0) || (zlen (cells s) <? pos + n)) eqn:Hg.
  - intros H. injection H as <- _. exists (cells s), (undoes s). destruct s; cbn. repeat split; auto. lia.
  - intros H. opt H. injection H as <- _. cbn [cells push_undo set_undoes] in Ev1. eexists _, _. split; [reflexivity|].
    destruct (Z_le_dec 0 pos) as [H1|H1]; [|split; intros; lia].
    rewrite sliceDelete_firstn in Ev1 by lia. injection Ev1 as <-. cbn [line cells set_cells push_undo set_undoes].
    assert (Hz : zlen (firstn (Z.to_nat pos) (cells s)) = pos) by (unfold zlen in *; rewrite firstn_length_le; lia).
    split; intros H2.
    + unfold line. cbn [cells set_cells set_undoes]. rewrite map_app, firstn_app. rewrite <- !firstn_map.
      rewrite firstn_firstn, Nat.min_id. rewrite firstn_length_le by (rewrite map_length; unfold zlen in *; lia).
      rewrite Nat.sub_diag, firstn_O, app_nil_r. reflexivity.
    + rewrite zlen_line. cbn [cells set_cells set_undoes]. rewrite zlen_app, Hz. pose proof (zlen_nonneg (skipn (Z.to_nat (pos + n)) (cells s))). lia.
Qed.
Lemma insert_shape s pos t s1 l : insertString C s pos t = Some (s1, l) ->
  exists l0 us, s1 = set_undoes (set_cells s l0) us /\ 0 <= pos <= zlen (line s) /\
    line s1 = firstn (Z.to_nat pos) (line s) ++ emojis l ++ skipn (Z.to_nat pos) (line s).
Proof.
  unfold insertString, insert. intros H. opt H. injection H as <- <-. opt Ev. injection Ev as <-.
  eexists _, _. split; [reflexivity|].
  destruct (Z_le_dec 0 pos) as [H1|H1]; [destruct (Z_le_dec pos (zlen (cells s))) as [H2|H2]|].
  - rewrite zlen_line. split; [lia|]. rewrite sliceInsert_firstn in Ev0 by lia. injection Ev0 as <-.
    unfold line, emojis. cbn [cells set_cells push_undo set_undoes]. rewrite !map_app, firstn_map, skipn_map. reflexivity.
  - rewrite sliceInsert_none in Ev0 by lia. discriminate.
  - rewrite sliceInsert_none in Ev0 by lia. discriminate.
Qed.

(** ** The commands that end in a repaint *)
Lemma Wv_zero s : view s = cursor s -> 0 < ViewWidth s -> Wv s.
Proof. intros H Hv. unfold Wv. rewrite H, part_nil, W_nil. exact Hv. Qed.
Lemma Wv_shrink s s1 : nt (line s) -> Wv s -> 0 <= view s <= view s1 -> view s1 <= cursor s1 <= cursor s -> ViewWidth s1 = ViewWidth s ->
  firstn (Z.to_nat (cursor s1)) (line s1) = firstn (Z.to_nat (cursor s1)) (line s) -> Wv s1.
Proof.
  intros Hn Hw Hv0 Hc HV Hf. unfold Wv in *. rewrite HV. rewrite (part_same (line s1) (line s)) by (lia || exact Hf).
  rewrite (part_split (line s) (view s) (view s1)) in Hw by lia. rewrite (part_split (line s) (view s1) (cursor s1)) in Hw by lia. rewrite !W_app in Hw.
  pose proof (W_nonneg E _ (nt_ok C HE _ (nt_part (line s) (cursor s1) (cursor s) Hn))).
  pose proof (W_nonneg E _ (nt_ok C HE _ (nt_part (line s) (view s) (view s1) Hn))). lia.
Qed.

Lemma wide_line s s' : line s' = line s -> termw s' = termw s -> wide C s -> wide C s'.
Proof. intros H1 H2. unfold wide, V. change (emojis (cells s)) with (line s). change (emojis (cells s')) with (line s'). now rewrite H1, H2. Qed.
Lemma repaint_line s s' : repaint C s = Some s' -> line s' = line s /\ termw s' = termw s.
Proof.
  intros H. apply repaint_shape in H as (l & ts & -> & He). split; [exact He|]. destruct (updateSuffix_fields C s) as [x ->]. reflexivity.
Qed.
(** The visible width before a repaint is that after it. *)
Lemma pre_view s s' : repaint C s = Some s' -> nt (line s') -> topc s = pw -> wide C s' -> 0 < ViewWidth s /\ nt (line s).
Proof.
  intros H Hn Ht Hw. apply repaint_line in H as [H1 H2]. rewrite H1 in Hn. split; [|exact Hn].
  apply (G_view s Hn Ht). eapply wide_line; [| |exact Hw]; congruence.
Qed.

Lemma BeginningOfLine_Q s s' : G s -> cmdBeginningOfLine C s = Some s' -> nt (line s') -> wide C s' -> Q0 s s'.
Proof.
  intros (Hn & Ht & Hw & Hv & Hc & Hs & HW) H Hn' Hw'. unfold cmdBeginningOfLine in H.
  destruct (pre_view _ _ H Hn' Ht Hw') as [HV _].
  apply (Q0_same s (set_view (set_cursor s 0) 0)); [reflexivity|reflexivity|]. apply repaint_Q; auto.
Qed.
Lemma BackwardChar_Q s s' : G s -> cmdBackwardChar C s = Some s' -> nt (line s') -> wide C s' -> Q s s'.
Proof.
  intros HG H Hn' Hw'. pose proof HG as (Hn & Ht & Hw & Hv & Hc & Hs & HW). unfold cmdBackwardChar in H.
  destruct (cursor s <=? 0) eqn:H0; [injection H as <-; now apply Q_refl|]. apply Q0_Q.
  cbn [cursor view set_cursor] in H. destruct (cursor s - 1 <? view s) eqn:Hcv.
  - apply (Q0_same s (set_view (set_cursor s (cursor s - 1)) (view s - 1))); [reflexivity|reflexivity|].
    destruct (pre_view _ _ H Hn' Ht Hw') as [HV _]. apply repaint_Q; auto. apply Wv_zero; [cbn; lia|exact HV].
  - apply (Q0_same s (set_cursor s (cursor s - 1))); [reflexivity|reflexivity|].
    apply repaint_Q; auto. apply (Wv_shrink s); auto; cbn; lia.
Qed.
Lemma BackwardDelete_Q s s' : G s -> cmdBackwardDeleteChar C s = Some s' -> nt (line s') -> wide C s' -> Q s s'.
Proof.
  intros HG H Hn' Hw'. pose proof HG as (Hn & Ht & Hw & Hv & Hc & Hs & HW). unfold cmdBackwardDeleteChar in H.
  destruct (0 <? cursor s) eqn:H0; [|injection H as <-; now apply Q_refl]. apply Q0_Q. opt H.
  apply Delete_shape in Ev as (l & us & -> & Hf & Hz). change (line (set_cursor s (cursor s - 1))) with (line s) in *.
  cbn [cursor view set_cursor set_undoes set_cells] in *. specialize (Hf ltac:(lia)).
  destruct (cursor s - 1 <? view s) eqn:Hcv.
  - destruct (pre_view _ _ H Hn' Ht Hw') as [HV _].
    eapply Q0_same; [| |apply (repaint_Q _ _ H); auto]; [reflexivity|reflexivity|]. now apply Wv_zero.
  - eapply Q0_same; [| |apply (repaint_Q _ _ H); auto]; [reflexivity|reflexivity|].
    apply (Wv_shrink s); auto; cbn; (lia || exact Hf).
Qed.
Lemma DeleteChar_Q s s' : G s -> cmdDeleteChar C s = Some s' -> nt (line s') -> wide C s' -> Q0 s s'.
Proof.
  intros HG H Hn' Hw'. pose proof HG as (Hn & Ht & Hw & Hv & Hc & Hs & HW). unfold cmdDeleteChar in H. opt H.
  apply Delete_shape in Ev as (l & us & -> & Hf & Hz). specialize (Hf ltac:(lia)).
  apply (Q0_same s (set_undoes (set_cells s l) us)); [reflexivity|reflexivity|]. apply repaint_Q; auto.
  apply (Wv_shrink s); auto; cbn; (lia || exact Hf).
Qed.
Lemma self_tail_Q s k s' : G s -> self_insert_tail C s k = Some s' -> nt (line s') -> wide C s' -> Q0 s s'.
Proof.
  intros HG H Hn' Hw'. pose proof HG as (Hn & Ht & Hw & Hv & Hc & Hs & HW). unfold self_insert_tail in H. opt H.
  apply insert_shape in Ev as (l0 & us & -> & Hp & Hl). cbn [cursor view set_undoes set_cells] in *.
  set (s2 := set_cursor (set_undoes (set_cells s l0) us) (cursor s + zlen l)) in *.
  assert (Hl2 : line s2 = firstn (Z.to_nat (cursor s)) (line s) ++ emojis l ++ skipn (Z.to_nat (cursor s)) (line s)) by exact Hl.
  assert (Hn2 : nt (line s2)) by (apply repaint_line in H as [H _]; rewrite H in Hn'; destruct (_ <=? _); exact Hn').
  assert (Hz1 : zlen (firstn (Z.to_nat (cursor s)) (line s)) = cursor s) by (unfold zlen in *; rewrite firstn_length_le; lia).
  assert (Hzl : cursor s + zlen l <= zlen (line s2)).
  { rewrite Hl2, !zlen_app, Hz1, zlen_emojis. pose proof (zlen_nonneg (skipn (Z.to_nat (cursor s)) (line s))). lia. }
  pose proof (zlen_nonneg l).
  destruct (ViewWidth s2 <=? z + range_width C l) eqn:Hg.
  - apply (Q0_same s s2); [reflexivity|reflexivity|]. apply reset_Q; auto.
  - apply (Q0_same s s2); [reflexivity|reflexivity|]. apply repaint_Q; auto.
    unfold Wv. change (view s2) with (view s). change (cursor s2) with (cursor s + zlen l).
    rewrite (part_split _ (view s) (cursor s)) by lia. rewrite W_app.
    unfold GetWidthBetween in Ev0. opt Ev0. injection Ev0 as <-.
    assert (Hx : slice (line s2) (view s) (cursor s) = Some (emojis l1)) by (change (line s2) with (emojis (cells (set_undoes (set_cells s l0) us))); rewrite slice_emojis, Ev; reflexivity).
    apply part_of_slice in Hx as (Hx & _). rewrite <- Hx.
    assert (Hn1 : nt (emojis l1)) by (rewrite Hx; now apply nt_part).
    assert (Hnl : nt (emojis l)) by (rewrite Hl2 in Hn2; apply Forall_app in Hn2 as [_ Hn2]; now apply Forall_app in Hn2).
    rewrite <- (nt_width C l1 Hn1). rewrite Hl2.
    assert (Hm : part (firstn (Z.to_nat (cursor s)) (line s) ++ emojis l ++ skipn (Z.to_nat (cursor s)) (line s)) (cursor s) (cursor s + zlen l) = emojis l).
    { rewrite <- (zlen_emojis l). rewrite <- Hz1 at 3 4. apply part_app_mid. }
    rewrite Hm, <- (nt_width C l Hnl). lia.
Qed.

Lemma selfInsert_Q k s s' : G s -> selfInsert C k s = Some s' -> nt (line s') -> wide C s' -> Q s s'.
Proof.
  intros HG H Hn' Hw'. unfold selfInsert in H. destruct (AreZeroWidthJoin E (altgr k) && (0 <? cursor s)).
  { opt H. exact (BackwardDelete_Q (set_pending s _) s' HG H Hn' Hw'). }
  destruct ((AreVariationSelectorLike E (altgr k) || AreEmojiModifier E (altgr k)) && (0 <? cursor s)).
  { opt H. assert (Hd : exists p d q, line s = p ++ d ++ q /\ line b = p ++ q).
    { apply cmdBackwardDeleteChar_ref in Ev0. apply aBackwardDelete_mid in Ev0. exact Ev0. }
    assert (Htw : termw b = termw s).
    { unfold cmdBackwardDeleteChar in Ev0. destruct (0 <? cursor s); [|injection Ev0 as <-; reflexivity]. opt Ev0.
      apply repaint_line in Ev0 as [_ ->]. apply Delete_shape in Ev1 as (? & ? & -> & _). destruct (_ <? _); reflexivity. }
    destruct Hd as (p & d & q & H1 & H2). pose proof HG as (Hn & _ & Hw & _).
    assert (QB : Q s b).
    { apply BackwardDelete_Q; auto.
      - rewrite H2. rewrite H1 in Hn. apply Forall_app in Hn as [Hn1 Hn2]. apply Forall_app in Hn2 as [_ Hn2]. now apply Forall_app.
      - unfold wide, V in *. rewrite Htw. change (emojis (cells b)) with (line b). change (emojis (cells s)) with (line s) in Hw. rewrite H2. rewrite H1 in Hw. now apply (line_ok_mid C HE) in Hw. }
    eapply Q_trans; [exact QB|]. apply Q0_Q. eapply self_tail_Q; [apply QB|exact H|auto|auto]. }
  destruct (pending s).
  - apply Q0_Q. eapply self_tail_Q; eauto.
  - apply Q0_Q. exact (self_tail_Q (set_pending s []) _ s' HG H Hn' Hw').
Qed.

Lemma Replace_Q s pos t s' : nt (suflist (suffix s)) -> topc s = pw -> ReplaceAndRepaint C s pos t = Some s' -> nt (line s') -> wide C s' -> Q0 s s'.
Proof.
  intros Hs Ht H Hn' Hw'. unfold ReplaceAndRepaint in H. opt H. apply Delete_shape in Ev as (l & us & -> & _).
  unfold InsertString in Ev0. opt Ev0. injection Ev0 as <- <-. apply insert_shape in Ev as (l1 & us1 & -> & _).
  destruct (joinUndo_shape (set_cursor (set_undoes (set_cells (set_undoes (set_cells s l) us) l1) us1) (pos + zlen l0))) as [us2 Hj]. rewrite Hj in H.
  eapply Q0_same; [| |apply (reset_Q _ _ H); auto]; reflexivity.
Qed.

Lemma WordRubout_Q s s' : G s -> cmdUnixWordRubout C s = Some s' -> nt (line s') -> wide C s' -> Q0 s s'.
Proof.
  intros HG H Hn' Hw'. pose proof HG as (Hn & Ht & Hw & Hv & Hc & Hs & HW). unfold cmdUnixWordRubout in H. opt H.
  match goal with H : context [clip_write ?x ?y] |- _ => destruct (clip_write_shape x y) as [cl Hcl]; rewrite Hcl in * end.
  apply Delete_shape in Ev2 as (l2 & us & -> & Hf & Hz2).
  unfold SubString in Ev1. opt Ev1. injection Ev1 as <-. apply slice_some in Ev2 as (Hb1 & Hb2 & _). cbn [cells set_cursor] in Hb2. rewrite zlen_line in Hc.
  cbn [view cursor set_cursor set_undoes set_cells set_clip] in H.
  destruct (z - view s <? 2) eqn:Hg.
  - eapply Q0_same; [| |apply (reset_Q _ _ H); auto]; reflexivity.
  - eapply Q0_same; [| |apply (repaint_Q _ _ H); auto]; [reflexivity|reflexivity|].
    apply (Wv_shrink s); auto; cbn; try lia. apply Hf. rewrite zlen_line. cbn. lia.
Qed.
Lemma LineDiscard_Q s s' : G s -> cmdUnixLineDiscard C s = Some s' -> nt (line s') -> wide C s' -> Q0 s s'.
Proof.
  intros HG H Hn' Hw'. pose proof HG as (Hn & Ht & Hw & Hv & Hc & Hs & HW). unfold cmdUnixLineDiscard in H. opt H.
  match goal with H : context [clip_write ?x ?y] |- _ => destruct (clip_write_shape x y) as [cl Hcl]; rewrite Hcl in * end.
  apply Delete_shape in Ev0 as (l2 & us & -> & _).
  destruct (pre_view _ _ H Hn' Ht Hw') as [HV _].
  eapply Q0_same; [| |apply (repaint_Q _ _ H); auto]; reflexivity.
Qed.
Lemma RepaintAll_Q s ts s' : G s -> (forall m, ~ In (TMoji m) ts) -> RepaintAll C (emit s ts) = Some s' -> nt (line s') -> wide C s' -> Q0 s s'.
Proof.
  intros HG Hts H Hn' Hw'. pose proof HG as (Hn & Ht & Hw & Hv & Hc & Hs & HW). unfold RepaintAll in H.
  destruct (callPromptWriter E (prompt C)) as [t p] eqn:Hp. cbn [snd] in Ht. rewrite <- Ht in H.
  assert (Hpw : topc s = pw) by (rewrite Hp; exact Ht).
  eapply (Q0_pre s _ s' (ts ++ [TFlush; TPrompt t])); [| | |apply (repaint_Q _ _ H); auto].
  - cbn. now rewrite app_assoc.
  - reflexivity.
  - intros m Hi. apply in_app_or in Hi as [Hi|[Hi|[Hi|[]]]]; [now apply (Hts m)|discriminate|discriminate].
Qed.
Lemma BackwardWord_Q s s' : G s -> cmdBackwardWord C s = Some s' -> nt (line s') -> wide C s' -> Q0 s s'.
Proof.
  intros HG H Hn' Hw'. pose proof HG as (Hn & Ht & Hw & Hv & Hc & Hs & HW). unfold cmdBackwardWord in H. opt H.
  match goal with H : context [set_cursor _ ?p] |- _ => set (np := p) in * end.
  assert (Hnp : np <= cursor s) by (unfold np; lia). clearbody np.
  destruct (np <? view s) eqn:Hg.
  - destruct (pre_view _ _ H Hn' Ht Hw') as [HV _].
    eapply Q0_same; [| |apply (repaint_Q _ _ H); auto]; [reflexivity|reflexivity|]. now apply Wv_zero.
  - eapply Q0_same; [| |apply (repaint_Q _ _ H); auto]; [reflexivity|reflexivity|].
    apply (Wv_shrink s); auto; cbn; lia.
Qed.
Lemma Undo_Q s s' : G s -> cmdUndo C s = Some s' -> nt (line s') -> wide C s' -> Q s s'.
Proof.
  intros HG H Hn' Hw'. pose proof HG as (Hn & Ht & Hw & Hv & Hc & Hs & HW). unfold cmdUndo in H.
  destruct (undoes s) as [|u rest]; [injection H as <-; now apply Q_quiet|]. apply Q0_Q. opt H.
  assert (Hb : exists l2 c2, b = set_cursor (set_cells (GotoHead (set_undoes s rest)) l2) c2).
  { destruct (u_text u); [injection Ev0 as <-; eauto|]. opt Ev0. injection Ev0 as <-. eexists _, _. reflexivity. }
  destruct Hb as (l2 & c2 & ->).
  eapply (Q0_pre s _ s' [TGoto (topc s + 1)]); [| | |apply (reset_Q _ _ H); auto]; [reflexivity|reflexivity|]. intros m [Hi|[]]. discriminate.
Qed.
Lemma Yank_Q s s' : G s -> cmdYank C s = Some s' -> nt (line s') -> wide C s' -> Q s s'.
Proof.
  intros HG H Hn' Hw'. unfold cmdYank, InsertAndRepaint in H. destruct (clip s); [|injection H as <-; now apply Q_refl].
  apply Q0_Q. eapply Replace_Q; eauto; apply HG.
Qed.
Lemma YankQ_Q s s' : G s -> cmdYankWithQuote C s = Some s' -> nt (line s') -> wide C s' -> Q s s'.
Proof.
  intros HG H Hn' Hw'. unfold cmdYankWithQuote, InsertAndRepaint in H. destruct (clip s); [|injection H as <-; now apply Q_refl].
  apply Q0_Q. eapply Replace_Q; eauto; apply HG.
Qed.

(** ** The commands that paint less *)
Lemma tm_app a b : tm (a ++ b) = tm a ++ tm b. Proof. apply map_app. Qed.
(** Painting the cells from the cursor on moves the cursor. *)
Lemma advance_Q s p s1 : G s -> puts C s (cursor s) p = Some s1 -> W (part (line s) (view s) p) < ViewWidth s -> Q s (set_cursor s1 p).
Proof.
  intros HG H Hp. pose proof HG as (Hn & Ht & Hw & Hv & Hc & Hs & HW).
  pose proof (paints_fields _ _ (puts_paints C _ _ _ _ H)) as (F1 & F2 & F3 & F4 & F5 & F6 & F7 & _).
  apply puts_emits in H as (Em & Hb1 & Hb2); [|exact Hn].
  assert (FL : line s1 = line s) by exact F1. assert (FV : ViewWidth s1 = ViewWidth s) by (unfold ViewWidth; now rewrite F6, F7).
  split; [|split; [|exact F6]].
  2:{ unfold G, Wv. change (line (set_cursor s1 p)) with (line s1). change (ViewWidth (set_cursor s1 p)) with (ViewWidth s1). cbn [view cursor topc suffix set_cursor].
      rewrite FL, F3, F4, F7, FV. split; [exact Hn|]. split; [exact Ht|]. split; [apply (wide_line s); auto|]. split; [lia|]. split; [lia|]. split; [exact Hs|exact Hp]. }
  intros sc (k & pred & Hk & Hpred & Hrow & Hcol & HWk & Hus). apply (R_emits _ s (set_cursor s1 p) _ sc Em).
  set (a := part (line s) (view s) (cursor s)) in *. pose proof (VW_lim s) as HVL.
  assert (NP : forall x y, ok (part (line s) x y)) by (intros; now apply (nt_ok C HE), nt_part).
  assert (Hsplitp : part (line s) (view s) p = a ++ part (line s) (cursor s) p) by (apply part_split; lia).
  assert (Hin : inside (termw s - 3) sc (tm (part (line s) (cursor s) p))).
  { apply inside_tm; [apply NP|]. rewrite Hsplitp, W_app in Hp. lia. }
  split; [|exact Hin].
  assert (Hcol' : col (D (tm (part (line s) (cursor s) p)) sc) = topc s + W (part (line s) (view s) p)) by (rewrite col_tm, Hcol, Hsplitp, W_app; lia).
  assert (Hpk : pred <> [] -> cursor s = zlen (line s) /\ k = zlen (line s) /\ exists rest, suffix s = Some (pred ++ rest)) by (destruct Hpred as [-> |Hpred]; [congruence|auto]).
  assert (Hokp : ok pred).
  { destruct Hpred as [-> |(_ & _ & rest & Hr)]; [constructor|]. apply (nt_ok C HE). rewrite Hr in Hs. cbn in Hs. now apply Forall_app in Hs. }
  destruct (Z_le_dec p k) as [Hpk1|Hpk1].
  - exists k, pred. unfold shows. change (line (set_cursor s1 p)) with (line s1). change (ViewWidth (set_cursor s1 p)) with (ViewWidth s1). cbn [view cursor topc suffix set_cursor].
    rewrite FL, F3, F4, F7, FV. split; [lia|]. split; [|split; [|split; [exact Hcol'|split; [exact HWk|exact Hus]]]].
    + destruct Hpred as [Hpred|(Z1 & Z2 & Z3)]; [now left|]. right. repeat split; auto. lia.
    + assert (He : part (line s) (view s) k ++ pred = a ++ part (line s) (cursor s) p ++ (part (line s) p k ++ pred)).
      { rewrite (part_split (line s) (view s) (cursor s) k), (part_split (line s) (cursor s) p k) by lia. now rewrite <- !app_assoc. }
      rewrite He in *. apply (full_over E other (topc s) _ a); [|exact Hrow|exact Hcol].
      apply Forall_app. split; [apply NP|]. apply Forall_app. split; [apply NP|]. apply Forall_app. split; [apply NP|exact Hokp].
  - assert (Hnil : pred = []) by (destruct pred; [reflexivity|]; destruct Hpk as (_ & Hkz & _); [discriminate|]; lia). subst pred. rewrite app_nil_r in Hrow.
    exists p, []. unfold shows. change (line (set_cursor s1 p)) with (line s1). change (ViewWidth (set_cursor s1 p)) with (ViewWidth s1). cbn [view cursor topc suffix set_cursor].
    rewrite app_nil_r, FL, F3, F4, F7, FV. split; [lia|]. split; [now left|]. split; [|split; [exact Hcol'|split; [exact Hp|]]].
    2:{ right. destruct Hus as [Hus|Hus]; [lia|]. rewrite (part_split (line s) (view s) (k + 1) (p + 1)) by lia. rewrite W_app. pose proof (W_nonneg E _ (NP (k + 1) (p + 1))). lia. }
    rewrite (part_split (line s) (cursor s) k p) by lia. rewrite tm_app, D_app. rewrite (part_split (line s) (view s) k p) by lia.
    apply full_extend; [apply NP|apply NP| |].
    + rewrite (part_split (line s) (view s) (cursor s) k) in * by lia. pose proof (full_over E other (topc s) (part (line s) (cursor s) k) a []) as HF. rewrite !app_nil_r in HF.
      apply HF; [|exact Hrow|exact Hcol]. apply Forall_app. split; apply NP.
    + rewrite col_tm, Hcol. rewrite (part_split (line s) (view s) (cursor s) k) by lia. rewrite W_app. unfold a. lia.
Qed.

(** Head of the row, a part of the line, erase. *)
Lemma fresh_row s vs s2 : nt (line s) -> 0 <= view s2 <= cursor s2 -> cursor s2 <= zlen (line s2) -> line s2 = line s -> topc s2 = topc s -> ViewWidth s2 = ViewWidth s ->
  W (part (line s) (view s2) (cursor s2)) < ViewWidth s -> used s (view s2) (cursor s2) -> vs = [TGoto (topc s + 1)] ++ tm (part (line s) (view s2) (cursor s2)) ++ [TErase] ->
  emits s s2 vs -> R0 (termw s - 3) s s2.
Proof.
  intros Hn Hv Hc Hl Ht HV HW Hus -> Em sc. apply (R_emits _ s s2 _ sc Em). pose proof (VW_lim s) as HVL.
  assert (Hok : ok (part (line s) (view s2) (cursor s2))) by now apply (nt_ok C HE), nt_part.
  destruct (screen_row E other (topc s) (part (line s) (view s2) (cursor s2)) sc (termw s - 3) Hok) as (H1 & H2 & H3); [lia|].
  split; [|exact H3]. exists (cursor s2), []. unfold shows. rewrite app_nil_r, Hl, Ht, HV. rewrite Hl in Hc. repeat split; auto; try lia.
Qed.

Lemma eol_loop_spec vw l : forall w k, w < vw -> eol_loop C vw w l = k -> (k <= List.length l)%nat /\ w + range_width C (firstn k l) < vw.
Proof.
  induction l as [|c l IH]; intros w k Hw H; cbn [eol_loop] in H; [subst; cbn; lia|].
  destruct (vw <=? w + width E (c_moji c)) eqn:Hc; [subst; cbn; lia|]. subst. destruct (IH (w + width E (c_moji c)) _ ltac:(lia) eq_refl) as [H1 H2].
  cbn [firstn range_width List.length]. lia.
Qed.
Lemma range_width_rev l : range_width C (rev l) = range_width C l.
Proof. induction l as [|c l IH]; [reflexivity|]. cbn [rev]. rewrite (range_width_app C), IH. cbn [range_width]. lia. Qed.

Lemma EndOfLine_some s s' : G s -> cmdEndOfLine C s = Some s' ->
  (forall sc, some s sc -> exists ts, out s' = out s ++ ts /\ shown s' (D ts sc) /\ inside (termw s - 3) sc ts) /\ G s' /\ termw s' = termw s.
Proof.
  intros HG H. pose proof HG as (Hn & Ht & Hw & Hv & Hc & Hs & HW). destruct (G_view s Hn Ht Hw) as [HV HFw]. unfold cmdEndOfLine in H. opt H. injection H as <-.
  unfold GetWidthBetween in Ev. opt Ev. injection Ev as <-.
  assert (Hx : slice (line s) (view s) (zlen (cells s)) = Some (emojis l)) by (change (line s) with (emojis (cells s)); rewrite slice_emojis, Ev1; reflexivity).
  apply part_of_slice in Hx as (Hx & _). assert (Hnl : nt (emojis l)) by (rewrite Hx; now apply nt_part).
  rewrite (nt_width C l Hnl), Hx in Ev0. rewrite zlen_line in Hc.
  destruct (W (part (line s) (view s) (zlen (cells s))) <? ViewWidth s) eqn:Hfit.
  - opt Ev0. injection Ev0 as <-.
    pose proof (paints_fields _ _ (puts_paints C _ _ _ _ Ev)) as (F1 & F2 & F3 & F4 & F5 & F6 & F7 & _).
    assert (FL : line b0 = line s) by exact F1. assert (FV : ViewWidth b0 = ViewWidth s) by (unfold ViewWidth; now rewrite F6, F7).
    apply puts_emits in Ev as (Em & Hb1 & Hb2); [|exact Hn].
    set (n := zlen (cells s)) in *.
    split; [|split; [|exact F6]].
    2:{ unfold G, Wv. change (line (eraseline (set_cursor b0 n))) with (line b0). change (ViewWidth (eraseline (set_cursor b0 n))) with (ViewWidth b0). cbn [view cursor topc suffix set_cursor eraseline emit].
        rewrite FL, F3, F4, F7, FV. split; [exact Hn|]. split; [exact Ht|]. split; [apply (wide_line s); auto|]. split; [lia|]. split; [rewrite zlen_line; unfold n; lia|]. split; [exact Hs|lia]. }
    intros sc (k & pred & Hk & Hokp & Hrow & Hcol).
    assert (Em2 : emits s (eraseline (set_cursor b0 n)) (tm (part (line s) (cursor s) n) ++ [TErase])).
    { eapply emits_trans; [exact Em|]. exists [TErase]. split; reflexivity. }
    apply (R_emits _ s _ _ sc Em2). clear Em Em2. pose proof (VW_lim s) as HVL.
    assert (NP : forall x y, ok (part (line s) x y)) by (intros; now apply (nt_ok C HE), nt_part).
    assert (U : upto E (topc s) (part (line s) (view s) (cursor s)) sc).
    { rewrite (part_split (line s) (view s) (cursor s) k) in Hrow by lia. rewrite <- app_assoc in Hrow.
      apply (full_upto E (topc s) _ (part (line s) (cursor s) k ++ pred)); [apply NP| |exact Hrow|exact Hcol]. apply Forall_app. split; [apply NP|exact Hokp]. }
    apply (upto_tm E other (topc s) (part (line s) (cursor s) n)) in U; [|apply NP|apply NP]. rewrite <- part_split in U by lia.
    destruct (upto_erase E other _ _ _ (NP _ _) U) as [HF HCo]. rewrite D_app. split.
    + exists n, []. unfold shows. rewrite app_nil_r. change (line (eraseline (set_cursor b0 n))) with (line b0). change (ViewWidth (eraseline (set_cursor b0 n))) with (ViewWidth b0).
      cbn [view cursor topc suffix set_cursor eraseline emit]. rewrite FL, F4, F7, FV. split; [rewrite zlen_line; unfold n; lia|]. split; [now left|]. split; [exact HF|]. split; [exact HCo|]. split; [lia|left; rewrite zlen_line; reflexivity].
    + apply inside_app; [|apply inside_other; discriminate]. apply inside_tm; [apply NP|]. rewrite Hcol.
      rewrite (part_split (line s) (view s) (cursor s) n), W_app in Hfit by lia. lia.
  - opt Ev0. injection Ev0 as <-. cbn [cells GotoHead emit] in *. change (ViewWidth (GotoHead s)) with (ViewWidth s) in *.
    assert (Hi : 0 <= zlen (cells s) - 1).
    { unfold index in Ev. destruct (0 <=? zlen (cells s) - 1) eqn:Hi; [lia|discriminate]. }
    destruct (split_at (cells s) (zlen (cells s) - 1)) as (pre & last & Hcs & Hzp); [lia|].
    assert (Hlast : last = [c]).
    { rewrite Hcs in Ev. rewrite Hcs, zlen_app in Hzp. destruct last as [|c' [|c'' last]].
      - rewrite zlen_nil in Hzp. lia.
      - f_equal. rewrite zlen_app, zlen_cons, zlen_nil in Ev. replace (zlen pre + (0 + 1) - 1) with (zlen pre) in Ev by lia.
        unfold index in Ev. pose proof (zlen_nonneg pre). replace (0 <=? zlen pre) with true in Ev by lia. rewrite to_nat_zlen, nth_error_app2, Nat.sub_diag in Ev by lia. cbn in Ev. congruence.
      - rewrite !zlen_cons in Hzp. pose proof (zlen_nonneg last). lia. }
    subst last. set (n := zlen (cells s)) in *.
    assert (Hfp : firstn (Z.to_nat (n - 1)) (cells s) = pre).
    { rewrite Hcs, <- Hzp, to_nat_zlen, firstn_app, Nat.sub_diag, firstn_all, firstn_O. apply app_nil_r. }
    rewrite Hfp in Ev2. set (k := eol_loop C (ViewWidth s) (width E (c_moji c)) (rev pre)) in *.
    assert (Hcw : width E (c_moji c) < ViewWidth s) by (rewrite Hcs in HFw; apply Forall_app in HFw as [_ HFw]; now inversion HFw).
    destruct (eol_loop_spec (ViewWidth s) (rev pre) (width E (c_moji c)) k Hcw eq_refl) as [Hk1 Hk2]. rewrite rev_length in Hk1.
    set (v' := n - 1 - Z.of_nat k) in *.
    assert (Hv' : 0 <= v' <= n) by (unfold v', zlen in *; lia).
    set (s2 := set_view (GotoHead s) v') in *. change (view s2) with v' in *.
    pose proof (paints_fields _ _ (puts_paints C _ _ _ _ Ev2)) as (F1 & F2 & F3 & F4 & F5 & F6 & F7 & _).
    assert (FL : line b0 = line s) by exact F1. assert (FV : ViewWidth b0 = ViewWidth s) by (unfold ViewWidth; now rewrite F6, F7).
    apply puts_emits in Ev2 as (Em & Hb1 & Hb2); [|exact Hn]. change (line s2) with (line s) in *.
    assert (HWn : W (part (line s) v' n) < ViewWidth s).
    { assert (Hp2 : part (line s) v' n = emojis (skipn (Z.to_nat v') (cells s))).
      { unfold part. change (line s) with (emojis (cells s)). unfold emojis. rewrite <- skipn_map. apply firstn_all2. rewrite skipn_length, map_length. unfold n, zlen. lia. }
      rewrite Hp2, <- nt_width. 2:{ rewrite <- Hp2. now apply nt_part. }
      rewrite Hcs, skipn_app. replace (Z.to_nat v' - List.length pre)%nat with 0%nat by (unfold v', zlen in *; lia). rewrite skipn_O, (range_width_app C). cbn [range_width].
      assert (Hfr : firstn k (rev pre) = rev (skipn (Z.to_nat v') pre)).
      { rewrite firstn_rev. do 2 f_equal. unfold v', zlen in *. lia. }
      rewrite Hfr, range_width_rev in Hk2. lia. }
    split; [|split; [|exact F6]].
    + intros sc _. revert sc. eapply fresh_row; [exact Hn|..]; [| | | | | | |reflexivity|].
      * cbn [view cursor set_cursor eraseline emit]. rewrite F4. exact Hv'.
      * change (line (eraseline (set_cursor b0 n))) with (line b0). cbn [cursor set_cursor eraseline emit]. rewrite FL, zlen_line. unfold n. lia.
      * exact FL.
      * exact F7.
      * exact FV.
      * cbn [view cursor set_cursor eraseline emit]. rewrite F4. exact HWn.
      * left. rewrite zlen_line. reflexivity.
      * cbn [view cursor set_cursor eraseline emit]. rewrite F4. change (view s2) with v'.
        eapply emits_trans; [|eapply emits_trans; [exact Em|]].
        -- exists [TGoto (topc s + 1)]. split; reflexivity.
        -- exists [TErase]. split; reflexivity.
    + unfold G, Wv. change (line (eraseline (set_cursor b0 n))) with (line b0). change (ViewWidth (eraseline (set_cursor b0 n))) with (ViewWidth b0). cbn [view cursor topc suffix set_cursor eraseline emit].
      rewrite FL, F3, F4, F7, FV. change (view s2) with v'. change (topc s2) with (topc s). change (suffix s2) with (suffix s). split; [exact Hn|]. split; [exact Ht|]. split; [apply (wide_line s); auto|]. split; [exact Hv'|]. split; [rewrite zlen_line; unfold n; lia|]. split; [exact Hs|exact HWn].
Qed.

Lemma shown_some s sc : G s -> shown s sc -> some s sc.
Proof.
  intros (_ & _ & _ & _ & _ & Hs & _) (k & pred & Hk & Hpred & Hrow & Hcol & _). exists k, pred. split; [exact Hk|]. split; [|split; [exact Hrow|exact Hcol]].
  destruct Hpred as [-> |(_ & _ & rest & Hr)]; [constructor|]. apply (nt_ok C HE). rewrite Hr in Hs. cbn in Hs. now apply Forall_app in Hs.
Qed.
Lemma EndOfLine_Q s s' : G s -> cmdEndOfLine C s = Some s' -> Q s s'.
Proof.
  intros HG H. destruct (EndOfLine_some s s' HG H) as [H1 H2]. split; [|exact H2]. intros sc Hsc. apply H1. now apply shown_some.
Qed.

Lemma W_between s a b w : nt (line s) -> GetWidthBetween C s a b = Some w -> w = W (part (line s) a b) /\ 0 <= a <= b /\ b <= zlen (line s).
Proof.
  intros Hn H. unfold GetWidthBetween in H. opt H. injection H as <-.
  assert (Hx : slice (line s) a b = Some (emojis l)) by (change (line s) with (emojis (cells s)); rewrite slice_emojis, Ev; reflexivity).
  apply part_of_slice in Hx as (Hx & Hb). split; [|exact Hb]. rewrite <- Hx. apply nt_width. rewrite Hx. now apply nt_part.
Qed.
Lemma index_line s i c : nt (line s) -> index (cells s) i = Some c -> part (line s) i (i + 1) = [c_moji c] /\ 0 <= i < zlen (line s).
Proof.
  intros Hn H. assert (Hi : index (line s) i = Some (emoji c)) by (change (line s) with (emojis (cells s)); now rewrite index_emojis, H).
  assert (Hb : 0 <= i < zlen (line s)) by (unfold index in Hi; destruct (0 <=? i) eqn:H0; [|discriminate]; assert (Hne : nth_error (line s) (Z.to_nat i) <> None) by congruence; apply nth_error_Some in Hne; unfold zlen; lia).
  split; [|exact Hb]. destruct (split_at (line s) i) as (p & q & Hpq & Hzp); [lia|]. rewrite Hpq in *. unfold index in Hi. replace (0 <=? i) with true in Hi by lia.
  rewrite <- Hzp, to_nat_zlen, nth_error_app2, Nat.sub_diag in Hi by lia. destruct q as [|m q]; [discriminate|]. cbn in Hi. injection Hi as ->.
  pose proof (part_app_mid p [emoji c] q) as Hm. rewrite zlen_cons, zlen_nil in Hm. cbn [app] in Hm. rewrite <- Hzp. rewrite Z.add_0_l in Hm. rewrite Hm. f_equal.
  unfold emoji. apply erase_nt. rewrite <- has_tab_erase. apply Forall_app in Hn as [_ Hn]. now inversion Hn.
Qed.
Lemma ForwardChar_Q s s' : G s -> Forall (fun m => 1 <= width E m <= 2) (line s) \/ W (part (line s) (view s) (cursor s + 1)) < ViewWidth s ->
  cmdForwardChar C s = Some s' -> nt (line s') -> wide C s' -> Q s s'.
Proof.
  intros HG Hf H Hn' Hw'. pose proof HG as (Hn & Ht & Hw & Hv & Hc & Hs & HW). destruct (G_view s Hn Ht Hw) as [HV _]. unfold cmdForwardChar in H.
  destruct (zlen (cells s) <=? cursor s) eqn:Hend.
  { destruct (suffix s) as [[|m0 l0]|] eqn:Hsx; [injection H as <-; now apply Q_refl| |injection H as <-; now apply Q_refl].
    apply Q0_Q. eapply Replace_Q; [|exact Ht|exact H|exact Hn'|exact Hw']. rewrite Hsx. exact Hs. }
  opt H. injection H as <-. apply W_between in Ev as (-> & Hb1 & Hb2); [|exact Hn].
  destruct (W (part (line s) (view s) (cursor s + 1)) <? ViewWidth s) eqn:Hfit.
  - assert (Hcu : cursor b = cursor s) by (now apply puts_paints, paints_fields in Ev0 as (_ & _ & _ & _ & -> & _)). rewrite Hcu.
    apply advance_Q; auto. lia.
  - destruct Hf as [Hf|Hf]; [|lia]. opt Ev0. injection Ev0 as <-. cbn [cells cursor view GotoHead emit] in *.
    apply index_line in Ev; [|exact Hn]. apply index_line in Ev1; [|exact Hn]. destruct Ev as [Pc Hic], Ev1 as [Pv Hiv].
    set (v' := if width E (c_moji c0) <? width E (c_moji c) then view s + 1 + 1 else view s + 1).
    assert (Hs3 : set_view (if width E (c_moji c0) <? width E (c_moji c) then set_view (GotoHead s) (view s + 1) else GotoHead s)
       (view (if width E (c_moji c0) <? width E (c_moji c) then set_view (GotoHead s) (view s + 1) else GotoHead s) + 1) = set_view (GotoHead s) v') by (unfold v'; destruct (width E (c_moji c0) <? width E (c_moji c)); reflexivity).
    rewrite Hs3 in *. cbn [view cursor set_view] in *. clear Hs3.
    assert (Hin : forall i m, 0 <= i -> part (line s) i (i + 1) = [m] -> 1 <= width E m <= 2).
    { intros i m Hi Hp. assert (HF : Forall (fun m => 1 <= width E m <= 2) (part (line s) i (i + 1))) by now apply Forall_part. rewrite Hp in HF. now inversion HF. }
    assert (HWs : view s < cursor s + 1) by lia.
    assert (NPw : forall x y, x <= y -> 0 <= x -> y <= zlen (line s) -> y - x <= W (part (line s) x y) <= 2 * (y - x)).
    { intros x y Hxy Hx Hy. rewrite <- (zlen_part (line s) x y) by lia.
      assert (HF : Forall (fun m => 1 <= width E m <= 2) (part (line s) x y)) by now apply Forall_part. clear -HF.
      induction HF as [|m l Hm _ IH]; [rewrite W_nil, zlen_nil; lia|]. rewrite W_cons, zlen_cons. lia. }
    assert (Hv' : view s + 1 <= v' <= cursor s + 1 /\ W (part (line s) v' (cursor s + 1)) < ViewWidth s /\ ViewWidth s - 3 <= W (part (line s) v' (cursor s + 1))).
    { assert (Wc : 1 <= width E (c_moji c) <= 2) by (apply (Hin (cursor s)); [lia|exact Pc]). assert (Wvw : 1 <= width E (c_moji c0) <= 2) by (apply (Hin (view s)); [lia|exact Pv]). unfold Wv in HW.
      assert (Hall : W (part (line s) (view s) (cursor s + 1)) = W (part (line s) (view s) (cursor s)) + width E (c_moji c)).
      { rewrite (part_split (line s) (view s) (cursor s)) by lia. rewrite W_app, Pc, W_cons, W_nil. lia. }
      assert (Hall2 : W (part (line s) (view s) (cursor s + 1)) = width E (c_moji c0) + W (part (line s) (view s + 1) (cursor s + 1))).
      { rewrite (part_split (line s) (view s) (view s + 1)) by lia. rewrite W_app, Pv, W_cons, W_nil. lia. }
      unfold v'. destruct (width E (c_moji c0) <? width E (c_moji c)) eqn:Hcmp.
      - assert (view s < cursor s).
        { destruct (Z.eq_dec (view s) (cursor s)) as [He|He]; [|lia]. rewrite He, Pc in Pv. injection Pv as Pv. rewrite Pv in Hcmp. lia. }
        split; [lia|]. assert (Hall3 : W (part (line s) (view s + 1) (cursor s + 1)) = W (part (line s) (view s + 1) (view s + 1 + 1)) + W (part (line s) (view s + 1 + 1) (cursor s + 1))).
        { rewrite (part_split (line s) (view s + 1) (view s + 1 + 1)) by lia. apply W_app. }
        pose proof (NPw (view s + 1) (view s + 1 + 1) ltac:(lia) ltac:(lia) ltac:(lia)). lia.
      - split; lia. }
    clearbody v'. destruct Hv' as (Hv' & HW' & HWl).
    pose proof (paints_fields _ _ (puts_paints C _ _ _ _ Ev2)) as (F1 & F2 & F3 & F4 & F5 & F6 & F7 & _).
    assert (FL : line b0 = line s) by exact F1. assert (FV : ViewWidth b0 = ViewWidth s) by (unfold ViewWidth; now rewrite F6, F7).
    apply puts_emits in Ev2 as (Em & _); [|exact Hn]. change (line (set_view (GotoHead s) v')) with (line s) in Em.
    cbn [view cursor topc termw suffix set_view GotoHead emit] in F3, F4, F5, F6, F7.
    apply (Q0_Q s). split; [|split; [|exact F6]].
    + eapply fresh_row; [exact Hn|..]; [| | | | | | |reflexivity|].
      * cbn [view cursor set_cursor eraseline emit]. rewrite F4, F5. lia.
      * change (line (set_cursor (eraseline b0) (cursor (eraseline b0) + 1))) with (line b0). cbn [cursor set_cursor eraseline emit]. rewrite FL, F5. lia.
      * exact FL.
      * exact F7.
      * exact FV.
      * cbn [view cursor set_cursor eraseline emit]. rewrite F4, F5. exact HW'.
      * cbn [view cursor set_cursor eraseline emit]. rewrite F4, F5. destruct (Z.eq_dec (cursor s + 1) (zlen (line s))) as [He|He]; [now left|right].
        rewrite (part_split (line s) v' (cursor s + 1) (cursor s + 1 + 1)) by lia. rewrite W_app. pose proof (NPw (cursor s + 1) (cursor s + 1 + 1) ltac:(lia) ltac:(lia) ltac:(lia)). lia.
      * cbn [view cursor set_cursor eraseline emit]. rewrite F4, F5.
        eapply emits_trans; [|eapply emits_trans; [exact Em|]].
        -- exists [TGoto (topc s + 1)]. split; reflexivity.
        -- exists [TErase]. split; reflexivity.
    + unfold G, Wv. set (c1 := cursor (eraseline b0) + 1). assert (Hc1 : c1 = cursor s + 1) by (unfold c1; cbn; rewrite F5; reflexivity).
      change (line (set_cursor (eraseline b0) c1)) with (line b0). change (ViewWidth (set_cursor (eraseline b0) c1)) with (ViewWidth b0). cbn [view cursor topc suffix set_cursor eraseline emit].
      rewrite FL, F3, F4, F7, FV, Hc1. split; [exact Hn|]. split; [exact Ht|]. split; [apply (wide_line s); auto|]. split; [lia|]. split; [lia|]. split; [exact Hs|exact HW'].
Qed.

(** Erasing at the cursor: the line ends there. *)
Lemma KillLine_Q s s' : G s -> cmdKillLine s = Some s' -> wide C s' -> Q s s'.
Proof.
  intros HG H Hw'. pose proof HG as (Hn & Ht & Hw & Hv & Hc & Hs & HW). unfold cmdKillLine in H. opt H. injection H as <-.
  match goal with H : context [clip_write ?x ?y] |- _ => destruct (clip_write_shape x y) as [cl Hcl]; rewrite Hcl in * end.
  cbn [cells cursor eraseline emit push_undo set_undoes set_clip] in Ev0.
  set (s' := set_cells (push_undo (eraseline (set_clip s cl)) _) l) in *.
  assert (Hx : slice (line s) 0 (cursor s) = Some (line s')) by (change (line s) with (emojis (cells s)); rewrite slice_emojis, Ev0; reflexivity).
  apply part_of_slice in Hx as (Hx & _). pose proof (zlen_part (line s) 0 (cursor s) ltac:(lia) ltac:(lia)) as Hz. rewrite <- Hx, Z.sub_0_r in Hz.
  assert (Hpre : forall b, 0 <= view s <= b -> b <= cursor s -> part (line s') (view s) b = part (line s) (view s) b).
  { intros b Hb1 Hb2. apply part_same; [lia|]. rewrite Hx, (part_skip (line s)) by lia. cbn [Z.to_nat skipn]. rewrite firstn_firstn. f_equal. lia. }
  split; [|split; [|reflexivity]].
  - intros sc (k & pred & Hk & Hpred & Hrow & Hcol & HWk & Hus).
    apply (R_emits (termw s - 3) s s' [TErase] sc); [exists [TErase]; split; reflexivity|].
    assert (NP : forall x y, ok (part (line s) x y)) by (intros; now apply (nt_ok C HE), nt_part).
    assert (Hokp : ok pred).
    { destruct Hpred as [-> |(_ & _ & rest & Hr)]; [constructor|]. apply (nt_ok C HE). rewrite Hr in Hs. cbn in Hs. now apply Forall_app in Hs. }
    assert (U : upto E (topc s) (part (line s) (view s) (cursor s)) sc).
    { rewrite (part_split (line s) (view s) (cursor s) k) in Hrow by lia. rewrite <- app_assoc in Hrow.
      apply (full_upto E (topc s) _ (part (line s) (cursor s) k ++ pred)); [apply NP| |exact Hrow|exact Hcol]. apply Forall_app. split; [apply NP|exact Hokp]. }
    destruct (upto_erase E other _ _ _ (NP _ _) U) as [HF HCo]. split; [|apply inside_other; discriminate].
    exists (cursor s), []. unfold shows. change (view s') with (view s). change (cursor s') with (cursor s). change (topc s') with (topc s). change (ViewWidth s') with (ViewWidth s).
    rewrite app_nil_r, Hz, Hpre by lia. split; [lia|]. split; [now left|]. split; [exact HF|]. split; [exact HCo|]. split; [exact HW|now left].
  - unfold G, Wv. change (view s') with (view s). change (cursor s') with (cursor s). change (topc s') with (topc s). change (ViewWidth s') with (ViewWidth s). change (suffix s') with (suffix s).
    rewrite Hz, Hpre by lia. split; [rewrite Hx; now apply nt_part|]. split; [exact Ht|]. split; [exact Hw'|]. split; [lia|]. split; [lia|]. split; [exact Hs|exact HW].
Qed.
Lemma KillWhole_row s s' : G s -> cmdKillWholeLine s = Some s' ->
  (forall sc, exists ts, out s' = out s ++ ts /\ shows E s' (D ts sc) 0 [] /\ inside (termw s - 3) sc ts) /\ G s' /\ termw s' = termw s.
Proof.
  intros HG H. pose proof HG as (Hn & Ht & Hw & Hv & Hc & Hs & HW). destruct (G_view s Hn Ht Hw) as [HV _]. unfold cmdKillWholeLine in H. injection H as <-.
  split; [|split; [|reflexivity]].
  - intros sc. exists ([TGoto (topc s + 1)] ++ tm [] ++ [TErase]).
    split; [cbn; now rewrite <- app_assoc|].
    destruct (screen_row E other (topc s) [] sc (termw s - 3) (Forall_nil _)) as (H1 & H2 & H3); [rewrite W_nil; pose proof (VW_lim s); lia|].
    split; [|exact H3]. unfold shows. cbn. split; [unfold zlen; cbn; lia|]. split; [now left|]. split; [exact H1|]. split; [exact H2|]. split; [exact HV|now left].
  - unfold G, Wv. cbn. split; [constructor|]. split; [exact Ht|]. split; [|split; [lia|split; [unfold zlen; cbn; lia|split; [exact Hs|exact HV]]]].
    unfold wide. cbn. split; [apply Hw|]. split; [constructor|]. now left.
Qed.
Lemma KillWhole_Q s s' : G s -> cmdKillWholeLine s = Some s' -> Q s s'.
Proof.
  intros HG H. destruct (KillWhole_row s s' HG H) as (H1 & H2). split; [|exact H2]. intros sc _. destruct (H1 sc) as (ts & H3 & H4 & H5). exists ts. split; [exact H3|]. split; [now exists 0, []|exact H5].
Qed.
Lemma ForwardWord_Q s s' : G s -> cmdForwardWord C s = Some s' -> nt (line s') -> wide C s' -> Q s s'.
Proof.
  intros HG H Hn' Hw'. pose proof HG as (Hn & Ht & Hw & Hv & Hc & Hs & HW). unfold cmdForwardWord in H. opt H.
  apply W_between in Ev0 as (-> & Hb1 & Hb2); [|exact Hn]. match goal with H : context [?a <? ViewWidth s] |- _ => destruct (a <? ViewWidth s) eqn:Hfit end.
  - opt H. injection H as <-. apply advance_Q; auto. lia.
  - apply Q0_Q. eapply Q0_same; [| |apply (reset_Q _ _ H); auto]; reflexivity.
Qed.

(** History: an empty row, then the entry. *)
Lemma show_Q s s' : G s -> show_history C s = Some s' -> nt (line s') -> wide C s' -> Q s s'.
Proof.
  intros HG H Hn' Hw'. unfold show_history in H. destruct (cmdKillWholeLine s) as [s1|] eqn:Hk; [|discriminate].
  pose proof (KillWhole_Q s s1 HG Hk) as HQ. opt H. destruct s0 as [|x t]; [injection H as <-; exact HQ|].
  assert (Hk2 : line s1 = [] /\ view s1 = 0 /\ cursor s1 = 0) by (unfold cmdKillWholeLine in Hk; injection Hk as <-; cbn; auto). destruct Hk2 as (L1 & V1 & C1).
  opt H. unfold InsertString in Ev0. opt Ev0. injection Ev0 as <- <-. apply insert_shape in Ev1 as (l0 & us & -> & _ & Hl).
  set (s2 := set_cursor (set_view (set_undoes (set_cells s1 l0) us) 0) 0) in *.
  assert (HL : line s' = line s2).
  { apply cmdEndOfLine_ref in H. apply (f_equal aline) in H. exact H. }
  assert (HT : termw s' = termw s2).
  { unfold cmdEndOfLine in H. opt H. injection H as <-. cbn [termw eraseline emit]. destruct (_ <? _).
    - opt Ev1. injection Ev1 as <-. apply puts_paints, paints_fields in Ev2 as (_&_&_&_&_&Ev2&_). exact Ev2.
    - opt Ev1. injection Ev1 as <-. apply puts_paints, paints_fields in Ev3 as (_&_&_&_&_&Ev3&_). exact Ev3. }
  destruct (KillWhole_row s s1 HG Hk) as (HR & HG1 & HT1).
  assert (HG2 : G s2).
  { destruct HG1 as (_ & Ht & _ & _ & _ & Hs & HW). unfold G. split; [rewrite <- HL; exact Hn'|]. split; [exact Ht|]. split; [apply (wide_line s'); congruence|].
    change (view s2) with 0. change (cursor s2) with 0. split; [lia|]. split; [apply zlen_nonneg|]. split; [exact Hs|].
    unfold Wv. change (view s2) with 0. change (cursor s2) with 0. change (ViewWidth s2) with (ViewWidth s1). rewrite part_nil, W_nil.
    unfold Wv in HW. rewrite L1, V1, C1 in HW. exact HW. }
  destruct (EndOfLine_some _ _ HG2 H) as (HR2 & HG' & HT').
  split; [|split; [exact HG'|rewrite HT'; exact HT1]]. intros sc Hsc. destruct (HR sc) as (ts & H1 & (_ & _ & Hrow & Hcol & _) & H3). rewrite L1, V1, C1 in *. rewrite part_nil in *.
  destruct (HR2 (D ts sc)) as (ts2 & O2 & S2 & I2).
  - exists 0, []. change (view s2) with 0. change (cursor s2) with 0. change (topc s2) with (topc s1). rewrite !part_nil.
    split; [pose proof (zlen_nonneg (line s2)); lia|]. split; [constructor|]. split; [exact Hrow|exact Hcol].
  - exists (ts ++ ts2). split; [rewrite O2; change (out s2) with (out s1); rewrite H1; now rewrite app_assoc|]. split; [now rewrite D_app|].
    apply inside_app; [exact H3|]. change (termw s2) with (termw s1) in I2. rewrite HT1 in I2. exact I2.
Qed.

Lemma G_same s s' : line s' = line s -> view s' = view s -> cursor s' = cursor s -> topc s' = topc s -> termw s' = termw s -> suffix s' = suffix s -> G s -> G s'.
Proof.
  intros H1 H2 H3 H4 H5 H6 (Hn & Ht & Hw & Hv & Hc & Hs & HW). unfold G, Wv, ViewWidth in *. rewrite H1, H2, H3, H4, H5, H6.
  split; [exact Hn|]. split; [exact Ht|]. split; [apply (wide_line s); auto|]. auto.
Qed.
Lemma Q_same s0 s s' : line s = line s0 -> view s = view s0 -> cursor s = cursor s0 -> topc s = topc s0 -> termw s = termw s0 -> suffix s = suffix s0 -> out s = out s0 ->
  Q s s' -> Q s0 s'.
Proof.
  intros H1 H2 H3 H4 H5 H6 H7 (HR & HG & HT). split; [|split; [exact HG|congruence]]. rewrite <- H5, <- H7 || rewrite <- H5. intros sc Hsc.
  destruct (HR sc) as (ts & T1 & T2 & T3); [eapply shown_same; [..|exact Hsc]; congruence|]. exists ts. rewrite <- H7. auto.
Qed.
Lemma history_Q s s0 h s' : G s -> (s0 = s \/ s0 = set_hptr s h) ->
  (let* s1 := saveModifiedHistory C s0 in show_history C (set_hptr s1 (hptr s1 + 1))) = Some s' \/
  (let* s1 := saveModifiedHistory C s0 in show_history C (set_hptr s1 (hptr s1 - 1))) = Some s' ->
  nt (line s') -> wide C s' -> Q s s'.
Proof.
  intros HG H0 H Hn' Hw'.
  destruct (saveModifiedHistory C s0) as [s1|] eqn:Hsv; [|destruct H; discriminate].
  assert (Hs1 : exists m, s1 = set_modh s0 m).
  { unfold saveModifiedHistory in Hsv. assert (Hr : s0 = set_modh s0 (modh s0)) by (now destruct s0). destruct (hptr s0 <? zlen (hist C)).
    - opt Hsv. destruct (str_eqb s2 (buf_string s0)); injection Hsv as <-; eauto.
    - injection Hsv as <-. eauto. }
  destruct Hs1 as [md ->].
  destruct H as [H|H]; (eapply Q_same; [..|eapply show_Q; [|exact H|exact Hn'|exact Hw']]; [destruct H0 as [-> | ->]; reflexivity..|]); 
    (eapply G_same; [..|exact HG]; destruct H0 as [-> | ->]; reflexivity).
Qed.
Lemma PreviousHistory_Q s s' : G s -> cmdPreviousHistory C s = Some s' -> nt (line s') -> wide C s' -> Q s s'.
Proof.
  intros HG H Hn' Hw'. unfold cmdPreviousHistory in H. destruct (zlen (hist C) <=? 0); [injection H as <-; now apply Q_refl|].
  destruct (hptr s <=? 0); [destruct (negb (cycling C)); [injection H as <-; now apply Q_refl|]|].
  - eapply history_Q; [exact HG|right; reflexivity|right; exact H|exact Hn'|exact Hw'].
  - eapply history_Q; [exact HG|left; reflexivity|right; exact H|exact Hn'|exact Hw'].
    Unshelve. exact 0.
Qed.
Lemma NextHistory_Q s s' : G s -> cmdNextHistory C s = Some s' -> nt (line s') -> wide C s' -> Q s s'.
Proof.
  intros HG H Hn' Hw'. unfold cmdNextHistory in H. destruct (zlen (hist C) <=? 0); [injection H as <-; now apply Q_refl|].
  destruct (zlen (hist C) <? hptr s + 1); [injection H as <-; now apply Q_refl|].
  eapply history_Q; [exact HG|left; reflexivity|left; exact H|exact Hn'|exact Hw'].
    Unshelve. exact 0.
Qed.

(** SWAPCHAR, when all units of the line are one column wide. *)
Lemma aswap_shape l i l' : aswap l i (i + 1) = Some l' -> exists p a b q, l = p ++ [a; b] ++ q /\ l' = p ++ [b; a] ++ q /\ zlen p = i.
Proof.
  unfold aswap. intros H. opt H. unfold index in Ev, Ev0. destruct (0 <=? i) eqn:Hi; [|discriminate]. replace (0 <=? i + 1) with true in Ev0 by lia.
  apply nth_error_split in Ev as (p & q & -> & Hp). rewrite nth_error_app2 in Ev0 by lia. replace (Z.to_nat (i + 1) - List.length p)%nat with 1%nat in Ev0 by lia.
  destruct q as [|b q]; [discriminate|]. cbn in Ev0. injection Ev0 as ->. exists p, m, m0, q.
  assert (Hz : zlen p = i) by (unfold zlen; lia). split; [reflexivity|]. split; [|exact Hz].
  rewrite <- Hz, set_index_mid in Ev1. injection Ev1 as <-.
  replace (p ++ m0 :: m0 :: q) with ((p ++ [m0]) ++ m0 :: q) in H by (now rewrite <- app_assoc). replace (i + 1) with (zlen (p ++ [m0])) in H by (rewrite zlen_app, zlen_cons, zlen_nil; lia).
  rewrite set_index_mid in H. injection H as <-. now rewrite <- app_assoc.
Qed.
Lemma W_units l : Forall (fun m => width E m = 1) l -> W l = zlen l.
Proof. induction 1 as [|m l Hm _ IH]; [reflexivity|]. rewrite W_cons, zlen_cons. lia. Qed.
Lemma SwapChar_Q s s' : G s -> Forall (fun m => width E m = 1) (line s) -> cmdSwapChar C s = Some s' -> Q s s'.
Proof.
  intros HG Hu H. pose proof HG as (Hn & Ht & Hw & Hv & Hc & Hs & HW). unfold cmdSwapChar in H. destruct (zlen (cells s) =? cursor s) eqn:Hend.
  - destruct (cursor s <? 2) eqn:Hc2; [injection H as <-; now apply Q_refl|]. opt H. cbn [cells push_undo set_undoes] in Ev0.
    apply swap_ref in Ev0. change (emojis (cells s)) with (line s) in Ev0. replace (cursor s - 1) with (cursor s - 2 + 1) in Ev0 by lia. apply aswap_shape in Ev0 as (p & a & b & q & Hl & Hl' & Hz).
    set (s2 := GotoHead _) in *. assert (L2 : line s2 = p ++ [b; a] ++ q) by exact Hl'.
    assert (Hq : q = []).
    { rewrite <- zlen_line, Hl, !zlen_app, !zlen_cons in Hend. destruct q as [|x q]; [reflexivity|]. rewrite zlen_cons, zlen_nil in Hend. pose proof (zlen_nonneg q). lia. }
    subst q. rewrite app_nil_r in *.
    assert (Hu2 : Forall (fun m => width E m = 1) (line s2)) by (rewrite L2; rewrite Hl in Hu; apply Forall_app in Hu as [U1 U2]; apply Forall_app; split; [exact U1|]; inversion_clear U2 as [|? ? X1 X2]; inversion_clear X2; now repeat constructor).
    assert (Hn2 : nt (line s2)) by (rewrite L2; rewrite Hl in Hn; apply Forall_app in Hn as [U1 U2]; apply Forall_app; split; [exact U1|]; inversion_clear U2 as [|? ? X1 X2]; inversion_clear X2; now repeat constructor).
    assert (Hz2 : zlen (line s2) = zlen (line s)) by (rewrite L2, Hl, !zlen_app; reflexivity).
    pose proof (paints_fields _ _ (puts_paints C _ _ _ _ H)) as (F1 & F2 & F3 & F4 & F5 & F6 & F7 & _).
    assert (FL : line s' = line s2) by exact F1. assert (FV : ViewWidth s' = ViewWidth s) by (unfold ViewWidth; rewrite F6, F7; reflexivity).
    apply puts_emits in H as (Em & _); [|exact Hn2].
    change (view s2) with (view s) in *. change (cursor s2) with (cursor s) in *. change (topc s2) with (topc s) in *. change (termw s2) with (termw s) in *. change (suffix s2) with (suffix s) in *.
    assert (Hcz : cursor s = zlen (line s)) by (rewrite zlen_line; lia).
    assert (WP : W (part (line s2) (view s) (cursor s)) = W (part (line s) (view s) (cursor s))).
    { rewrite !W_units by (now apply Forall_part). rewrite !zlen_part by lia. reflexivity. }
    assert (HGW : G s').
    { unfold G, Wv. rewrite FL, F3, F4, F5, F7, FV, WP, Hz2. split; [exact Hn2|]. split; [exact Ht|]. split; [|auto].
      unfold wide, V. change (emojis (cells s')) with (line s'). rewrite FL, F6. destruct Hw as (W1 & W2 & W3). split; [exact W1|]. split.
      - change (emojis (cells s)) with (line s) in W2. rewrite Hl in W2. rewrite L2. apply Forall_app in W2 as [U1 U2]. apply Forall_app. split; [exact U1|]. inversion_clear U2 as [|? ? X1 X2]; inversion_clear X2; now repeat constructor.
      - now apply nt_lim. }
    split; [|split; [exact HGW|exact F6]]. intros sc (k & pred & Hk & Hpred & Hrow & Hcol & HWk & Hus).
    assert (Em' : emits s s' ([TGoto (topc s + 1)] ++ tm (part (line s2) (view s) (cursor s)))).
    { eapply emits_trans; [|exact Em]. exists [TGoto (topc s + 1)]. split; reflexivity. }
    apply (R_emits _ s s' _ sc Em'). assert (k = cursor s) by lia. subst k.
    assert (NP : forall l x y, nt l -> ok (part l x y)) by (intros; now apply (nt_ok C HE), nt_part).
    assert (Hokp : ok pred).
    { destruct Hpred as [-> |(_ & _ & rest & Hr)]; [constructor|]. apply (nt_ok C HE). rewrite Hr in Hs. cbn in Hs. now apply Forall_app in Hs. }
    rewrite D_app. set (sc1 := D [TGoto (topc s + 1)] sc). assert (C1 : col sc1 = topc s) by (unfold sc1; cbn; lia).
    assert (R1 : row sc1 = row sc) by reflexivity.
    assert (Hfull : full E (topc s) (part (line s2) (view s) (cursor s) ++ pred) (D (tm (part (line s2) (view s) (cursor s))) sc1)).
    { eapply full_replace; [| | |exact Hrow|exact C1]; [apply Forall_app; split; [now apply NP|exact Hokp]|now apply NP|exact WP]. }
    split.
    + exists (cursor s), pred. unfold shows. rewrite FL, F3, F4, F5, F7, FV, Hz2. split; [exact Hk|]. split; [exact Hpred|]. split; [exact Hfull|].
      split; [rewrite col_tm, C1; reflexivity|]. split; [rewrite W_app in *; lia|left; lia].
    + apply inside_app; [apply inside_other; discriminate|]. apply inside_tm; [now apply NP|]. fold sc1. rewrite C1, WP. pose proof (VW_lim s). unfold Wv in HW. lia.
  - destruct (cursor s <? 1) eqn:Hc2; [injection H as <-; now apply Q_refl|]. opt H. cbn [cells push_undo set_undoes] in Ev1.
    apply swap_ref in Ev1. change (emojis (cells s)) with (line s) in Ev1. replace (cursor s) with (cursor s - 1 + 1) in Ev1 at 2 by lia. apply aswap_shape in Ev1 as (p & a & b & q & Hl & Hl' & Hz).
    apply W_between in Ev0 as (-> & Hb1 & Hb2); [|exact Hn].
    set (c := cursor s) in *. cbn [view push_undo set_undoes cursor] in H. change (line (push_undo s (mkUndo (c - 1) 2 s0))) with (line s) in *.
    set (s2 := GotoHead _) in *. assert (L2 : line s2 = p ++ [b; a] ++ q) by exact Hl'.
    set (v := view s) in *. set (v' := if ViewWidth s <=? W (part (line s) v (c + 1)) then v + 1 else v).
    assert (Hs3 : (if ViewWidth s2 <=? W (part (line s) v (c + 1)) then set_view s2 (view s2 + 1) else s2) = set_view s2 v').
    { unfold v'. change (ViewWidth s2) with (ViewWidth s). destruct (_ <=? _); reflexivity. }
    cbv zeta in H. rewrite Hs3 in H. clear Hs3. cbn [view cursor set_view set_cursor] in H.
    assert (SW : forall P : moji -> Prop, Forall P (line s) -> Forall P (line s2)).
    { intros P HF. rewrite L2. rewrite Hl in HF. apply Forall_app in HF as [U1 U2]. apply Forall_app in U2 as [U2 U3]. apply Forall_app. split; [exact U1|]. apply Forall_app. split; [|exact U3].
      inversion_clear U2 as [|? ? X1 X2]; inversion_clear X2; now repeat constructor. }
    assert (Hu2 := SW _ Hu). assert (Hn2 : nt (line s2)) by apply (SW _ Hn).
    assert (Hz2 : zlen (line s2) = zlen (line s)) by (rewrite L2, Hl, !zlen_app; reflexivity).
    pose proof (paints_fields _ _ (puts_paints C _ _ _ _ H)) as (F1 & F2 & F3 & F4 & F5 & F6 & F7 & _).
    assert (FL : line s' = line s2) by exact F1. assert (FV : ViewWidth s' = ViewWidth s) by (unfold ViewWidth; rewrite F6, F7; reflexivity).
    apply puts_emits in H as (Em & _); [|exact Hn2]. change (line (set_cursor (set_view s2 v') (c + 1))) with (line s2) in Em.
    cbn [view cursor topc termw suffix set_view set_cursor] in F3, F4, F5, F6, F7.
    change (topc s2) with (topc s) in *. change (termw s2) with (termw s) in *. change (suffix s2) with (suffix s) in *.
    assert (UP : forall x y, 0 <= x <= y -> y <= zlen (line s) -> W (part (line s) x y) = y - x) by (intros; rewrite W_units by (now apply Forall_part); apply zlen_part; lia).
    assert (UP2 : forall x y, 0 <= x <= y -> y <= zlen (line s) -> W (part (line s2) x y) = y - x) by (intros; rewrite W_units by (now apply Forall_part); apply zlen_part; lia).
    unfold Wv in HW. fold c v in HW. rewrite UP in HW by lia.
    assert (Hv' : v <= v' <= c + 1 /\ c + 1 - v' < ViewWidth s /\ (v' = v \/ c + 1 - v = ViewWidth s /\ v' = v + 1)).
    { unfold v'. rewrite UP by lia. destruct (ViewWidth s <=? c + 1 - v) eqn:Hq; lia. }
    clearbody v'. destruct Hv' as (Hv1 & HW' & Hvc).
    assert (HGW : G s').
    { unfold G, Wv. rewrite FL, F3, F4, F5, F7, FV, Hz2, UP2 by lia. split; [exact Hn2|]. split; [exact Ht|]. split; [|repeat (split; [lia || exact Hs|]); exact HW'].
      unfold wide, V. change (emojis (cells s')) with (line s'). rewrite FL, F6. destruct Hw as (W1 & W2 & W3). split; [exact W1|]. split; [apply (SW _ W2)|now apply nt_lim]. }
    split; [|split; [exact HGW|exact F6]]. intros sc (k & pred & Hk & Hpred & Hrow & Hcol & HWk & Hus). fold c v in Hk, Hpred, Hrow, HWk, Hus.
    assert (Em' : emits s s' ([TGoto (topc s + 1)] ++ tm (part (line s2) v' (c + 1)))).
    { eapply emits_trans; [|exact Em]. exists [TGoto (topc s + 1)]. split; reflexivity. }
    apply (R_emits _ s s' _ sc Em').
    assert (pred = []) by (destruct Hpred as [Hp|(Hp & _)]; [exact Hp|exfalso; rewrite zlen_line in Hp; lia]). subst pred. rewrite app_nil_r in *. rewrite UP in HWk by lia.
    assert (NP : forall l x y, nt l -> ok (part l x y)) by (intros; now apply (nt_ok C HE), nt_part).
    rewrite D_app. set (sc1 := D [TGoto (topc s + 1)] sc). assert (C1 : col sc1 = topc s) by (unfold sc1; cbn; lia).
    assert (R1 : row sc1 = row sc) by reflexivity.
    assert (Hins : inside (termw s - 3) sc ([TGoto (topc s + 1)] ++ tm (part (line s2) v' (c + 1)))).
    { apply inside_app; [apply inside_other; discriminate|]. apply inside_tm; [now apply NP|]. fold sc1. rewrite C1, UP2 by lia. pose proof (VW_lim s). lia. }
    assert (Fin : forall k', c + 1 <= k' <= zlen (line s) -> k' - v' < ViewWidth s -> k' = zlen (line s) \/ ViewWidth s <= k' + 1 - v' + 2 -> full E (topc s) (part (line s2) v' k') (D (tm (part (line s2) v' (c + 1))) sc1) ->
       shown s' (D (tm (part (line s2) v' (c + 1))) sc1) /\ inside (termw s - 3) sc ([TGoto (topc s + 1)] ++ tm (part (line s2) v' (c + 1)))).
    { intros k' Hk1 Hk2 Hk3 Hf. split; [|exact Hins]. exists k', []. unfold shows. rewrite app_nil_r, FL, F4, F5, F7, FV, Hz2. split; [lia|]. split; [now left|]. split; [exact Hf|].
      split; [now rewrite col_tm, C1|]. split; [rewrite UP2 by lia; exact Hk2|]. destruct Hk3 as [Hk3|Hk3]; [now left|]. destruct (Z.eq_dec k' (zlen (line s))); [now left|right]. rewrite UP2 by lia. lia. }
    assert (Hus2 : k = zlen (line s) \/ ViewWidth s <= k + 1 - v + 2).
    { destruct Hus as [Hus|Hus]; [now left|]. destruct (Z.eq_dec k (zlen (line s))); [now left|right]. rewrite UP in Hus by lia. lia. }
    destruct Hvc as [-> |[Hvc ->]].
    + destruct (Z.eq_dec k c) as [-> |Hkc].
      * apply (Fin (c + 1)); [lia|lia|lia|]. rewrite (part_split (line s2) v c (c + 1)) by lia. unfold tm. rewrite map_app. fold (tm (part (line s2) v c)). fold (tm (part (line s2) c (c + 1))). rewrite D_app.
        apply full_extend; [now apply NP|now apply NP| |rewrite col_tm, C1; reflexivity].
        rewrite <- (app_nil_r (part (line s2) v c)) at 1. apply (full_replace E other (topc s) (part (line s) v c)); [rewrite app_nil_r; now apply NP|now apply NP| |rewrite app_nil_r; exact Hrow|exact C1].
        rewrite UP, UP2 by lia. reflexivity.
      * apply (Fin k); [lia|lia|lia|]. rewrite (part_split (line s2) v (c + 1) k) by lia.
        assert (Hsm : part (line s2) (c + 1) k = part (line s) (c + 1) k).
        { rewrite L2, Hl. replace (c + 1) with (zlen p + 2) by lia.
          assert (PA : forall x y, part (p ++ [x; y] ++ q) (zlen p + 2) k = firstn (Z.to_nat (k - (zlen p + 2))) q).
          { intros x y. unfold part. f_equal. rewrite app_assoc, skipn_app. replace (Z.to_nat (zlen p + 2)) with (List.length (p ++ [x; y])) by (rewrite app_length; unfold zlen in *; cbn; lia).
            now rewrite skipn_all, Nat.sub_diag. }
          now rewrite !PA. }
        rewrite Hsm. apply (full_replace E other (topc s) (part (line s) v (c + 1))); [rewrite <- part_split by lia; now apply NP|now apply NP| |rewrite <- part_split by lia; exact Hrow|exact C1].
        rewrite UP, UP2 by lia. reflexivity.
    + apply (Fin (c + 1)); [lia|lia|lia|]. rewrite <- (app_nil_r (part (line s2) (v + 1) (c + 1))) at 1.
      assert (k = c) by lia. subst k.
      apply (full_replace E other (topc s) (part (line s) v c)); [rewrite app_nil_r; now apply NP|now apply NP| |rewrite app_nil_r; exact Hrow|exact C1].
      rewrite UP, UP2 by lia. lia.
Qed.

Lemma exec_Q c s s' r : G s -> (forall f, c <> CUser f) -> c <> CInterrupt ->
  (c = CForwardChar -> Forall (fun m => 1 <= width E m <= 2) (line s) \/ W (part (line s) (view s) (cursor s + 1)) < ViewWidth s) ->
  (c = CSwapChar -> Forall (fun m => width E m = 1) (line s)) ->
  exec C c s = Some (s', r) -> nt (line s') -> wide C s' -> Q s s'.
Proof.
  intros HG HU HI HF HS H Hn Hw. destruct c; cbn [exec] in H; try (exfalso; now apply HI); try (exfalso; now apply (HU f));
    try (unfold continue_ in H; match type of H with (match ?o with Some _ => _ | None => _ end) = _ => destruct o as [s1|] eqn:Ho; [|discriminate] end; injection H as <- <-).
  - injection H as <- <-. now apply Q_refl.
  - apply Q0_Q. eapply BeginningOfLine_Q; eauto.
  - eapply BackwardChar_Q; eauto.
  - eapply EndOfLine_Q; eauto.
  - eapply ForwardChar_Q; eauto.
  - eapply BackwardDelete_Q; eauto.
  - apply Q0_Q. eapply DeleteChar_Q; eauto.
  - unfold cmdDeleteOrAbort in H. destruct (0 <? zlen (cells s)).
    + opt H. injection H as <- <-. apply Q0_Q. eapply DeleteChar_Q; eauto.
    + injection H as <- <-. now apply Q_refl.
  - eapply KillLine_Q; eauto.
  - eapply KillWhole_Q; eauto.
  - apply Q0_Q. eapply WordRubout_Q; eauto.
  - apply Q0_Q. eapply LineDiscard_Q; eauto.
  - apply Q0_Q. eapply RepaintAll_Q; eauto. intros m [Hm|[]]. discriminate.
  - apply Q0_Q. eapply RepaintAll_Q; eauto. intros m [Hm|[]]. discriminate.
  - injection H as <- <-. now apply Q_refl.
  - eapply Yank_Q; eauto.
  - eapply YankQ_Q; eauto.
  - eapply SwapChar_Q; eauto.
  - apply Q0_Q. eapply BackwardWord_Q; eauto.
  - eapply ForwardWord_Q; eauto.
  - eapply Undo_Q; eauto.
  - eapply PreviousHistory_Q; eauto.
  - eapply NextHistory_Q; eauto.
  - injection H as <- <-. now apply Q_refl.
  - eapply selfInsert_Q; eauto.
Qed.
End Screen.
