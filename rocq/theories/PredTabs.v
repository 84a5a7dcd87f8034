(** The prediction on the screen beside tabs. *)
From Verif Require Import Base Utf8 Moji Color Prompt Buffer Commands KeyMap Session MojiFacts Abs AbsRef AbsSess
  AbsSafe AbsInv Safe Spec SpecScreen SpecTabScreen SpecTabScroll ScreenFacts ScreenPaint ScreenCmd TabScreen TabScroll SpecPredShown.
From Verif Require PredShown TabScrollSess.
Ltac lia := unfold rune in *; Lia.lia.

Section Screen.
Variable C : cfg.
Notation E := (cE C).
Hypothesis HE : env_ok E.
Variable other : terminal.
Notation D := (display E other).
Notation W := (total_width E).
Notation laid := (laid E).
Notation oka := (ok_any C HE).
Notation Room := (Room C).
Definition tabs (l : list moji) : Z := zlen (filter (fun m => negb (tabfree m)) l).

Lemma stale_width cs : Forall ut (emojis cs) -> range_width C cs <= W (emojis cs) + 3 * tabs (emojis cs).
Proof.
  induction cs as [|c cs IH]; intros H; [apply Z.le_refl|]. change (emojis (c :: cs)) with (emoji c :: emojis cs) in *. apply Forall_cons_iff in H as [Hc H]. specialize (IH H).
  cbn [range_width]. rewrite W_cons. unfold tabs in *. cbn [filter].
  pose proof (ut_moji c Hc) as Hm. destruct Hc as [Hc|Hc].
  - rewrite Hc. cbn [negb]. destruct (c_moji c) eqn:Hcm; try (rewrite Hm; lia). rewrite Hm in Hc. discriminate.
  - rewrite Hc. cbn [tabfree negb]. rewrite zlen_cons. destruct (c_moji c); try congruence. pose proof (rem4 pos). cbn [width]. change (Z.rem 0 4) with 0. lia.
Qed.
Lemma repaintW_whole s s' l : repaintWithoutUpdateSuffix C s = Some s' -> Room s -> suffix s = Some l -> pcolor0 C <> [] -> cursor s = zlen (line s) ->
  W (part (line s) (view s) (zlen (line s))) + 3 * tabs (part (line s) (view s) (zlen (line s))) + W l < ViewWidth s ->
  forall sc, exists ts, out s' = out s ++ ts /\ let a := part (laid 0 (line s)) (view s) (zlen (line s)) in
    full E (topc s) (a ++ l) (D ts sc) /\ col (D ts sc) = topc s + W a.
Proof.
  intros H HR Hsuf Hpc Hend Hroom. pose proof (repaintW_paints C s s' H) as Hp. unfold repaintWithoutUpdateSuffix in H.
  destruct (getView2 C s) as [[e w]|] eqn:Hg; [|discriminate].
  assert (ZC : zlen (line s) = zlen (cells s)) by apply zlen_map.
  assert (HV : 0 < ViewWidth s). { pose proof (W_pos C HE l). pose proof (W_pos C HE (part (line s) (view s) (zlen (line s)))). unfold tabs in *. pose proof (zlen_nonneg (filter (fun m => negb (tabfree m)) (part (line s) (view s) (zlen (line s))))). lia. }
  apply (view_S C HE) in Hg as (d & n & Hd & He & Hn & Hw0 & Hg). destruct (Hg HV) as [Hw1 Hmax].
  assert (Hdl : zlen d = zlen (cells s) - view s /\ emojis d = part (line s) (view s) (zlen (line s))).
  { apply slice_some in Hd as (X1 & X2 & ->). split; [unfold zlen in *; rewrite firstn_length_le; [lia|]; rewrite skipn_length; lia|].
    unfold part, line. change (fun c => unit_of (c_moji c)) with emoji. unfold emojis. rewrite zlen_map, skipn_map, firstn_map. reflexivity. }
  destruct Hdl as [Hdl Hde].
  assert (Hfit : range_width C d + W l < ViewWidth s).
  { assert (Hud : Forall ut (emojis d)). { rewrite Hde. unfold part. apply Forall_firstn, Forall_skipn. apply HR. }
    pose proof (stale_width d Hud) as Hst. rewrite Hde in Hst. lia. }
  assert (He' : n = List.length d). { pose proof (W_pos C HE l). specialize (Hmax (List.length d) (le_n _)). rewrite firstn_all in Hmax. specialize (Hmax ltac:(lia)). lia. }
  subst n. rewrite firstn_all in Hw1. assert (e = zlen (line s)) by (unfold zlen in *; lia). subst e. rewrite H0 in *. clear H0.
  destruct (puts C (GotoHead s) (view (GotoHead s)) (zlen (line s))) as [s2|] eqn:Hp1; [|discriminate].
  pose proof (paints_fields _ _ (puts_paints C _ _ _ _ Hp1)) as (F1 & F2 & F3 & F4 & F5 & F6 & F7 & _).
  apply (puts_S C HE) in Hp1 as (Em1 & B1 & B2 & _); [|exact HR]. change (line (GotoHead s)) with (line s) in *. change (view (GotoHead s)) with (view s) in *.
  assert (L2 : line s2 = line s) by exact F1.
  match type of H with (match ?o with Some _ => _ | None => _ end) = _ => destruct o as [s3|] eqn:Hs3 in H; [|discriminate] end.
  assert (Hpr : exists ts, s3 = emit s2 ts /\ vis ts = tm l).
  { destruct (pcolor0 C) as [|c0 p0] eqn:Hp0; [congruence|].
    assert (Hsx : suffix s2 = Some l) by (rewrite F3; exact Hsuf). rewrite Hsx in Hs3. destruct l as [|m0 l0].
    { injection Hs3 as <-. exists []. split; [destruct s2; unfold emit; cbn; now rewrite app_nil_r|reflexivity]. }
    destruct (paint_suffix C (ViewWidth s2) w (Suffix C s2)) as [ts|] eqn:Hps; [|discriminate]. injection Hs3 as <-.
    assert (Hvw : ViewWidth s2 = ViewWidth s) by (unfold ViewWidth; rewrite F6, F7; reflexivity). rewrite Hvw in Hps.
    assert (Hsu : Suffix C s2 = m0 :: l0).
    { unfold Suffix. rewrite Hp0, Hsx. replace (cursor s2 =? zlen (cells s2)) with true; [reflexivity|]. rewrite F5, F2. cbn [cursor GotoHead emit cells]. lia. }
    rewrite Hsu in Hps. apply PredShown.paint_suffix_all in Hps as (p & r & Hpr & -> & Hww & Hrr); [|pose proof (W_pos C HE (m0 :: l0)); lia].
    assert (r = []). { destruct Hrr as [Hr|(m & r' & -> & Hr)]; [exact Hr|exfalso]. rewrite Hpr in Hfit. replace (p ++ m :: r') with ((p ++ [m]) ++ r') in Hfit by (now rewrite <- app_assoc). rewrite W_app in Hfit. pose proof (W_pos C HE r'). lia. }
    subst r. rewrite app_nil_r in Hpr. subst p. eexists. split; [reflexivity|].
    change (TAttr (c0 :: p0) :: tm (m0 :: l0) ++ [TAttr (pcolor1 C)]) with ([TAttr (c0 :: p0)] ++ tm (m0 :: l0) ++ [TAttr (pcolor1 C)]).
    rewrite !vis_app, vis_tm. cbn. now rewrite app_nil_r. }
  clear Hs3. destruct Hpr as (tp & -> & Hvp).
  assert (L3 : line (GotoHead (eraseline (emit s2 tp))) = line s) by exact F1.
  apply (puts_S C HE) in H as (Em2 & B3 & B4 & _); [|now apply (Room_same C s)]. rewrite L3 in Em2, B4. cbn [view cursor GotoHead eraseline emit] in Em2, B3, B4. rewrite F4, F5 in Em2, B3. rewrite F5 in B4. cbn [view cursor GotoHead emit] in Em2, B3, B4.
  rewrite Hend in Em2. set (a := part (laid 0 (line s)) (view s) (zlen (line s))) in *.
  assert (Em : emits s s' (([TGoto (topc s + 1)] ++ tm (a ++ l) ++ [TErase]) ++ [TGoto (topc s + 1)] ++ tm a)).
  { unfold tm at 1. rewrite map_app. fold (tm a). fold (tm l). rewrite <- !app_assoc. eapply emits_trans; [apply (emits_emit s [TGoto (topc s + 1)])|]. eapply emits_trans; [exact Em1|].
    apply (emits_trans _ (emit s2 tp)); [exists tp; split; [reflexivity|exact Hvp]|].
    change ([TErase] ++ [TGoto (topc s + 1)] ++ ?a) with ([TErase; TGoto (topc s + 1)] ++ a).
    eapply emits_trans; [|exact Em2]. exists [TErase; TGoto (topc s2 + 1)]. split; [cbn; now rewrite <- app_assoc|]. cbn. rewrite F7. reflexivity. }
  intros sc. destruct Em as (ts & Ho & Hvis). exists ts. split; [exact Ho|]. cbv zeta. fold a. rewrite <- (D_vis C other ts), Hvis, D_app.
  destruct (screen_row E other (topc s) (a ++ l) sc _ (oka _) (Z.le_refl _)) as (S1 & S2 & _). rewrite D_app, D_goto. set (sc1 := D (_ ++ _) sc) in *.
  split; [|rewrite col_tm; cbn; lia].
  apply (full_over E other (topc s) a [] l); [apply oka|exact S1|rewrite W_nil; cbn; lia].
Qed.
Lemma repaint_whole s1 s' : repaint C s1 = Some s' -> Room s' -> pcolor0 C <> [] -> cursor s' = zlen (line s') -> line s' <> [] -> room_for_both C s' ->
  forall sc, exists ts, out s' = out s1 ++ ts /\ shows_whole_prediction C s' (D ts sc).
Proof.
  intros H HR Hpc Hend Hne Hroom sc. pose proof (repaint_shape C s1 s' H) as (l & ts & Hs' & He). unfold repaint in H.
  assert (Hl : line s' = line s1) by (rewrite Hs'; exact He).
  assert (Hu : updateSuffix C s1 = set_suffix s1 (Some (StringToMoji E (predictor C (buf_string s1) (cursor s1))))).
  { unfold updateSuffix. destruct (pcolor0 C); [congruence|]. destruct (cells s1) eqn:Hc; [|reflexivity]. exfalso. apply Hne. rewrite Hl. unfold line. now rewrite Hc. }
  rewrite Hu in H, Hs'. set (pl := StringToMoji E (predictor C (buf_string s1) (cursor s1))) in *.
  assert (F : view s' = view s1 /\ cursor s' = cursor s1 /\ topc s' = topc s1 /\ termw s' = termw s1) by (rewrite Hs'; repeat split).
  destruct F as (F1 & F2 & F3 & F4).
  assert (K : buf_string s1 = written (line s')) by (rewrite Hl; unfold buf_string; rewrite cell2string_text; reflexivity).
  assert (Hpl : StringToMoji E (predictor C (written (line s')) (cursor s')) = pl) by (unfold pl; now rewrite K, F2).
  unfold room_for_both, shows_whole_prediction in *. rewrite Hpl in *. unfold ViewWidth in Hroom. rewrite F1, F3, F4, Hl in Hroom. rewrite F1, F3, Hl.
  destruct (repaintW_whole (set_suffix s1 (Some pl)) s' pl H) with (sc := sc) as (t & O & X).
  - apply (Room_same C s'); [symmetry; exact Hl|exact HR].
  - reflexivity.
  - exact Hpc.
  - change (cursor s1 = zlen (line s1)). now rewrite <- Hl, <- F2.
  - exact Hroom.
  - exists t. split; [exact O|exact X].
Qed.
End Screen.

(** Whole sessions. *)
Section Sess.
Variable S : scfg.
Notation C := (base S).
Hypothesis HE : env_ok (cE C).
Hypothesis HB : only_builtin S.
Lemma calm_scroll_app es e : forall x y, calm_scroll S (es ++ [e]) x -> run S es x = Some y -> calm_scroll S es x /\ forall z, step S e y = Some z -> tabs_apart S z.
Proof.
  induction es as [|a es IH]; intros x y H Hr; cbn [run app calm_scroll] in *.
  - injection Hr as <-. destruct H as (H1 & _ & H2). split; [auto|]. intros z Hz. exact (proj1 (H2 z Hz)).
  - opt Hr. destruct H as (H1 & H2 & H3). destruct (IH _ _ (H3 _ eq_refl) Hr) as [H4 H5]. split; [|exact H5]. split; [exact H1|]. split; [exact H2|].
    intros x' [= <-]. exact H4.
Qed.
Lemma painted_whole s' other sc : PredShown.painted S s' -> tabs_apart S (Running MNormal s') -> pcolor0 C <> [] -> cursor s' = zlen (line s') -> line s' <> [] -> room_for_both C s' ->
  shows_whole_prediction C s' (display (cE C) other (out s') sc).
Proof.
  intros (s1 & s2 & ts & H1 & -> & H2) HR Hpc Hc Hl Hroom.
  destruct (repaint_whole C HE other s1 s2 H1 HR Hpc Hc Hl Hroom (display (cE C) other (out s1) sc)) as (t & O & Sh).
  cbn [out emit]. rewrite O, !D_app, <- (D_vis C other ts), H2. exact Sh.
Qed.
Lemma whole_session default cur w cl es e x s :
  (forall x0, start S default cur w cl = Some x0 -> calm_scroll S (es ++ [e]) x0) ->
  readline S default cur w cl es = Some x -> step S e x = Some (Running MNormal s) -> predicts_anew S e x ->
  pcolor0 C <> [] -> cursor s = zlen (line s) -> line s <> [] -> room_for_both C s ->
  forall other sc, shows_whole_prediction C s (display (cE C) other (out s) sc).
Proof.
  intros Hc H Hst He Hpc Hcu Hl Hroom other sc.
  assert (HH : (forall x0, start S default cur w cl = Some x0 -> calm_scroll S es x0) /\ tabs_apart S (Running MNormal s)).
  { unfold readline in H. destruct (start S default cur w cl) as [x0|] eqn:Hx0; [|discriminate]. destruct (calm_scroll_app es e x0 x (Hc x0 eq_refl) H) as [H1 H2].
    split; [intros x1 [= <-]; exact H1|exact (H2 _ Hst)]. }
  destruct HH as [Hc0 HR]. destruct (TabScrollSess.readline_screen S HE other HB default cur w cl es x sc Hc0 H) as [HG _].
  apply painted_whole; auto. eapply PredShown.step_painted; [exact Hst|exact He| |split; assumption].
  destruct x as [m sx|sx t r]; [|destruct e; discriminate Hst]. destruct HG as [(_ & HG & _) _]. cbn [buf_of]. lia.
Qed.
End Sess.
