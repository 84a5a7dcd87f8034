(** As much of the prediction as fits, beside tabs. *)
From Verif Require Import Base Utf8 Moji Color Prompt Buffer Commands KeyMap Session MojiFacts Abs AbsRef AbsSess
  AbsSafe AbsInv Safe Spec SpecScreen SpecTabScreen SpecTabScroll ScreenFacts ScreenPaint ScreenCmd TabScreen TabScroll SpecPredShown.
From Verif Require PredShown TabScrollSess PredTabs.
Ltac lia := unfold rune in *; Lia.lia.

Section Screen.
Variable C : cfg.
Notation E := (cE C).
Hypothesis HE : env_ok E.
Variable other : terminal.
Notation D := (display E other).
Notation W := (total_width E).
Notation laid := (laid E).
Notation oka := (ok_any C HE).
Notation Room := (Room C).

Lemma stale_low cs : Forall ut (emojis cs) -> W (emojis cs) <= range_width C cs + tab_doubt (emojis cs).
Proof.
  induction cs as [|c cs IH]; intros H; [apply Z.le_refl|]. change (emojis (c :: cs)) with (emoji c :: emojis cs) in *. apply Forall_cons_iff in H as [Hc H]. specialize (IH H).
  cbn [range_width]. rewrite W_cons. unfold tab_doubt in *. cbn [filter].
  pose proof (ut_moji c Hc) as Hm. destruct Hc as [Hc|Hc].
  - rewrite Hc. cbn [negb]. destruct (c_moji c) eqn:Hcm; try (rewrite Hm; lia). rewrite Hm in Hc. discriminate.
  - rewrite Hc. cbn [tabfree negb]. rewrite zlen_cons. destruct (c_moji c); try congruence. pose proof (rem4 pos). cbn [width]. change (Z.rem 0 4) with 0. lia.
Qed.
Lemma repaintW_core s s' l d : repaintWithoutUpdateSuffix C s = Some s' -> Room s -> suffix s = Some l -> pcolor0 C <> [] -> cursor s = zlen (line s) ->
  slice (cells s) (view s) (zlen (cells s)) = Some d -> range_width C d < ViewWidth s ->
  exists pred rest, l = pred ++ rest /\ range_width C d + W pred < ViewWidth s /\
    (rest = [] \/ exists m rest', rest = m :: rest' /\ ViewWidth s <= range_width C d + W (pred ++ [m])) /\
  forall sc, exists ts, out s' = out s ++ ts /\ let a := part (laid 0 (line s)) (view s) (zlen (line s)) in
    full E (topc s) (a ++ pred) (D ts sc) /\ col (D ts sc) = topc s + W a.
Proof.
  intros H HR Hsuf Hpc Hend Hd Hroom. unfold repaintWithoutUpdateSuffix in H.
  destruct (getView2 C s) as [[e w]|] eqn:Hg; [|discriminate].
  assert (ZC : zlen (line s) = zlen (cells s)) by apply zlen_map.
  assert (HV : 0 < ViewWidth s). { rewrite range_W in Hroom. pose proof (W_pos C HE (map c_moji d)). lia. }
  apply (view_S C HE) in Hg as (d0 & n & Hd0 & He & Hn & Hw0 & Hg). rewrite Hd in Hd0. injection Hd0 as <-. destruct (Hg HV) as [Hw1 Hmax].
  assert (Hdl : zlen d = zlen (cells s) - view s).
  { apply slice_some in Hd as (X1 & X2 & ->). unfold zlen in *; rewrite firstn_length_le; [lia|]; rewrite skipn_length; lia. }
  assert (He' : n = List.length d). { specialize (Hmax (List.length d) (le_n _)). rewrite firstn_all in Hmax. specialize (Hmax ltac:(lia)). lia. }
  subst n. rewrite firstn_all in Hw1. assert (e = zlen (line s)) by (unfold zlen in *; lia). subst e. rewrite H0 in *. clear H0.
  destruct (puts C (GotoHead s) (view (GotoHead s)) (zlen (line s))) as [s2|] eqn:Hp1; [|discriminate].
  pose proof (paints_fields _ _ (puts_paints C _ _ _ _ Hp1)) as (F1 & F2 & F3 & F4 & F5 & F6 & F7 & _).
  apply (puts_S C HE) in Hp1 as (Em1 & B1 & B2 & _); [|exact HR]. change (line (GotoHead s)) with (line s) in *. change (view (GotoHead s)) with (view s) in *.
  assert (L2 : line s2 = line s) by exact F1.
  match type of H with (match ?o with Some _ => _ | None => _ end) = _ => destruct o as [s3|] eqn:Hs3 in H; [|discriminate] end.
  assert (Hpr : exists p q ts, l = p ++ q /\ s3 = emit s2 ts /\ vis ts = tm p /\ w + W p < ViewWidth s /\ (q = [] \/ exists m q', q = m :: q' /\ ViewWidth s <= w + W (p ++ [m]))).
  { destruct (pcolor0 C) as [|c0 p0] eqn:Hp0; [congruence|].
    assert (Hsx : suffix s2 = Some l) by (rewrite F3; exact Hsuf). rewrite Hsx in Hs3. destruct l as [|m0 l0].
    { injection Hs3 as <-. exists [], [], []. split; [reflexivity|]. split; [destruct s2; unfold emit; cbn; now rewrite app_nil_r|]. split; [reflexivity|]. split; [rewrite W_nil; lia|now left]. }
    destruct (paint_suffix C (ViewWidth s2) w (Suffix C s2)) as [ts|] eqn:Hps; [|discriminate]. injection Hs3 as <-.
    assert (Hvw : ViewWidth s2 = ViewWidth s) by (unfold ViewWidth; rewrite F6, F7; reflexivity). rewrite Hvw in Hps.
    assert (Hsu : Suffix C s2 = m0 :: l0).
    { unfold Suffix. rewrite Hp0, Hsx. replace (cursor s2 =? zlen (cells s2)) with true; [reflexivity|]. rewrite F5, F2. cbn [cursor GotoHead emit cells]. lia. }
    rewrite Hsu in Hps. apply PredShown.paint_suffix_all in Hps as (p & q & Hpr & -> & Hww & Hrr); [|lia].
    exists p, q. eexists. split; [exact Hpr|]. split; [reflexivity|]. split; [|split; assumption].
    change (TAttr (c0 :: p0) :: tm p ++ [TAttr (pcolor1 C)]) with ([TAttr (c0 :: p0)] ++ tm p ++ [TAttr (pcolor1 C)]).
    rewrite !vis_app, vis_tm. cbn. now rewrite app_nil_r. }
  clear Hs3. destruct Hpr as (p & q & tp & Hl & -> & Hvp & Hw2 & Hq).
  exists p, q. split; [exact Hl|]. split; [lia|]. split.
  { destruct Hq as [Hq|(m & q' & -> & Hq)]; [now left|right]. exists m, q'. split; [reflexivity|]. lia. }
  assert (L3 : line (GotoHead (eraseline (emit s2 tp))) = line s) by exact F1.
  apply (puts_S C HE) in H as (Em2 & B3 & B4 & _); [|now apply (Room_same C s)]. rewrite L3 in Em2, B4. cbn [view cursor GotoHead eraseline emit] in Em2, B3, B4. rewrite F4, F5 in Em2, B3. rewrite F5 in B4. cbn [view cursor GotoHead emit] in Em2, B3, B4.
  rewrite Hend in Em2. set (a := part (laid 0 (line s)) (view s) (zlen (line s))) in *.
  assert (Em : emits s s' (([TGoto (topc s + 1)] ++ tm (a ++ p) ++ [TErase]) ++ [TGoto (topc s + 1)] ++ tm a)).
  { unfold tm at 1. rewrite map_app. fold (tm a). fold (tm p). rewrite <- !app_assoc. eapply emits_trans; [apply (emits_emit s [TGoto (topc s + 1)])|]. eapply emits_trans; [exact Em1|].
    apply (emits_trans _ (emit s2 tp)); [exists tp; split; [reflexivity|exact Hvp]|].
    change ([TErase] ++ [TGoto (topc s + 1)] ++ ?a) with ([TErase; TGoto (topc s + 1)] ++ a).
    eapply emits_trans; [|exact Em2]. exists [TErase; TGoto (topc s2 + 1)]. split; [cbn; now rewrite <- app_assoc|]. cbn. rewrite F7. reflexivity. }
  intros sc. destruct Em as (ts & Ho & Hvis). exists ts. split; [exact Ho|]. cbv zeta. fold a. rewrite <- (D_vis C other ts), Hvis, D_app.
  destruct (screen_row E other (topc s) (a ++ p) sc _ (oka _) (Z.le_refl _)) as (S1 & S2 & _). rewrite D_app, D_goto. set (sc1 := D (_ ++ _) sc) in *.
  split; [|rewrite col_tm; cbn; lia].
  apply (full_over E other (topc s) a [] p); [apply oka|exact S1|rewrite W_nil; cbn; lia].
Qed.
Lemma slice_view s : 0 <= view s <= zlen (line s) -> exists d, slice (cells s) (view s) (zlen (cells s)) = Some d /\ emojis d = part (line s) (view s) (zlen (line s)).
Proof.
  intros Hv. assert (ZC : zlen (line s) = zlen (cells s)) by apply zlen_map. unfold slice. replace ((0 <=? view s) && (view s <=? zlen (cells s)) && (zlen (cells s) <=? zlen (cells s))) with true by lia.
  eexists. split; [reflexivity|]. unfold part, line. change (fun c => unit_of (c_moji c)) with emoji. unfold emojis. rewrite zlen_map, skipn_map, firstn_map. reflexivity.
Qed.
Lemma repaintW_view s s' : repaintWithoutUpdateSuffix C s = Some s' -> Room s -> 0 <= view s <= zlen (line s).
Proof.
  intros H HR. unfold repaintWithoutUpdateSuffix in H. destruct (getView2 C s) as [[e w]|] eqn:Hg; [|discriminate].
  unfold getView2, getView in Hg. destruct (slice (cells s) (view s) (zlen (cells s))) as [d|] eqn:Hd; [|discriminate].
  assert (ZC : zlen (line s) = zlen (cells s)) by apply zlen_map. apply slice_some in Hd as (X1 & X2 & _). lia.
Qed.
Lemma repaintW_cut s s' l : repaintWithoutUpdateSuffix C s = Some s' -> Room s -> suffix s = Some l -> pcolor0 C <> [] -> cursor s = zlen (line s) ->
  let r := part (line s) (view s) (zlen (line s)) in
  W r + tab_doubt r < ViewWidth s ->
  exists pred rest, l = pred ++ rest /\ W (r ++ pred) < ViewWidth s + tab_doubt r /\
    (rest = [] \/ exists m rest', rest = m :: rest' /\ ViewWidth s <= W (r ++ pred ++ [m]) + tab_doubt r) /\
  forall sc, exists ts, out s' = out s ++ ts /\ let a := part (laid 0 (line s)) (view s) (zlen (line s)) in
    full E (topc s) (a ++ pred) (D ts sc) /\ col (D ts sc) = topc s + W a.
Proof.
  intros H HR Hsuf Hpc Hend r Hroom. destruct (slice_view s (repaintW_view s s' H HR)) as (d & Hd & Hde). fold r in Hde.
  assert (Hud : Forall ut (emojis d)). { rewrite Hde. unfold r, part. apply Forall_firstn, Forall_skipn. apply HR. }
  pose proof (PredTabs.stale_width C d Hud) as Hhi. pose proof (stale_low d Hud) as Hlo. rewrite Hde in Hhi, Hlo. unfold PredTabs.tabs in Hhi. fold (tab_doubt r) in Hhi.
  destruct (repaintW_core s s' l d H HR Hsuf Hpc Hend Hd ltac:(lia)) as (p & q & X1 & X2 & X3 & X4).
  exists p, q. split; [exact X1|]. split; [rewrite W_app; lia|]. split; [|exact X4].
  destruct X3 as [->|(m & q' & -> & X3)]; [now left|right]. exists m, q'. split; [reflexivity|]. rewrite W_app. lia.
Qed.
Lemma repaintW_counted s s' l c : repaintWithoutUpdateSuffix C s = Some s' -> Room s -> suffix s = Some l -> pcolor0 C <> [] -> cursor s = zlen (line s) -> map c_moji (cells s) = c ->
  let a := part (laid 0 (line s)) (view s) (zlen (line s)) in let r := part c (view s) (zlen (line s)) in
  W r < ViewWidth s ->
  exists pred rest, l = pred ++ rest /\ W (r ++ pred) < ViewWidth s /\
    (rest = [] \/ exists m rest', rest = m :: rest' /\ ViewWidth s <= W (r ++ pred ++ [m])) /\
  forall sc, exists ts, out s' = out s ++ ts /\ full E (topc s) (a ++ pred) (D ts sc) /\ col (D ts sc) = topc s + W a.
Proof.
  intros H HR Hsuf Hpc Hend Hf a r Hroom. pose proof (repaintW_view s s' H HR) as Hv. destruct (slice_view s Hv) as (d & Hd & Hde).
  assert (ZC : zlen (line s) = zlen (cells s)) by apply zlen_map.
  assert (Hw : range_width C d = W r).
  { rewrite range_W. f_equal. pose proof Hd as Hd0. apply slice_some in Hd0 as (X1 & X2 & ->). unfold r, part. rewrite <- Hf, skipn_map, firstn_map, ZC. reflexivity. }
  destruct (repaintW_core s s' l d H HR Hsuf Hpc Hend Hd ltac:(lia)) as (p & q & X1 & X2 & X3 & X4).
  exists p, q. split; [exact X1|]. split; [rewrite W_app; lia|]. split; [|exact X4].
  destruct X3 as [->|(m & q' & -> & X3)]; [now left|right]. exists m, q'. split; [reflexivity|]. rewrite W_app. lia.
Qed.
Lemma repaint_cut s1 s' : repaint C s1 = Some s' -> Room s' -> pcolor0 C <> [] -> cursor s' = zlen (line s') -> line s' <> [] -> room_for_line C s' ->
  forall sc, exists ts, out s' = out s1 ++ ts /\ shows_cut_prediction C s' (D ts sc).
Proof.
  intros H HR Hpc Hend Hne Hroom sc. pose proof (repaint_shape C s1 s' H) as (l & ts & Hs' & He). unfold repaint in H.
  assert (Hl : line s' = line s1) by (rewrite Hs'; exact He).
  assert (Hu : updateSuffix C s1 = set_suffix s1 (Some (StringToMoji E (predictor C (buf_string s1) (cursor s1))))).
  { unfold updateSuffix. destruct (pcolor0 C); [congruence|]. destruct (cells s1) eqn:Hc; [|reflexivity]. exfalso. apply Hne. rewrite Hl. unfold line. now rewrite Hc. }
  rewrite Hu in H, Hs'. set (pl := StringToMoji E (predictor C (buf_string s1) (cursor s1))) in *.
  assert (F : view s' = view s1 /\ cursor s' = cursor s1 /\ topc s' = topc s1 /\ termw s' = termw s1) by (rewrite Hs'; repeat split).
  destruct F as (F1 & F2 & F3 & F4).
  assert (K : buf_string s1 = written (line s')) by (rewrite Hl; unfold buf_string; rewrite cell2string_text; reflexivity).
  assert (Hpl : StringToMoji E (predictor C (written (line s')) (cursor s')) = pl) by (unfold pl; now rewrite K, F2).
  unfold room_for_line, shows_cut_prediction in *. rewrite Hpl in *. unfold ViewWidth in Hroom |- *. rewrite F1, F3, F4, Hl in Hroom. rewrite F1, F3, F4, Hl.
  destruct (repaintW_cut (set_suffix s1 (Some pl)) s' pl H) as (pred & rest & X1 & X2 & X3 & X).
  - apply (Room_same C s'); [symmetry; exact Hl|exact HR].
  - reflexivity.
  - exact Hpc.
  - change (cursor s1 = zlen (line s1)). now rewrite <- Hl, <- F2.
  - exact Hroom.
  - destruct (X sc) as (t & O & Y1 & Y2). exists t. split; [exact O|]. exists pred, rest. split; [exact X1|]. split; [exact Y1|]. split; [exact Y2|]. split; [exact X2|exact X3].
Qed.
End Screen.

Section Sess.
Variable S : scfg.
Notation C := (base S).
Hypothesis HE : env_ok (cE C).
Hypothesis HB : only_builtin S.
Lemma painted_cut s' other sc : PredShown.painted S s' -> tabs_apart S (Running MNormal s') -> pcolor0 C <> [] -> cursor s' = zlen (line s') -> line s' <> [] -> room_for_line C s' ->
  shows_cut_prediction C s' (display (cE C) other (out s') sc).
Proof.
  intros (s1 & s2 & ts & H1 & -> & H2) HR Hpc Hc Hl Hroom.
  destruct (repaint_cut C HE other s1 s2 H1 HR Hpc Hc Hl Hroom (display (cE C) other (out s1) sc)) as (t & O & Sh).
  cbn [out emit]. rewrite O, !D_app, <- (D_vis C other ts), H2. exact Sh.
Qed.
Lemma cut_session default cur w cl es e x s :
  (forall x0, start S default cur w cl = Some x0 -> calm_scroll S (es ++ [e]) x0) ->
  readline S default cur w cl es = Some x -> step S e x = Some (Running MNormal s) -> predicts_anew S e x ->
  pcolor0 C <> [] -> cursor s = zlen (line s) -> line s <> [] -> room_for_line C s ->
  forall other sc, shows_cut_prediction C s (display (cE C) other (out s) sc).
Proof.
  intros Hc H Hst He Hpc Hcu Hl Hroom other sc.
  assert (HH : (forall x0, start S default cur w cl = Some x0 -> calm_scroll S es x0) /\ tabs_apart S (Running MNormal s)).
  { unfold readline in H. destruct (start S default cur w cl) as [x0|] eqn:Hx0; [|discriminate]. destruct (PredTabs.calm_scroll_app S es e x0 x (Hc x0 eq_refl) H) as [H1 H2].
    split; [intros x1 [= <-]; exact H1|exact (H2 _ Hst)]. }
  destruct HH as [Hc0 HR]. destruct (TabScrollSess.readline_screen S HE other HB default cur w cl es x sc Hc0 H) as [HG _].
  apply painted_cut; auto. eapply PredShown.step_painted; [exact Hst|exact He| |split; assumption].
  destruct x as [m sx|sx t r]; [|destruct e; discriminate Hst]. destruct HG as [(_ & HG & _) _]. cbn [buf_of]. lia.
Qed.
End Sess.
