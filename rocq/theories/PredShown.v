(** The prediction on the screen. *)
From Verif Require Import Base Utf8 Moji Color Prompt Buffer Commands KeyMap Session MojiFacts Abs AbsRef AbsSess
  AbsSafe AbsInv Safe Spec SpecScreen ScreenFacts ScreenPaint ScreenCmd ScreenSess SpecPredShown.
From Verif Require ScreenSimple ScreenProps.
Ltac lia := unfold rune in *; Lia.lia.

Section Screen.
Variable C : cfg.
Notation E := (cE C).
Hypothesis HE : env_ok E.
Hypothesis HP : pcolor0 C = [] \/ forall t c, nt (StringToMoji E (predictor C t c)).
Variable other : terminal.
Notation D := (display E other).
Notation W := (total_width E).
Notation ok := (Forall (fun m => 0 <= width E m)).

Lemma paint_suffix_all vw l : forall w ts, w < vw -> paint_suffix C vw w l = Some ts ->
  exists p r, l = p ++ r /\ ts = tm p /\ w + W p < vw /\ (r = [] \/ exists m r', r = m :: r' /\ vw <= w + W (p ++ [m])).
Proof.
  induction l as [|m l IH]; intros w ts Hw H; cbn [paint_suffix] in H.
  - injection H as <-. exists [], []. repeat split; [rewrite W_nil; lia|now left].
  - destruct (vw <=? w + width E m) eqn:Hc.
    + injection H as <-. exists [], (m :: l). split; [reflexivity|]. split; [reflexivity|]. split; [rewrite W_nil; lia|]. right. exists m, l. split; [reflexivity|]. cbn [app]. rewrite W_cons, W_nil. lia.
    + destruct (print E m); [|discriminate]. destruct (paint_suffix C vw (w + width E m) l) as [t1|] eqn:Hp; [|discriminate]. injection H as <-.
      apply IH in Hp as (p & r & -> & -> & Hw1 & Hr); [|lia]. exists (m :: p), r. split; [reflexivity|]. split; [reflexivity|]. split; [rewrite W_cons; lia|].
      destruct Hr as [Hr|(m' & r' & -> & Hr)]; [now left|right]. exists m', r'. split; [reflexivity|]. cbn [app]. rewrite W_cons. lia.
Qed.

(** Painting a state whose cursor is at the end and whose prediction is [l]. *)
Lemma repaintW_pred s s' l : nt (line s) -> 0 < ViewWidth s -> Wv C s -> suffix s = Some l -> nt l -> pcolor0 C <> [] -> cursor s = zlen (line s) ->
  repaintWithoutUpdateSuffix C s = Some s' ->
  forall sc, exists ts pred rest, out s' = out s ++ ts /\ l = pred ++ rest /\ shows E s' (D ts sc) (zlen (line s')) pred /\
    (rest = [] \/ exists m rest', rest = m :: rest' /\ ViewWidth s' <= W (part (line s') (view s') (zlen (line s')) ++ pred ++ [m])).
Proof.
  intros Hn Hv Hw Hsuf Hnl Hpc Hend H. pose proof (repaintW_paints C s s' H) as Hp. unfold repaintWithoutUpdateSuffix in H.
  destruct (getView2 C s) as [[e w]|] eqn:Hg; [|discriminate]. apply (getView2_emits C HE) in Hg as (Hw1 & Hw2 & He1 & He2 & Hcu & Hmax); auto.
  assert (Hce : cursor s <= e) by (apply Hmax; [lia|exact Hw]).
  assert (He : e = zlen (line s)) by lia. subst e.
  destruct (puts C (GotoHead s) (view (GotoHead s)) (zlen (line s))) as [s2|] eqn:Hp1; [|discriminate].
  pose proof (paints_fields _ _ (puts_paints C _ _ _ _ Hp1)) as (F1 & F2 & F3 & F4 & F5 & F6 & F7 & _).
  apply puts_emits in Hp1 as (Em1 & _); [|exact Hn].
  set (o3 := match pcolor0 C, suffix s2 with _ :: _, Some (_ :: _) => _ | _, _ => _ end) in H. destruct o3 as [s3|] eqn:Ho3; [|discriminate]. subst o3.
  assert (G3 : exists pred rest, paints s2 s3 /\ emits s2 s3 (tm pred) /\ l = pred ++ rest /\ w + W pred < ViewWidth s /\
    (rest = [] \/ exists m rest', rest = m :: rest' /\ ViewWidth s <= w + W (pred ++ [m]))).
  { destruct (pcolor0 C) as [|c0 p0] eqn:Hp0; [congruence|].
    assert (Hsx : suffix s2 = Some l) by (rewrite F3; exact Hsuf). rewrite Hsx in Ho3. destruct l as [|m0 l0].
    { injection Ho3 as <-. exists [], []. split; [apply paints_refl|]. split; [now apply emits_same|]. split; [reflexivity|]. split; [rewrite W_nil; lia|now left]. }
    destruct (paint_suffix C (ViewWidth s2) w (Suffix C s2)) as [ts|] eqn:Hps; [|discriminate]. injection Ho3 as <-.
    assert (Hvw : ViewWidth s2 = ViewWidth s) by (unfold ViewWidth; rewrite F6, F7; reflexivity). rewrite Hvw in Hps.
    apply paint_suffix_all in Hps as (p & r & Hpr & -> & Hww & Hrr); [|exact Hw2]. exists p, r. split; [apply paints_emit|]. split; [|split; [|split; [exact Hww|exact Hrr]]].
    - eexists. split; [reflexivity|]. change (TAttr (c0 :: p0) :: tm p ++ [TAttr (pcolor1 C)]) with ([TAttr (c0 :: p0)] ++ tm p ++ [TAttr (pcolor1 C)]).
      rewrite !vis_app, vis_tm. cbn. now rewrite app_nil_r.
    - unfold Suffix in Hpr. rewrite Hp0, Hsx in Hpr. rewrite F5, F2 in Hpr. cbn [cursor GotoHead emit cells] in Hpr.
      replace (cursor s =? zlen (cells s)) with true in Hpr by (rewrite <- zlen_line; lia). exact Hpr. }
  destruct G3 as (pred & rest & Pa3 & Em3 & Hpred & Hww & Hrest).
  pose proof (paints_fields _ _ Pa3) as (K1 & K2 & K3 & K4 & K5 & K6 & K7 & _).
  assert (L3 : line (GotoHead (eraseline s3)) = line s) by (unfold line in *; exact (eq_trans K1 F1)).
  pose proof (paints_fields _ _ Hp) as (P1 & P2 & P3 & P4 & P5 & P6 & P7 & _).
  apply puts_emits in H as (Em4 & Hb4 & _); [|rewrite L3; exact Hn]. rewrite L3 in Em4.
  cbn [view cursor GotoHead eraseline emit] in Em4, Hb4. rewrite K4, K5, F4, F5 in Em4. cbn [view cursor GotoHead emit] in Em4. rewrite Hend in Em4.
  set (a := part (line s) (view s) (zlen (line s))) in *. rename pred into b.
  assert (Em : emits s s' (([TGoto (topc s + 1)] ++ tm (a ++ b) ++ [TErase]) ++ [TGoto (topc s + 1)] ++ tm a)).
  { replace (tm (a ++ b)) with (tm a ++ tm b) by (unfold tm; now rewrite map_app).
    rewrite <- !app_assoc.
    eapply emits_trans; [apply (emits_emit s [TGoto (topc s + 1)])|]. eapply emits_trans; [exact Em1|]. eapply emits_trans; [exact Em3|].
    change ([TErase] ++ [TGoto (topc s + 1)] ++ tm a) with ([TErase; TGoto (topc s + 1)] ++ tm a).
    eapply emits_trans; [|exact Em4]. exists [TErase; TGoto (topc s3 + 1)]. split; [cbn; now rewrite <- app_assoc|]. cbn. rewrite K7, F7. reflexivity. }
  assert (Hok1 : ok (a ++ b)).
  { apply Forall_app. split; [now apply (nt_ok C HE), nt_part|]. apply (nt_ok C HE). rewrite Hpred in Hnl. now apply Forall_app in Hnl. }
  assert (HW1 : W (a ++ b) < ViewWidth s) by (rewrite W_app, <- Hw1; exact Hww).
  intros sc. destruct (screen_repaint E other (topc s) a b sc (termw s - 3) Hok1) as (S1 & S2 & S3); [pose proof (VW_lim s); lia|].
  destruct Em as (ts & Ho & Hvis). rewrite <- Hvis in S1, S2. rewrite (D_vis C) in S1, S2.
  assert (PL : line s' = line s) by exact P1.
  exists ts, b, rest. split; [exact Ho|]. split; [exact Hpred|]. split.
  - unfold shows. rewrite P3, P4, P5, P7. unfold ViewWidth. rewrite P6, P7, PL, Hend. fold a. split; [lia|]. split; [right; repeat split; exists rest; now rewrite Hsuf, Hpred|].
    split; [exact S1|]. split; [exact S2|]. split; [exact HW1|now left].
  - unfold ViewWidth. rewrite P4, P6, P7, PL. fold (ViewWidth s). fold a. destruct Hrest as [->|(m & r' & -> & Hr)]; [now left|right]. exists m, r'. split; [reflexivity|].
    rewrite W_app, <- Hw1. exact Hr.
Qed.
Lemma nt_units l : nt l -> map unit_of l = l.
Proof.
  assert (H : forall m, has_tab m = false -> unit_of m = m).
  { induction m; cbn; intros Hm; try reflexivity; try discriminate; apply orb_false_iff in Hm as [Ha Hb]; now rewrite (IHm1 Ha), (IHm2 Hb). }
  induction 1 as [|m l Hm Hl IH]; [reflexivity|]. cbn [map]. now rewrite H, IH.
Qed.
Lemma repaint_pred s1 s' : repaint C s1 = Some s' -> G C s' -> pcolor0 C <> [] -> cursor s' = zlen (line s') -> line s' <> [] ->
  forall sc, exists ts, out s' = out s1 ++ ts /\ shows_prediction C s' (D ts sc).
Proof.
  intros H HG Hpc Hend Hne sc. pose proof (repaint_shape C s1 s' H) as (l & ts & Hs' & He). unfold repaint in H.
  assert (Hl : line s' = line s1) by (rewrite Hs'; exact He).
  assert (Hu : updateSuffix C s1 = set_suffix s1 (Some (StringToMoji E (predictor C (buf_string s1) (cursor s1))))).
  { unfold updateSuffix. destruct (pcolor0 C); [congruence|]. destruct (cells s1) eqn:Hc; [|reflexivity]. exfalso. apply Hne. rewrite Hl. unfold line. now rewrite Hc. }
  rewrite Hu in H, Hs'. set (pl := StringToMoji E (predictor C (buf_string s1) (cursor s1))) in *.
  assert (F : view s' = view s1 /\ cursor s' = cursor s1 /\ topc s' = topc s1 /\ termw s' = termw s1) by (rewrite Hs'; repeat split).
  destruct F as (F1 & F2 & F3 & F4). destruct HG as (G1 & G2 & G3 & _ & _ & _ & G7).
  destruct (G_view C HE s' G1 G2 G3) as [HV _].
  assert (Hnl : nt pl) by (destruct HP as [Hp|Hp]; [congruence|apply Hp]).
  destruct (repaintW_pred (set_suffix s1 (Some pl)) s' pl) with (sc := sc) as (t & pred & rest & O & Hpl & Hsh & Hr).
  - change (line (set_suffix s1 (Some pl))) with (line s1). now rewrite <- Hl.
  - unfold ViewWidth in *. cbn [termw topc set_suffix]. now rewrite <- F3, <- F4.
  - unfold Wv, ViewWidth in *. cbn [termw topc view cursor set_suffix]. change (line (set_suffix s1 (Some pl))) with (line s1). now rewrite <- Hl, <- F1, <- F2, <- F3, <- F4.
  - reflexivity.
  - exact Hnl.
  - exact Hpc.
  - change (cursor s1 = zlen (line s1)). now rewrite <- Hl, <- F2.
  - exact H.
  - exists t. split; [exact O|]. exists pred, rest. split; [|split; [exact Hsh|exact Hr]].
    assert (K : buf_string s1 = written (line s')) by (rewrite Hl; unfold buf_string; rewrite cell2string_text; reflexivity).
    rewrite <- K, F2. unfold split. fold pl. rewrite (nt_units pl Hnl). exact Hpl.
Qed.
End Screen.

(** The events of [predicts_anew] end by painting the line. *)
Section Sess.
Variable S : scfg.
Notation C := (base S).

Definition painted (s' : buf) : Prop := exists s1 s2 ts, repaint C s1 = Some s2 /\ s' = emit s2 ts /\ vis ts = [].
Lemma painted_quiet s ts : painted s -> vis ts = [] -> painted (emit s ts).
Proof.
  intros (s1 & s2 & t & H1 & -> & H2) H3. exists s1, s2, (t ++ ts). split; [exact H1|]. split; [unfold emit; cbn; now rewrite app_assoc|]. now rewrite vis_app, H2.
Qed.
Lemma repaint_painted s1 s2 : repaint C s1 = Some s2 -> painted s2.
Proof. intros H. exists s1, s2, []. split; [exact H|]. split; [|reflexivity]. destruct s2. unfold emit. cbn. now rewrite app_nil_r. Qed.
Definition ends (s : buf) : Prop := cursor s = zlen (line s) /\ line s <> [].
Lemma backdel_painted s s' : cmdBackwardDeleteChar C s = Some s' -> 0 <= cursor s -> (cursor s' = zlen (line s') /\ line s' <> []) \/ 0 < cursor s -> painted s'.
Proof.
  intros H H0 Hx. unfold cmdBackwardDeleteChar in H. destruct (0 <? cursor s) eqn:Hc; [opt H; eapply repaint_painted; exact H|]. injection H as <-. exfalso.
  destruct Hx as [[H1 H2]|Hx]; [|lia]. destruct (line s); [congruence|]. unfold zlen in H1. cbn in H1. lia.
Qed.
Lemma self_painted k s s' : selfInsert C k s = Some s' -> 0 <= cursor s -> painted s'.
Proof.
  assert (T : forall ks s0, self_insert_tail C s0 ks = Some s' -> painted s').
  { intros ks s0 H. unfold self_insert_tail in H. opt H. eapply repaint_painted; exact H. }
  intros H H0. unfold selfInsert in H. destruct (_ && _) eqn:Ha.
  - opt H. eapply backdel_painted; [exact H|exact H0|]. right. cbn. lia.
  - destruct ((_ || _) && _); [opt H; eapply T; exact H|]. destruct (pending s); eapply T; exact H.
Qed.
Lemma replace_painted s p t s' : ReplaceAndRepaint C s p t = Some s' -> painted s'.
Proof. intros H. unfold ReplaceAndRepaint in H. opt H. eapply repaint_painted; exact H. Qed.
Lemma all_painted s s' : RepaintAll C s = Some s' -> painted s'.
Proof. unfold RepaintAll. intros H. destruct (callPromptWriter _ _) as [t p]. eapply repaint_painted; exact H. Qed.
Lemma after_running s r s' m : after_command S (Some (s, r)) = Some (Running m s') -> r = CONTINUE /\ s' = emit (emit s [TCursorOn]) [TFlush] /\ m = MNormal.
Proof.
  unfold after_command, finish. destruct r; intros H; [injection H as <- <-; auto|opt H; discriminate..].
Qed.
Lemma step_painted e x s' : step S e x = Some (Running MNormal s') -> predicts_anew S e x -> 0 <= cursor (buf_of x) -> ends s' -> painted s'.
Proof.
  intros H He H0 Hend. destruct x as [m s|]; [|destruct e; destruct He]. cbn [buf_of] in H0.
  assert (Q : forall s1 r, after_command S (Some (s1, r)) = Some (Running MNormal s') -> (r = CONTINUE -> ends s1 -> painted s1) -> painted s').
  { intros s1 r Ha Hs. apply after_running in Ha as (-> & -> & _). apply painted_quiet; [|reflexivity]. apply painted_quiet; [|reflexivity]. apply Hs; auto. }
  assert (QC : forall o, after_command S (continue_ o) = Some (Running MNormal s') -> (forall s1, o = Some s1 -> ends s1 -> painted s1) -> painted s').
  { intros [s1|] Ha Hs; [|discriminate]. cbn [continue_] in Ha. eapply Q; [exact Ha|]. intros _. now apply Hs. }
  destruct e as [k| |w|c]; try destruct He.
  - destruct m as [| |ss].
    + cbn [step] in H. unfold key_normal in H. cbn [predicts_anew] in He. set (s0 := emit s [TCursorOff]) in *. assert (K0 : 0 <= cursor s0) by exact H0.
      destruct (LookupCommand (kmap S) (gmap S) k) eqn:Hk; try (destruct He; fail); cbn [exec] in H.
      * eapply QC; [exact H|]. intros s1 Hs1 _. unfold cmdForwardChar in Hs1. destruct He as [He1 He2].
        change (zlen (cells s0) <=? cursor s0) with (zlen (cells s) <=? cursor s) in Hs1. rewrite zlen_line in He1. replace (zlen (cells s) <=? cursor s) with true in Hs1 by lia.
        change (suffix s0) with (suffix s) in Hs1. unfold predicted in He2. destruct (suffix s) as [[|p0 p]|]; try contradiction. eapply replace_painted; exact Hs1.
      * eapply QC; [exact H|]. intros s1 Hs1 Hx. eapply backdel_painted; [exact Hs1|exact K0|left; exact Hx].
      * eapply QC; [exact H|]. intros s1 Hs1 _. unfold cmdDeleteChar in Hs1. opt Hs1. eapply repaint_painted; exact Hs1.
      * unfold cmdDeleteOrAbort in H. destruct (0 <? zlen (cells s0)); [|eapply Q; [exact H|discriminate]]. destruct (cmdDeleteChar C s0) as [s1|] eqn:Hs1; [|discriminate].
        eapply Q; [exact H|]. intros _ _. unfold cmdDeleteChar in Hs1. opt Hs1. eapply repaint_painted; exact Hs1.
      * eapply QC; [exact H|]. intros s1 Hs1 _. unfold cmdUnixWordRubout in Hs1. opt Hs1. eapply repaint_painted; exact Hs1.
      * eapply QC; [exact H|]. intros s1 Hs1 _. unfold cmdUnixLineDiscard in Hs1. opt Hs1. eapply repaint_painted; exact Hs1.
      * eapply QC; [exact H|]. intros s1 Hs1 _. eapply all_painted; exact Hs1.
      * eapply QC; [exact H|]. intros s1 Hs1 _. eapply all_painted; exact Hs1.
      * eapply QC; [exact H|]. intros s1 Hs1 _. unfold cmdYank in Hs1. change (clip s0) with (clip s) in Hs1. destruct (clip s); [|congruence]. eapply replace_painted; exact Hs1.
      * eapply QC; [exact H|]. intros s1 Hs1 _. unfold cmdYankWithQuote in Hs1. change (clip s0) with (clip s) in Hs1. destruct (clip s); [|congruence]. eapply replace_painted; exact Hs1.
      * eapply QC; [exact H|]. intros s1 Hs1 _. unfold cmdUndo in Hs1. change (undoes s0) with (undoes s) in Hs1. destruct (undoes s); [congruence|]. cbv zeta in Hs1. opt Hs1. eapply repaint_painted; exact Hs1.
      * eapply QC; [exact H|]. intros s1 Hs1 _. eapply self_painted; [exact Hs1|exact K0].
    + cbn [step] in H. unfold key_quoted in H. destruct (selfInsert C k s) as [s1|] eqn:Hs1; [|discriminate]. eapply Q; [exact H|]. intros _ _.
      apply painted_quiet; [|reflexivity]. eapply self_painted; [exact Hs1|exact H0].
    + cbn [predicts_anew] in He. subst k. cbn [step] in H. unfold key_search in H. cbn in H. eapply QC; [exact H|]. intros s1 Hs1 _. unfold search_accept in Hs1. eapply replace_painted; exact Hs1.
  - destruct m; try destruct He. cbn [step] in H. opt H. injection H as <-. unfold on_resize, RepaintLastLine in Ev. eapply repaint_painted; exact Ev.
Qed.

Hypothesis HE : env_ok (cE C).
Hypothesis HP : pcolor0 C = [] \/ forall t c, nt (StringToMoji (cE C) (predictor C t c)).
Hypothesis HB : only_builtin S.
Lemma painted_shows s' other sc : painted s' -> G C s' -> pcolor0 C <> [] -> cursor s' = zlen (line s') -> line s' <> [] ->
  shows_prediction C s' (display (cE C) other (out s') sc).
Proof.
  intros (s1 & s2 & ts & H1 & -> & H2) HG Hpc Hc Hl.
  destruct (repaint_pred C HE HP other s1 s2 H1 HG Hpc Hc Hl (display (cE C) other (out s1) sc)) as (t & O & Sh).
  cbn [out emit]. rewrite O, !D_app, <- (D_vis C other ts), H2. exact Sh.
Qed.
Lemma prediction_calm default cur w cl es e x s :
  (forall x0, start S default cur w cl = Some x0 -> calm S (es ++ [e]) x0) ->
  readline S default cur w cl es = Some x -> step S e x = Some (Running MNormal s) -> predicts_anew S e x ->
  pcolor0 C <> [] -> cursor s = zlen (line s) -> line s <> [] ->
  forall other sc, shows_prediction C s (display (cE C) other (out s) sc).
Proof.
  intros Hc H Hst He Hpc Hcu Hl other sc.
  assert (Hx : readline S default cur w cl (es ++ [e]) = Some (Running MNormal s)).
  { unfold readline in *. opt H. cbn. revert H. generalize s0. clear - Hst. induction es as [|a es IH]; intros x0 H; cbn [run app] in *; [injection H as ->; now rewrite Hst|]. opt H. now apply IH. }
  destruct (readline_screen S HE HP other HB default cur w cl (es ++ [e]) _ sc Hc Hx) as [HG _]. cbn [buf_of] in HG.
  assert (Hc0 : forall x0, start S default cur w cl = Some x0 -> calm S es x0).
  { intros x0 Hx0. unfold readline in H. rewrite Hx0 in H. now destruct (calm_app S es e x0 x (Hc x0 Hx0) H). }
  destruct (readline_screen S HE HP other HB default cur w cl es _ sc Hc0 H) as [HGx _].
  apply painted_shows; auto. eapply step_painted; [exact Hst|exact He| |split; assumption]. destruct HGx as (_ & _ & _ & K & _). lia.
Qed.
Lemma prediction_start default cur w cl s :
  (forall x0, start S default cur w cl = Some x0 -> roomy S x0) -> start S default cur w cl = Some (Running MNormal s) ->
  pcolor0 C <> [] -> cursor s = zlen (line s) -> line s <> [] ->
  forall other sc, shows_prediction C s (display (cE C) other (out s) sc).
Proof.
  intros Hc H Hpc Hcu Hl other sc. destruct (start_P S HE HP other default cur w cl _ H (Hc _ H)) as [_ Hs]. destruct (Hs sc) as [_ [HG _]]. cbn [buf_of] in HG.
  apply painted_shows; auto. unfold start in H. destruct (callPromptWriter _ _) as [t p]. opt H. injection H as <-. apply painted_quiet; [|reflexivity]. unfold RepaintAfterPrompt in Ev0. eapply repaint_painted; exact Ev0.
Qed.
End Sess.
Lemma shown_calm S default cur w cl es e x s :
  sane_widths (cE (base S)) -> only_builtin S -> ScreenProps.pred_tabfree S ->
  (forall x0, start S default cur w cl = Some x0 -> calm S (es ++ [e]) x0) ->
  readline S default cur w cl es = Some x -> step S e x = Some (Running MNormal s) -> predicts_anew S e x ->
  pcolor0 (base S) <> [] -> cursor s = zlen (line s) -> line s <> [] ->
  forall other sc, shows_prediction (base S) s (display (cE (base S)) other (out s) sc).
Proof. intros HE HB HP. exact (prediction_calm S HE (ScreenProps.pred_nt S HP) HB default cur w cl es e x s). Qed.
Lemma shown_simple S default cur w cl es e x s :
  simple_editor S -> simple_text (cE (base S)) default -> simple_clip (cE (base S)) cl ->
  Forall (simple_event S) (es ++ [e]) -> 0 <= cur -> prompt_width (base S) + 11 < w ->
  (forall x0, start S default cur w cl = Some x0 -> steady_run S (es ++ [e]) x0) ->
  readline S default cur w cl es = Some x -> step S e x = Some (Running MNormal s) -> predicts_anew S e x ->
  pcolor0 (base S) <> [] -> cursor s = zlen (line s) -> line s <> [] ->
  forall other sc, shows_prediction (base S) s (display (cE (base S)) other (out s) sc).
Proof.
  intros HS Hd Hcl Hes Hc Hw Hst. apply (prediction_calm S (ScreenSimple.HE S HS) (ScreenSimple.HPn S HS) (proj1 HS) default cur w cl es e x s).
  intros x0 Hx0. eapply ScreenSimple.simple_start; eauto.
Qed.
Lemma shown_start S default cur w cl s :
  sane_widths (cE (base S)) -> ScreenProps.pred_tabfree S ->
  start S default cur w cl = Some (Running MNormal s) -> roomy S (Running MNormal s) ->
  pcolor0 (base S) <> [] -> cursor s = zlen (line s) -> line s <> [] ->
  forall other sc, shows_prediction (base S) s (display (cE (base S)) other (out s) sc).
Proof. intros HE HP H Hr. apply (prediction_start S HE (ScreenProps.pred_nt S HP) default cur w cl s); [|exact H]. intros x0 Hx. rewrite H in Hx. now injection Hx as <-. Qed.
