(** Every command keeps the colours right: ScreenCmd.v again, with ink. *)
From Coq Require Import Sorting.Permutation.
From Verif Require Import Base Utf8 Moji Color Prompt Buffer Commands KeyMap Session MojiFacts Abs AbsRef AbsSess
  AbsSafe AbsInv Safe Spec SpecScreen ScreenFacts ScreenPaint ScreenCmd SpecPaint PaintFacts SpecInk InkFacts InkPaint.
Ltac lia := unfold rune in *; Lia.lia.

Section Screen.
Variable C : cfg.
Notation E := (cE C).
Notation K := (ccol C).
Hypothesis HE : env_ok E.
Hypothesis HP : pcolor0 C = [] \/ forall t c, nt (StringToMoji E (predictor C t c)).
Hypothesis HB : blind K.
Hypothesis HT : true_colours K.
Variable other : iterminal.
Notation D := (idisplay E other).
Notation W := (total_width E).
Notation IW := (itotal E).
Notation ok := (Forall (fun m => 0 <= width E m)).
Notation iok := (Forall (fun u => 0 <= iwidth E u)).
Notation ishown := (bshown C).
Notation pw := (snd (callPromptWriter E (prompt C))).
Notation Wv := (Wv C).
Notation G := (G C).
Notation il s := (binked K (line s)).
Definition look (l : list moji) : list painted := map (fun m => (m, Look (pcolor0 C))) l.

Lemma iok_fst l : ok (map fst l) -> iok l.
Proof. intros H. rewrite Forall_map in H. exact H. Qed.
Lemma look_fst l : map fst (look l) = l.
Proof. unfold look. rewrite map_map. cbn. apply map_id. Qed.
Lemma iok_look l : ok l -> iok (look l).
Proof. intros H. apply iok_fst. now rewrite look_fst. Qed.
Lemma IW_look l : IW (look l) = W l.
Proof. unfold itotal. now rewrite look_fst. Qed.
Lemma IW_part l a b : IW (ipart (binked K l) a b) = W (part l a b).
Proof. unfold itotal. now rewrite binked_part_fst. Qed.
Lemma iok_part l a b : nt l -> iok (ipart (binked K l) a b).
Proof. intros H. apply iok_fst. rewrite binked_part_fst. now apply (nt_ok C HE), nt_part. Qed.
Lemma om_app a b : om (a ++ b) = om a ++ om b. Proof. apply map_app. Qed.
Lemma ni_incl l l' : incl l l' -> ni l' -> ni l.
Proof. intros H (H1 & H2 & H3). unfold ni, nt in *. rewrite !Forall_forall in *. auto. Qed.

(** [s'] is painted on whatever there was, or on a screen showing [s]. *)
Definition IR0 (s s' : buf) : Prop := forall sc, exists vs, iemits s s' vs /\ ishown s' (D vs sc).
Definition IR (s s' : buf) : Prop := forall sc, ishown s sc -> exists vs, iemits s s' vs /\ ishown s' (D vs sc).
Definition isome (s : buf) (sc : iscreen) : Prop := exists k l,
  cursor s <= k <= zlen (line s) /\ iok l /\
  (forall x, topc s <= x -> irow sc x = iimage E (topc s) (ipart (il s) (view s) k ++ l) x) /\
  icol sc = topc s + W (part (line s) (view s) (cursor s)).
Lemma IR0_IR s s' : IR0 s s' -> IR s s'.
Proof. intros H sc _. apply H. Qed.
Lemma IR0_pre s0 s s' ts : out s = out s0 ++ ts -> wordless ts -> IR0 s s' -> IR0 s0 s'.
Proof.
  intros Ho Hts H sc. destruct (iemits_wordless s0 s ts Ho Hts) as [vs Hv]. destruct (H (D vs sc)) as (v1 & H1 & H2).
  exists (vs ++ v1). split; [eapply iemits_trans; eauto|]. now rewrite iD_app.
Qed.
Lemma IR0_same s0 s s' : out s = out s0 -> IR0 s s' -> IR0 s0 s'.
Proof. intros H. apply (IR0_pre s0 s s' []); [now rewrite app_nil_r|intros m []]. Qed.
Lemma IR_trans s s1 s2 : IR s s1 -> IR s1 s2 -> IR s s2.
Proof.
  intros H1 H2 sc Hs. destruct (H1 sc Hs) as (v1 & O1 & S1). destruct (H2 _ S1) as (v2 & O2 & S2).
  exists (v1 ++ v2). split; [eapply iemits_trans; eauto|]. now rewrite iD_app.
Qed.
Lemma IR_refl s : IR s s.
Proof. intros sc Hs. exists []. split; [now apply iemits_same|exact Hs]. Qed.
Lemma IR_bell s : IR s (emit s [TBell]).
Proof. intros sc Hs. exists []. split; [exists [TBell]; split; reflexivity|exact Hs]. Qed.
(** Fields the screen does not depend on. *)
Lemma ishown_same s s' sc : line s' = line s -> view s' = view s -> cursor s' = cursor s -> topc s' = topc s -> termw s' = termw s -> suffix s' = suffix s ->
  ishown s sc -> ishown s' sc.
Proof.
  intros H1 H2 H3 H4 H5 H6 (k & pred & Hs). exists k, pred. unfold bshows, ishows, ViewWidth in *. rewrite H1, H2, H3, H4, H5, H6. exact Hs.
Qed.
Lemma IR_same s0 s s' : line s = line s0 -> view s = view s0 -> cursor s = cursor s0 -> topc s = topc s0 -> termw s = termw s0 -> suffix s = suffix s0 -> out s = out s0 ->
  IR s s' -> IR s0 s'.
Proof.
  intros H1 H2 H3 H4 H5 H6 H7 HR sc Hsc. destruct (HR sc) as (vs & (ts & T1 & T2) & T3); [eapply ishown_same; [..|exact Hsc]; congruence|].
  exists vs. split; [|exact T3]. exists ts. rewrite <- H7. auto.
Qed.

(** ** repaint *)
Lemma repaintW_ink s s' : ni (line s) -> 0 < ViewWidth s -> Wv s -> nt (suflist (suffix s)) ->
  repaintWithoutUpdateSuffix C s = Some s' -> IR0 s s'.
Proof.
  intros Hi Hv Hw Hsuf H. pose proof (ni_nt _ Hi) as Hn. pose proof (repaintW_paints C s s' H) as Hp. unfold repaintWithoutUpdateSuffix in H.
  destruct (getView2 C s) as [[e w]|] eqn:Hg; [|discriminate]. apply (getView2_emits C HE) in Hg as (Hw1 & Hw2 & He1 & He2 & Hcu & Hmax); auto.
  destruct (puts C (GotoHead s) (view (GotoHead s)) e) as [s2|] eqn:Hp1; [|discriminate].
  pose proof (paints_fields _ _ (puts_paints C _ _ _ _ Hp1)) as (F1 & F2 & F3 & F4 & F5 & F6 & F7 & _).
  apply (puts_ink C HB HT) in Hp1 as Em1; [|exact Hi].
  set (o3 := match pcolor0 C, suffix s2 with _ :: _, Some (_ :: _) => _ | _, _ => _ end) in H. destruct o3 as [s3|] eqn:Ho3; [|discriminate]. subst o3.
  assert (G3 : exists pred, paints s2 s3 /\ iemits s2 s3 (om (look pred)) /\ (pred = [] \/ cursor s = zlen (line s) /\ exists rest, suffix s = Some (pred ++ rest)) /\ w + W pred < ViewWidth s).
  { assert (Gn : s3 = s2 -> exists pred, paints s2 s3 /\ iemits s2 s3 (om (look pred)) /\ (pred = [] \/ cursor s = zlen (line s) /\ exists rest, suffix s = Some (pred ++ rest)) /\ w + W pred < ViewWidth s).
    { intros ->. exists []. split; [apply paints_refl|]. split; [now apply iemits_same|]. split; [now left|]. rewrite W_nil. lia. }
    destruct (pcolor0 C) as [|c0 p0] eqn:Hp0; [apply Gn; congruence|]. destruct (suffix s2) as [[|m0 l0]|] eqn:Hsx; [apply Gn; congruence| |apply Gn; congruence].
    destruct (paint_suffix C (ViewWidth s2) w (Suffix C s2)) as [ts|] eqn:Hps; [|discriminate]. injection Ho3 as <-.
    assert (Hvw : ViewWidth s2 = ViewWidth s) by (unfold ViewWidth; rewrite F6, F7; reflexivity). rewrite Hvw in Hps.
    apply paint_suffix_emits in Hps as (p & r & Hpr & -> & Hww); [|exact Hw2]. exists p. split; [apply paints_emit|]. split; [|split; [|exact Hww]].
    - eexists. split; [reflexivity|]. intros k. cbn [inkify]. destruct (inkify_app (tm p) (Look (c0 :: p0)) [TAttr (pcolor1 C)]) as [k' ->]. cbn [inkify]. rewrite app_nil_r.
      unfold om, look. rewrite Hp0. clear. induction p as [|m p IH]; [reflexivity|]. cbn [tm map inkify]. f_equal. exact IH.
    - unfold Suffix in Hpr. rewrite Hp0, Hsx in Hpr. rewrite F5, F2 in Hpr. cbn [cursor GotoHead emit cells] in Hpr. rewrite zlen_line.
      destruct (cursor s =? zlen (cells s)) eqn:Hce.
      + right. split; [lia|]. exists r. change (suffix s) with (suffix (GotoHead s)). rewrite <- F3. now rewrite Hpr.
      + left. symmetry in Hpr. now apply app_eq_nil in Hpr as [-> _]. }
  destruct G3 as (pred & Pa3 & Em3 & Hpred & Hww).
  pose proof (paints_fields _ _ Pa3) as (K1 & K2 & K3 & K4 & K5 & K6 & K7 & _).
  assert (L3 : line (GotoHead (eraseline s3)) = line s) by (unfold line in *; exact (eq_trans K1 F1)).
  pose proof (paints_fields _ _ Hp) as (P1 & P2 & P3 & P4 & P5 & P6 & P7 & _).
  apply (puts_ink C HB HT) in H as Em4; [|rewrite L3; exact Hi]. rewrite L3 in Em4.
  cbn [view cursor GotoHead eraseline emit] in Em4. rewrite K4, K5, F4, F5 in Em4. cbn [view cursor GotoHead emit] in Em4.
  assert (Hce : cursor s <= e) by (apply Hmax; [lia|exact Hw]).
  change (line (GotoHead s)) with (line s) in Em1. change (view (GotoHead s)) with (view s) in Em1.
  set (a := ipart (il s) (view s) (cursor s)) in *. set (b := ipart (il s) (cursor s) e ++ look pred).
  assert (Hab : ipart (il s) (view s) e ++ look pred = a ++ b) by (unfold a, b; rewrite app_assoc, <- ipart_split by lia; reflexivity).
  assert (Em : iemits s s' (([OGoto (topc s + 1)] ++ om (a ++ b) ++ [OErase]) ++ [OGoto (topc s + 1)] ++ om a)).
  { rewrite <- Hab. rewrite om_app. rewrite <- !app_assoc.
    eapply (iemits_trans s (GotoHead s)); [exists [TGoto (topc s + 1)]; split; reflexivity|]. eapply iemits_trans; [exact Em1|]. eapply iemits_trans; [exact Em3|].
    change ([OErase] ++ [OGoto (topc s + 1)] ++ om a) with ([OErase; OGoto (topc s + 1)] ++ om a).
    eapply iemits_trans; [|exact Em4]. exists [TErase; TGoto (topc s3 + 1)]. split; [cbn; now rewrite <- app_assoc|]. intros k. cbn. rewrite K7, F7. reflexivity. }
  intros sc. eexists. split; [exact Em|].
  assert (Hok1 : iok (a ++ b)).
  { rewrite <- Hab. apply Forall_app. split; [now apply iok_part|]. apply iok_look. destruct Hpred as [-> |(_ & rest & Hr)]; [constructor|].
    apply (nt_ok C HE). rewrite Hr in Hsuf. cbn [suflist] in Hsuf. now apply Forall_app in Hsuf. }
  destruct (iscreen_repaint E other (topc s) a b sc Hok1) as (S1 & S2).
  assert (PL : line s' = line s) by exact P1. exists e, pred. unfold bshows, ishows. fold (look pred). rewrite P3, P4, P5, P7. unfold ViewWidth. rewrite P6, P7, PL, Hab. repeat split; auto; try lia.
  - destruct Hpred as [Hpred|(Hz & Hr)]; [now left|]. right. repeat split; auto. lia.
  - rewrite S2. unfold a. now rewrite IW_part.
  - rewrite W_app, <- Hw1. exact Hww.
Qed.

Lemma repaint_I s s' : repaint C s = Some s' -> ni (line s') -> topc s = pw -> wide C s' -> Wv s -> nt (suflist (suffix s)) -> IR0 s s'.
Proof.
  intros H Hi Ht Hw Hv Hs. pose proof (repaint_line C s s' H) as [Hl Htw]. unfold repaint in H. destruct (updateSuffix_fields C s) as [x Hx].
  assert (Hw0 : wide C s) by (apply (wide_line C s'); auto).
  rewrite Hl in Hi. destruct (G_view C HE s (ni_nt _ Hi) Ht Hw0) as [HV _].
  assert (Hsuf : nt (suflist (suffix (updateSuffix C s)))).
  { unfold updateSuffix. destruct HP as [Hp|Hp]; [rewrite Hp; exact Hs|]. destruct (pcolor0 C); [exact Hs|]. destruct (cells s); [constructor|apply Hp]. }
  apply (IR0_same s (updateSuffix C s)); [rewrite Hx; reflexivity|].
  apply repaintW_ink; auto; rewrite Hx; auto.
Qed.
Lemma reset_I s s' : repaint C (ResetViewStart C s) = Some s' -> ni (line s') -> topc s = pw -> wide C s' ->
  nt (suflist (suffix s)) -> IR0 s s'.
Proof.
  intros H Hn Ht Hw Hs. pose proof (repaint_bounds C _ _ H) as [Hc1 Hc2]. change (cursor (ResetViewStart C s)) with (cursor s) in *. change (line (ResetViewStart C s)) with (line s) in *.
  pose proof (repaint_line C _ _ H) as [Hl Htw]. change (line (ResetViewStart C s)) with (line s) in Hl. change (termw (ResetViewStart C s)) with (termw s) in Htw.
  assert (Hw0 : wide C s) by (apply (wide_line C s'); auto).
  assert (Hn0 : ni (line s)) by (rewrite <- Hl; exact Hn).
  apply (IR0_same s (ResetViewStart C s)); [reflexivity|]. apply repaint_I; auto. apply (Reset_Wv C HE); auto; [now apply ni_nt|lia].
Qed.

(** ** The commands that end in a repaint *)
Notation GI s := (G s /\ ni (line s)).
Lemma BeginningOfLine_I s s' : GI s -> cmdBeginningOfLine C s = Some s' -> ni (line s') -> wide C s' -> IR0 s s'.
Proof.
  intros ((Hn & Ht & Hw & Hv & Hc & Hs & HW) & Hi) H Hn' Hw'. unfold cmdBeginningOfLine in H.
  destruct (pre_view C HE _ _ H (ni_nt _ Hn') Ht Hw') as [HV _].
  apply (IR0_same s (set_view (set_cursor s 0) 0)); [reflexivity|]. apply repaint_I; auto.
Qed.
Lemma BackwardChar_I s s' : GI s -> cmdBackwardChar C s = Some s' -> ni (line s') -> wide C s' -> IR s s'.
Proof.
  intros ((Hn & Ht & Hw & Hv & Hc & Hs & HW) & Hi) H Hn' Hw'. unfold cmdBackwardChar in H.
  destruct (cursor s <=? 0) eqn:H0; [injection H as <-; apply IR_refl|]. apply IR0_IR.
  cbn [cursor view set_cursor] in H. destruct (cursor s - 1 <? view s) eqn:Hcv.
  - apply (IR0_same s (set_view (set_cursor s (cursor s - 1)) (view s - 1))); [reflexivity|].
    destruct (pre_view C HE _ _ H (ni_nt _ Hn') Ht Hw') as [HV _]. apply repaint_I; auto. apply Wv_zero; [cbn; lia|exact HV].
  - apply (IR0_same s (set_cursor s (cursor s - 1))); [reflexivity|].
    apply repaint_I; auto. apply (Wv_shrink C HE s); auto; cbn; lia.
Qed.
Lemma BackwardDelete_I s s' : GI s -> cmdBackwardDeleteChar C s = Some s' -> ni (line s') -> wide C s' -> IR s s'.
Proof.
  intros ((Hn & Ht & Hw & Hv & Hc & Hs & HW) & Hi) H Hn' Hw'. unfold cmdBackwardDeleteChar in H.
  destruct (0 <? cursor s) eqn:H0; [|injection H as <-; apply IR_refl]. apply IR0_IR. opt H.
  apply Delete_shape in Ev as (l & us & -> & Hf & Hz). change (line (set_cursor s (cursor s - 1))) with (line s) in *.
  cbn [cursor view set_cursor set_undoes set_cells] in *. specialize (Hf ltac:(lia)).
  destruct (cursor s - 1 <? view s) eqn:Hcv.
  - destruct (pre_view C HE _ _ H (ni_nt _ Hn') Ht Hw') as [HV _].
    eapply IR0_same; [|apply (repaint_I _ _ H); auto]; [reflexivity|]. now apply Wv_zero.
  - eapply IR0_same; [|apply (repaint_I _ _ H); auto]; [reflexivity|].
    apply (Wv_shrink C HE s); auto; cbn; (lia || exact Hf).
Qed.
Lemma DeleteChar_I s s' : GI s -> cmdDeleteChar C s = Some s' -> ni (line s') -> wide C s' -> IR0 s s'.
Proof.
  intros ((Hn & Ht & Hw & Hv & Hc & Hs & HW) & Hi) H Hn' Hw'. unfold cmdDeleteChar in H. opt H.
  apply Delete_shape in Ev as (l & us & -> & Hf & Hz). specialize (Hf ltac:(lia)).
  apply (IR0_same s (set_undoes (set_cells s l) us)); [reflexivity|]. apply repaint_I; auto.
  apply (Wv_shrink C HE s); auto; cbn; (lia || exact Hf).
Qed.
Lemma self_tail_I s k s' : GI s -> self_insert_tail C s k = Some s' -> ni (line s') -> wide C s' -> IR0 s s'.
Proof.
  intros ((Hn & Ht & Hw & Hv & Hc & Hs & HW) & Hi) H Hn' Hw'. unfold self_insert_tail in H. opt H.
  apply insert_shape in Ev as (l0 & us & -> & Hp & Hl). cbn [cursor view set_undoes set_cells] in *.
  set (s2 := set_cursor (set_undoes (set_cells s l0) us) (cursor s + zlen l)) in *.
  assert (Hl2 : line s2 = firstn (Z.to_nat (cursor s)) (line s) ++ emojis l ++ skipn (Z.to_nat (cursor s)) (line s)) by exact Hl.
  assert (Hi2 : ni (line s2)) by (apply repaint_line in H as [H _]; rewrite H in Hn'; destruct (_ <=? _); exact Hn'). pose proof (ni_nt _ Hi2) as Hn2.
  assert (Hz1 : zlen (firstn (Z.to_nat (cursor s)) (line s)) = cursor s) by (unfold zlen in *; rewrite firstn_length_le; lia).
  pose proof (zlen_nonneg l).
  destruct (ViewWidth s2 <=? z + range_width C l) eqn:Hg.
  - apply (IR0_same s s2); [reflexivity|]. apply reset_I; auto.
  - apply (IR0_same s s2); [reflexivity|]. apply repaint_I; auto.
    unfold ScreenCmd.Wv. change (view s2) with (view s). change (cursor s2) with (cursor s + zlen l).
    rewrite (part_split _ (view s) (cursor s)) by lia. rewrite W_app.
    unfold GetWidthBetween in Ev0. opt Ev0. injection Ev0 as <-.
    assert (Hx : slice (line s2) (view s) (cursor s) = Some (emojis l1)) by (change (line s2) with (emojis (cells (set_undoes (set_cells s l0) us))); rewrite slice_emojis, Ev; reflexivity).
    apply part_of_slice in Hx as (Hx & _). rewrite <- Hx.
    assert (Hn1 : nt (emojis l1)) by (rewrite Hx; now apply nt_part).
    assert (Hnl : nt (emojis l)) by (rewrite Hl2 in Hn2; apply Forall_app in Hn2 as [_ Hn2]; now apply Forall_app in Hn2).
    rewrite <- (nt_width C l1 Hn1). rewrite Hl2.
    assert (Hm : part (firstn (Z.to_nat (cursor s)) (line s) ++ emojis l ++ skipn (Z.to_nat (cursor s)) (line s)) (cursor s) (cursor s + zlen l) = emojis l).
    { rewrite <- (zlen_emojis l). rewrite <- Hz1 at 3 4. apply part_app_mid. }
    rewrite Hm, <- (nt_width C l Hnl). lia.
Qed.
(** Any terminal will do for the facts about the layout. *)
Definition still0 : terminal := mkTerminal (fun _ sc => sc) (fun _ _ _ => Blank).
Lemma selfInsert_I k s s' : GI s -> selfInsert C k s = Some s' -> ni (line s') -> wide C s' -> IR s s'.
Proof.
  intros HGI H Hn' Hw'. pose proof HGI as [HG Hi]. unfold selfInsert in H. destruct (AreZeroWidthJoin E (altgr k) && (0 <? cursor s)).
  { opt H. exact (BackwardDelete_I (set_pending s _) s' HGI H Hn' Hw'). }
  destruct ((AreVariationSelectorLike E (altgr k) || AreEmojiModifier E (altgr k)) && (0 <? cursor s)).
  { opt H. assert (Hd : exists p d q, line s = p ++ d ++ q /\ line b = p ++ q).
    { apply cmdBackwardDeleteChar_ref in Ev0. apply aBackwardDelete_mid in Ev0. exact Ev0. }
    assert (Htw : termw b = termw s).
    { unfold cmdBackwardDeleteChar in Ev0. destruct (0 <? cursor s); [|injection Ev0 as <-; reflexivity]. opt Ev0.
      apply repaint_line in Ev0 as [_ ->]. apply Delete_shape in Ev1 as (? & ? & -> & _). destruct (_ <? _); reflexivity. }
    destruct Hd as (p & d & q & H1 & H2). pose proof HG as (Hn & _ & Hw & _).
    assert (Hib : ni (line b)).
    { apply (ni_incl _ (line s)); [|exact Hi]. rewrite H1, H2. intros m Hm. apply in_app_or in Hm as [Hm|Hm]; apply in_or_app; [now left|right; apply in_or_app; now right]. }
    assert (Hwb : wide C b).
    { unfold wide, V in *. rewrite Htw. change (emojis (cells b)) with (line b). change (emojis (cells s)) with (line s) in Hw. rewrite H2. rewrite H1 in Hw. now apply (line_ok_mid C HE) in Hw. }
    destruct (BackwardDelete_Q C HE HP still0 s b HG Ev0 (ni_nt _ Hib) Hwb) as (_ & HGb & _).
    eapply IR_trans; [eapply BackwardDelete_I; eauto|]. apply IR0_IR. eapply self_tail_I; [split; [exact HGb|exact Hib]|exact H|auto|auto]. }
  destruct (pending s).
  - apply IR0_IR. eapply self_tail_I; eauto.
  - apply IR0_IR. exact (self_tail_I (set_pending s []) _ s' HGI H Hn' Hw').
Qed.
Lemma Replace_I s pos t s' : nt (suflist (suffix s)) -> topc s = pw -> ReplaceAndRepaint C s pos t = Some s' -> ni (line s') -> wide C s' -> IR0 s s'.
Proof.
  intros Hs Ht H Hn' Hw'. unfold ReplaceAndRepaint in H. opt H. apply Delete_shape in Ev as (l & us & -> & _).
  unfold InsertString in Ev0. opt Ev0. injection Ev0 as <- <-. apply insert_shape in Ev as (l1 & us1 & -> & _).
  destruct (joinUndo_shape (set_cursor (set_undoes (set_cells (set_undoes (set_cells s l) us) l1) us1) (pos + zlen l0))) as [us2 Hj]. rewrite Hj in H.
  eapply IR0_same; [|apply (reset_I _ _ H); auto]; reflexivity.
Qed.
Lemma WordRubout_I s s' : GI s -> cmdUnixWordRubout C s = Some s' -> ni (line s') -> wide C s' -> IR0 s s'.
Proof.
  intros ((Hn & Ht & Hw & Hv & Hc & Hs & HW) & Hi) H Hn' Hw'. unfold cmdUnixWordRubout in H. opt H.
  match goal with H : context [clip_write ?x ?y] |- _ => destruct (clip_write_shape x y) as [cl Hcl]; rewrite Hcl in * end.
  apply Delete_shape in Ev2 as (l2 & us & -> & Hf & Hz2).
  unfold SubString in Ev1. opt Ev1. injection Ev1 as <-. apply slice_some in Ev2 as (Hb1 & Hb2 & _). cbn [cells set_cursor] in Hb2. rewrite zlen_line in Hc.
  cbn [view cursor set_cursor set_undoes set_cells set_clip] in H.
  destruct (z - view s <? 2) eqn:Hg.
  - eapply IR0_same; [|apply (reset_I _ _ H); auto]; reflexivity.
  - eapply IR0_same; [|apply (repaint_I _ _ H); auto]; [reflexivity|].
    apply (Wv_shrink C HE s); auto; cbn; try lia. apply Hf. rewrite zlen_line. cbn. lia.
Qed.
Lemma LineDiscard_I s s' : GI s -> cmdUnixLineDiscard C s = Some s' -> ni (line s') -> wide C s' -> IR0 s s'.
Proof.
  intros ((Hn & Ht & Hw & Hv & Hc & Hs & HW) & Hi) H Hn' Hw'. unfold cmdUnixLineDiscard in H. opt H.
  match goal with H : context [clip_write ?x ?y] |- _ => destruct (clip_write_shape x y) as [cl Hcl]; rewrite Hcl in * end.
  apply Delete_shape in Ev0 as (l2 & us & -> & _).
  destruct (pre_view C HE _ _ H (ni_nt _ Hn') Ht Hw') as [HV _].
  eapply IR0_same; [|apply (repaint_I _ _ H); auto]; reflexivity.
Qed.
Lemma RepaintAll_I s ts s' : GI s -> wordless ts -> RepaintAll C (emit s ts) = Some s' -> ni (line s') -> wide C s' -> IR0 s s'.
Proof.
  intros ((Hn & Ht & Hw & Hv & Hc & Hs & HW) & Hi) Hts H Hn' Hw'. unfold RepaintAll in H.
  destruct (callPromptWriter E (prompt C)) as [t p] eqn:Hp. cbn [snd] in Ht. rewrite <- Ht in H.
  assert (Hpw : topc s = pw) by (rewrite Hp; exact Ht).
  eapply (IR0_pre s _ s' (ts ++ [TFlush; TPrompt t])); [| |apply (repaint_I _ _ H); auto].
  - cbn. now rewrite app_assoc.
  - intros m Hm. apply in_app_or in Hm as [Hm|[Hm|[Hm|[]]]]; [now apply (Hts m)|discriminate|discriminate].
Qed.
Lemma BackwardWord_I s s' : GI s -> cmdBackwardWord C s = Some s' -> ni (line s') -> wide C s' -> IR0 s s'.
Proof.
  intros ((Hn & Ht & Hw & Hv & Hc & Hs & HW) & Hi) H Hn' Hw'. unfold cmdBackwardWord in H. opt H.
  match goal with H : context [set_cursor _ ?p] |- _ => set (np := p) in * end.
  assert (Hnp : np <= cursor s) by (unfold np; lia). clearbody np.
  destruct (np <? view s) eqn:Hg.
  - destruct (pre_view C HE _ _ H (ni_nt _ Hn') Ht Hw') as [HV _].
    eapply IR0_same; [|apply (repaint_I _ _ H); auto]; [reflexivity|]. now apply Wv_zero.
  - pose proof (repaint_bounds C _ _ H) as [Hb1 Hb2].
    eapply IR0_same; [|apply (repaint_I _ _ H); auto]; [reflexivity|].
    apply (Wv_shrink C HE s); auto; cbn; lia.
Qed.
Lemma Undo_I s s' : GI s -> cmdUndo C s = Some s' -> ni (line s') -> wide C s' -> IR s s'.
Proof.
  intros ((Hn & Ht & Hw & Hv & Hc & Hs & HW) & Hi) H Hn' Hw'. unfold cmdUndo in H.
  destruct (undoes s) as [|u rest]; [injection H as <-; apply IR_bell|]. apply IR0_IR. opt H.
  assert (Hb : exists l2 c2, b = set_cursor (set_cells (GotoHead (set_undoes s rest)) l2) c2).
  { destruct (u_text u); [injection Ev0 as <-; eauto|]. opt Ev0. injection Ev0 as <-. eexists _, _. reflexivity. }
  destruct Hb as (l2 & c2 & ->).
  eapply (IR0_pre s _ s' [TGoto (topc s + 1)]); [| |apply (reset_I _ _ H); auto]; [reflexivity|]. intros m [Hm|[]]. discriminate.
Qed.
Lemma Yank_I s s' : GI s -> cmdYank C s = Some s' -> ni (line s') -> wide C s' -> IR s s'.
Proof.
  intros [HG Hi] H Hn' Hw'. unfold cmdYank, InsertAndRepaint in H. destruct (clip s); [|injection H as <-; apply IR_refl].
  apply IR0_IR. eapply Replace_I; eauto; apply HG.
Qed.
Lemma YankQ_I s s' : GI s -> cmdYankWithQuote C s = Some s' -> ni (line s') -> wide C s' -> IR s s'.
Proof.
  intros [HG Hi] H Hn' Hw'. unfold cmdYankWithQuote, InsertAndRepaint in H. destruct (clip s); [|injection H as <-; apply IR_refl].
  apply IR0_IR. eapply Replace_I; eauto; apply HG.
Qed.

(** ** The commands that paint less *)
Lemma pred_ok s pred k : G s -> (pred = [] \/ cursor s = zlen (line s) /\ k = zlen (line s) /\ exists rest, suffix s = Some (pred ++ rest)) -> iok (look pred).
Proof.
  intros (_ & _ & _ & _ & _ & Hs & _) [-> |(_ & _ & rest & Hr)]; [constructor|]. apply iok_look, (nt_ok C HE). rewrite Hr in Hs. cbn in Hs. now apply Forall_app in Hs.
Qed.
(** Painting the cells from the cursor on moves the cursor. *)
Lemma advance_I s p s1 : GI s -> puts C s (cursor s) p = Some s1 -> W (part (line s) (view s) p) < ViewWidth s -> IR s (set_cursor s1 p).
Proof.
  intros (HG & Hi) H Hp. pose proof HG as (Hn & Ht & Hw & Hv & Hc & Hs & HW).
  pose proof (paints_fields _ _ (puts_paints C _ _ _ _ H)) as (F1 & F2 & F3 & F4 & F5 & F6 & F7 & _).
  destruct (puts_emits C s _ _ _ Hn H) as (_ & Hb1 & Hb2).
  apply (puts_ink C HB HT) in H as Em; [|exact Hi].
  assert (FL : line s1 = line s) by exact F1. assert (FV : ViewWidth s1 = ViewWidth s) by (unfold ViewWidth; now rewrite F6, F7).
  intros sc (k & pred & Hk & Hpred & Hrow & Hcol & HWk). exists (om (ipart (il s) (cursor s) p)). split; [exact Em|].
  fold (look pred) in Hrow. set (a := ipart (il s) (view s) (cursor s)) in *.
  assert (NP : forall x y, iok (ipart (il s) x y)) by (intros; now apply iok_part).
  assert (Hcol0 : icol sc = topc s + IW a) by (unfold a; now rewrite IW_part).
  assert (Hcol' : icol (D (om (ipart (il s) (cursor s) p)) sc) = topc s + W (part (line s) (view s) p)).
  { rewrite icol_tm, Hcol, IW_part, (part_split (line s) (view s) (cursor s) p), W_app by lia. lia. }
  assert (Hpk : pred <> [] -> cursor s = zlen (line s) /\ k = zlen (line s) /\ exists rest, suffix s = Some (pred ++ rest)) by (destruct Hpred as [-> |Hpred]; [congruence|auto]).
  assert (Hokp : iok (look pred)) by (eapply pred_ok; eauto).
  destruct (Z_le_dec p k) as [Hpk1|Hpk1].
  - exists k, pred. unfold bshows, ishows. fold (look pred). change (line (set_cursor s1 p)) with (line s1). change (ViewWidth (set_cursor s1 p)) with (ViewWidth s1). cbn [view cursor topc suffix set_cursor].
    rewrite FL, F3, F4, F7, FV. split; [lia|]. split; [|split; [|split; [exact Hcol'|exact HWk]]].
    + destruct Hpred as [Hpred|(Z1 & Z2 & Z3)]; [now left|]. right. repeat split; auto. lia.
    + assert (He : ipart (il s) (view s) k ++ look pred = a ++ ipart (il s) (cursor s) p ++ (ipart (il s) p k ++ look pred)).
      { rewrite (ipart_split (il s) (view s) (cursor s) k), (ipart_split (il s) (cursor s) p k) by lia. now rewrite <- !app_assoc. }
      rewrite He in *. apply (ifull_over E other (topc s) _ a); [|exact Hrow|exact Hcol0].
      apply Forall_app. split; [apply NP|]. apply Forall_app. split; [apply NP|]. apply Forall_app. split; [apply NP|exact Hokp].
  - assert (Hnil : pred = []) by (destruct pred; [reflexivity|]; destruct Hpk as (_ & Hkz & _); [discriminate|]; lia). subst pred. cbn [look map] in Hrow. rewrite app_nil_r in Hrow.
    exists p, []. unfold bshows, ishows. cbn [map]. change (line (set_cursor s1 p)) with (line s1). change (ViewWidth (set_cursor s1 p)) with (ViewWidth s1). cbn [view cursor topc suffix set_cursor].
    rewrite !app_nil_r, FL, F3, F4, F7, FV. split; [lia|]. split; [now left|]. split; [|split; [exact Hcol'|exact Hp]].
    rewrite (ipart_split (il s) (cursor s) k p) by lia. rewrite om_app, iD_app. rewrite (ipart_split (il s) (view s) k p) by lia.
    apply ifull_extend; [apply NP|apply NP| |].
    + rewrite (ipart_split (il s) (view s) (cursor s) k) in * by lia. pose proof (ifull_over E other (topc s) (ipart (il s) (cursor s) k) a []) as HF. rewrite !app_nil_r in HF.
      apply HF; [|exact Hrow|exact Hcol0]. apply Forall_app. split; apply NP.
    + rewrite icol_tm, Hcol0. rewrite (ipart_split (il s) (view s) (cursor s) k) by lia. rewrite iW_app. unfold a. lia.
Qed.
(** Head of the row, a part of the line, erase. *)
Lemma fresh_I s s2 : nt (line s) -> 0 <= view s2 <= cursor s2 -> cursor s2 <= zlen (line s2) -> line s2 = line s -> topc s2 = topc s -> ViewWidth s2 = ViewWidth s ->
  W (part (line s) (view s2) (cursor s2)) < ViewWidth s -> iemits s s2 ([OGoto (topc s + 1)] ++ om (ipart (il s) (view s2) (cursor s2)) ++ [OErase]) -> IR0 s s2.
Proof.
  intros Hn Hv Hc Hl Ht HV HW Em sc. eexists. split; [exact Em|].
  destruct (iscreen_row E other (topc s) (ipart (il s) (view s2) (cursor s2)) sc (iok_part _ _ _ Hn)) as (H1 & H2).
  exists (cursor s2), []. unfold bshows, ishows. cbn [map]. rewrite !app_nil_r, Hl, Ht, HV. rewrite Hl in Hc. repeat split; auto; try lia. rewrite H2. now rewrite IW_part.
Qed.
Lemma EndOfLine_isome s s' : GI s -> cmdEndOfLine C s = Some s' -> forall sc, isome s sc -> exists vs, iemits s s' vs /\ ishown s' (D vs sc).
Proof.
  intros (HG & Hi) H. pose proof HG as (Hn & Ht & Hw & Hv & Hc & Hs & HW). destruct (G_view C HE s Hn Ht Hw) as [HV HFw].
  destruct (EndOfLine_Q C HE still0 s s' HG H) as (_ & HG' & _). unfold cmdEndOfLine in H. opt H. injection H as <-.
  unfold GetWidthBetween in Ev. opt Ev. injection Ev as <-.
  assert (Hx : slice (line s) (view s) (zlen (cells s)) = Some (emojis l)) by (change (line s) with (emojis (cells s)); rewrite slice_emojis, Ev1; reflexivity).
  apply part_of_slice in Hx as (Hx & _). assert (Hnl : nt (emojis l)) by (rewrite Hx; now apply nt_part).
  rewrite (nt_width C l Hnl), Hx in Ev0. rewrite zlen_line in Hc.
  destruct (W (part (line s) (view s) (zlen (cells s))) <? ViewWidth s) eqn:Hfit.
  - opt Ev0. injection Ev0 as <-.
    pose proof (paints_fields _ _ (puts_paints C _ _ _ _ Ev)) as (F1 & F2 & F3 & F4 & F5 & F6 & F7 & _).
    assert (FL : line b0 = line s) by exact F1. assert (FV : ViewWidth b0 = ViewWidth s) by (unfold ViewWidth; now rewrite F6, F7).
    apply (puts_ink C HB HT) in Ev as Em; [|exact Hi].
    set (n := zlen (cells s)) in *.
    intros sc (k & pl & Hk & Hokp & Hrow & Hcol).
    exists (om (ipart (il s) (cursor s) n) ++ [OErase]). split; [eapply iemits_trans; [exact Em|]; exists [TErase]; split; reflexivity|]. clear Em.
    assert (NP : forall x y, iok (ipart (il s) x y)) by (intros; now apply iok_part).
    assert (U : iupto E (topc s) (ipart (il s) (view s) (cursor s)) sc).
    { rewrite (ipart_split (il s) (view s) (cursor s) k) in Hrow by lia. rewrite <- app_assoc in Hrow.
      apply (ifull_upto E (topc s) _ (ipart (il s) (cursor s) k ++ pl)); [apply NP| |exact Hrow|now rewrite IW_part]. apply Forall_app. split; [apply NP|exact Hokp]. }
    apply (iupto_tm E other (topc s) (ipart (il s) (cursor s) n)) in U; [|apply NP|apply NP]. rewrite <- ipart_split in U by lia.
    destruct (iupto_erase E other _ _ _ (NP _ _) U) as [HF HCo]. rewrite iD_app. rewrite IW_part in HCo.
    exists n, []. unfold bshows, ishows. cbn [map]. rewrite !app_nil_r. change (line (eraseline (set_cursor b0 n))) with (line b0). change (ViewWidth (eraseline (set_cursor b0 n))) with (ViewWidth b0).
    cbn [view cursor topc suffix set_cursor eraseline emit]. rewrite FL, F4, F7, FV. split; [rewrite zlen_line; unfold n; lia|]. split; [now left|]. split; [exact HF|]. split; [exact HCo|lia].
  - opt Ev0. injection Ev0 as <-. cbn [cells GotoHead emit] in *. change (ViewWidth (GotoHead s)) with (ViewWidth s) in *. set (n := zlen (cells s)) in *.
    match goal with H : puts C (set_view _ ?v) _ _ = _ |- _ => set (v' := v) in * end. set (s2 := set_view (GotoHead s) v') in *. change (view s2) with v' in *.
    pose proof (paints_fields _ _ (puts_paints C _ _ _ _ Ev2)) as (F1 & F2 & F3 & F4 & F5 & F6 & F7 & _).
    assert (FL : line b0 = line s) by exact F1. assert (FV : ViewWidth b0 = ViewWidth s) by (unfold ViewWidth; now rewrite F6, F7).
    apply (puts_ink C HB HT) in Ev2 as Em; [|exact Hi]. change (line s2) with (line s) in *.
    destruct HG' as (_ & _ & _ & Gv & Gc & _ & GW). unfold ScreenCmd.Wv in GW.
    change (line (eraseline (set_cursor b0 n))) with (line b0) in *. change (ViewWidth (eraseline (set_cursor b0 n))) with (ViewWidth b0) in *. cbn [view cursor set_cursor eraseline emit] in Gv, Gc, GW. rewrite FL, F4, FV in *.
    intros sc _. revert sc. apply (fresh_I s); [exact Hn|..].
    + cbn [view cursor set_cursor eraseline emit]. rewrite F4. exact Gv.
    + change (line (eraseline (set_cursor b0 n))) with (line b0). cbn [cursor set_cursor eraseline emit]. rewrite FL. exact Gc.
    + exact FL.
    + exact F7.
    + exact FV.
    + cbn [view cursor set_cursor eraseline emit]. rewrite F4. exact GW.
    + cbn [view cursor set_cursor eraseline emit]. rewrite F4. change (view s2) with v'.
      eapply (iemits_trans s s2); [exists [TGoto (topc s + 1)]; split; reflexivity|]. eapply iemits_trans; [exact Em|]. exists [TErase]. split; reflexivity.
Qed.
Lemma ishown_isome s sc : G s -> ishown s sc -> isome s sc.
Proof.
  intros HG (k & pred & Hk & Hpred & Hrow & Hcol & _). exists k, (look pred). split; [exact Hk|]. split; [|split; [exact Hrow|exact Hcol]]. eapply pred_ok; eauto.
Qed.
Lemma EndOfLine_I s s' : GI s -> cmdEndOfLine C s = Some s' -> IR s s'.
Proof. intros HGI H sc Hsc. eapply EndOfLine_isome; eauto. apply ishown_isome; [apply HGI|exact Hsc]. Qed.

Lemma ForwardChar_I s s' : GI s -> Forall (fun m => 1 <= width E m <= 2) (line s) \/ W (part (line s) (view s) (cursor s + 1)) < ViewWidth s ->
  cmdForwardChar C s = Some s' -> ni (line s') -> wide C s' -> IR s s'.
Proof.
  intros (HG & Hi) Hf H Hn' Hw'. pose proof HG as (Hn & Ht & Hw & Hv & Hc & Hs & HW).
  destruct (ForwardChar_Q C HE HP still0 s s' HG Hf H (ni_nt _ Hn') Hw') as (_ & HG' & _). unfold cmdForwardChar in H.
  destruct (zlen (cells s) <=? cursor s) eqn:Hend.
  { destruct (suffix s) as [[|m0 l0]|] eqn:Hsx; [injection H as <-; apply IR_refl| |injection H as <-; apply IR_refl].
    apply IR0_IR. eapply Replace_I; [|exact Ht|exact H|exact Hn'|exact Hw']. rewrite Hsx. exact Hs. }
  opt H. injection H as <-. apply (W_between C) in Ev as (-> & Hb1 & Hb2); [|exact Hn].
  destruct (W (part (line s) (view s) (cursor s + 1)) <? ViewWidth s) eqn:Hfit.
  - assert (Hcu : cursor b = cursor s) by (now apply puts_paints, paints_fields in Ev0 as (_ & _ & _ & _ & -> & _)). rewrite Hcu.
    apply advance_I; auto. lia.
  - opt Ev0. injection Ev0 as <-. cbn [cells cursor view GotoHead emit] in *.
    set (v' := if width E (c_moji c0) <? width E (c_moji c) then view s + 1 + 1 else view s + 1).
    assert (Hs3 : set_view (if width E (c_moji c0) <? width E (c_moji c) then set_view (GotoHead s) (view s + 1) else GotoHead s)
       (view (if width E (c_moji c0) <? width E (c_moji c) then set_view (GotoHead s) (view s + 1) else GotoHead s) + 1) = set_view (GotoHead s) v') by (unfold v'; destruct (width E (c_moji c0) <? width E (c_moji c)); reflexivity).
    rewrite Hs3 in *. cbn [view cursor set_view] in *. clear Hs3. clearbody v'.
    pose proof (paints_fields _ _ (puts_paints C _ _ _ _ Ev2)) as (F1 & F2 & F3 & F4 & F5 & F6 & F7 & _).
    assert (FL : line b0 = line s) by exact F1. assert (FV : ViewWidth b0 = ViewWidth s) by (unfold ViewWidth; now rewrite F6, F7).
    apply (puts_ink C HB HT) in Ev2 as Em; [|exact Hi]. change (line (set_view (GotoHead s) v')) with (line s) in Em.
    cbn [view cursor topc termw suffix set_view GotoHead emit] in F3, F4, F5, F6, F7.
    destruct HG' as (_ & _ & _ & Gv & Gc & _ & GW). unfold ScreenCmd.Wv in GW. set (c1 := cursor (eraseline b0) + 1) in *.
    assert (Hc1 : c1 = cursor s + 1) by (unfold c1; cbn; rewrite F5; reflexivity).
    change (line (set_cursor (eraseline b0) c1)) with (line b0) in *. change (ViewWidth (set_cursor (eraseline b0) c1)) with (ViewWidth b0) in *. cbn [view cursor set_cursor eraseline emit] in Gv, Gc, GW. rewrite FL, F4, FV in *.
    apply IR0_IR. apply (fresh_I s); [exact Hn|..].
    + cbn [view cursor set_cursor eraseline emit]. rewrite F4. exact Gv.
    + change (line (set_cursor (eraseline b0) c1)) with (line b0). cbn [cursor set_cursor eraseline emit]. rewrite FL. exact Gc.
    + exact FL.
    + exact F7.
    + exact FV.
    + cbn [view cursor set_cursor eraseline emit]. rewrite F4. exact GW.
    + cbn [view cursor set_cursor eraseline emit]. rewrite F4, Hc1.
      eapply (iemits_trans s (set_view (GotoHead s) v')); [exists [TGoto (topc s + 1)]; split; reflexivity|]. eapply iemits_trans; [exact Em|]. exists [TErase]. split; reflexivity.
Qed.
(** Erasing at the cursor: the line ends there. *)
Lemma KillLine_I s s' : GI s -> cmdKillLine s = Some s' -> IR s s'.
Proof.
  intros (HG & Hi) H. pose proof HG as (Hn & Ht & Hw & Hv & Hc & Hs & HW). unfold cmdKillLine in H. opt H. injection H as <-.
  match goal with H : context [clip_write ?x ?y] |- _ => destruct (clip_write_shape x y) as [cl Hcl]; rewrite Hcl in * end.
  cbn [cells cursor eraseline emit push_undo set_undoes set_clip] in Ev0.
  set (s' := set_cells (push_undo (eraseline (set_clip s cl)) _) l) in *.
  assert (Hx : slice (line s) 0 (cursor s) = Some (line s')) by (change (line s) with (emojis (cells s)); rewrite slice_emojis, Ev0; reflexivity).
  apply part_of_slice in Hx as (Hx & _). pose proof (zlen_part (line s) 0 (cursor s) ltac:(lia) ltac:(lia)) as Hz. rewrite <- Hx, Z.sub_0_r in Hz.
  assert (Hfn : firstn (Z.to_nat (cursor s)) (line s') = firstn (Z.to_nat (cursor s)) (line s)).
  { rewrite Hx, (part_skip (line s)) by lia. cbn [Z.to_nat skipn]. rewrite firstn_firstn. f_equal. lia. }
  intros sc (k & pred & Hk & Hpred & Hrow & Hcol & HWk). fold (look pred) in Hrow. exists [OErase]. split; [exists [TErase]; split; reflexivity|].
  assert (NP : forall x y, iok (ipart (il s) x y)) by (intros; now apply iok_part).
  assert (Hokp : iok (look pred)) by (eapply pred_ok; eauto).
  assert (U : iupto E (topc s) (ipart (il s) (view s) (cursor s)) sc).
  { rewrite (ipart_split (il s) (view s) (cursor s) k) in Hrow by lia. rewrite <- app_assoc in Hrow.
    apply (ifull_upto E (topc s) _ (ipart (il s) (cursor s) k ++ look pred)); [apply NP| |exact Hrow|now rewrite IW_part]. apply Forall_app. split; [apply NP|exact Hokp]. }
  destruct (iupto_erase E other _ _ _ (NP _ _) U) as [HF HCo]. rewrite IW_part in HCo.
  exists (cursor s), []. unfold bshows, ishows. cbn [map]. change (view s') with (view s). change (cursor s') with (cursor s). change (topc s') with (topc s). change (ViewWidth s') with (ViewWidth s).
  rewrite !app_nil_r, Hz. rewrite (binked_part_same K (line s') (line s)), (part_same (line s') (line s)) by (lia || exact Hfn). split; [lia|]. split; [now left|]. split; [exact HF|]. split; [exact HCo|exact HW].
Qed.
Lemma KillWhole_irow s s' : G s -> cmdKillWholeLine s = Some s' -> forall sc, exists vs, iemits s s' vs /\ bshows C s' (D vs sc) 0 [].
Proof.
  intros HG H. pose proof HG as (Hn & Ht & Hw & Hv & Hc & Hs & HW). destruct (G_view C HE s Hn Ht Hw) as [HV _]. unfold cmdKillWholeLine in H. injection H as <-.
  intros sc. exists ([OGoto (topc s + 1)] ++ om [] ++ [OErase]).
  split; [exists [TGoto (topc s + 1); TErase]; split; [cbn; now rewrite <- app_assoc|reflexivity]|].
  destruct (iscreen_row E other (topc s) [] sc (Forall_nil _)) as (H1 & H2).
  unfold bshows, ishows. cbn. split; [unfold zlen; cbn; lia|]. split; [now left|]. split; [exact H1|]. split; [exact H2|exact HV].
Qed.
Lemma KillWhole_I s s' : G s -> cmdKillWholeLine s = Some s' -> IR s s'.
Proof. intros HG H sc _. destruct (KillWhole_irow s s' HG H sc) as (vs & H1 & H2). exists vs. split; [exact H1|]. now exists 0, []. Qed.
Lemma ForwardWord_I s s' : GI s -> cmdForwardWord C s = Some s' -> ni (line s') -> wide C s' -> IR s s'.
Proof.
  intros (HG & Hi) H Hn' Hw'. pose proof HG as (Hn & Ht & Hw & Hv & Hc & Hs & HW). unfold cmdForwardWord in H. opt H.
  apply (W_between C) in Ev0 as (-> & Hb1 & Hb2); [|exact Hn]. match goal with H : context [?a <? ViewWidth s] |- _ => destruct (a <? ViewWidth s) eqn:Hfit end.
  - opt H. injection H as <-. apply advance_I; auto. lia.
  - apply IR0_IR. eapply IR0_same; [|apply (reset_I _ _ H); auto]; reflexivity.
Qed.
(** History: an empty row, then the entry. *)
Lemma show_I s s' : GI s -> show_history C s = Some s' -> ni (line s') -> wide C s' -> IR s s'.
Proof.
  intros (HG & Hi) H Hn' Hw'. unfold show_history in H. destruct (cmdKillWholeLine s) as [s1|] eqn:Hk; [|discriminate].
  pose proof (KillWhole_I s s1 HG Hk) as HQ. opt H. destruct s0 as [|x t]; [injection H as <-; exact HQ|].
  assert (Hk2 : line s1 = [] /\ view s1 = 0 /\ cursor s1 = 0) by (unfold cmdKillWholeLine in Hk; injection Hk as <-; cbn; auto). destruct Hk2 as (L1 & V1 & C1).
  opt H. unfold InsertString in Ev0. opt Ev0. injection Ev0 as <- <-. apply insert_shape in Ev1 as (l0 & us & -> & _ & Hl).
  set (s2 := set_cursor (set_view (set_undoes (set_cells s1 l0) us) 0) 0) in *.
  assert (HL : line s' = line s2).
  { apply cmdEndOfLine_ref in H. apply (f_equal aline) in H. exact H. }
  assert (HT2 : termw s' = termw s2).
  { unfold cmdEndOfLine in H. opt H. injection H as <-. cbn [termw eraseline emit]. destruct (_ <? _).
    - opt Ev1. injection Ev1 as <-. apply puts_paints, paints_fields in Ev2 as (_&_&_&_&_&Ev2&_). exact Ev2.
    - opt Ev1. injection Ev1 as <-. apply puts_paints, paints_fields in Ev3 as (_&_&_&_&_&Ev3&_). exact Ev3. }
  destruct (KillWhole_row C HE still0 s s1 HG Hk) as (_ & HG1 & HT1).
  assert (HG2 : GI s2).
  { destruct HG1 as (_ & Ht & _ & _ & _ & Hs & HW). split; [|rewrite <- HL; exact Hn']. unfold ScreenCmd.G. split; [rewrite <- HL; now apply ni_nt|]. split; [exact Ht|]. split; [apply (wide_line C s'); congruence|].
    change (view s2) with 0. change (cursor s2) with 0. split; [lia|]. split; [apply zlen_nonneg|]. split; [exact Hs|].
    unfold ScreenCmd.Wv. change (view s2) with 0. change (cursor s2) with 0. change (ViewWidth s2) with (ViewWidth s1). rewrite part_nil, W_nil.
    unfold ScreenCmd.Wv in HW. rewrite L1, V1, C1 in HW. exact HW. }
  intros sc Hsc. destruct (KillWhole_irow s s1 HG Hk sc) as (vs & H1 & (_ & _ & Hrow & Hcol & _)). rewrite L1, V1, C1 in *. rewrite part_nil in *. cbn [map] in Hrow. rewrite ipart_nil in Hrow.
  destruct (EndOfLine_isome _ _ HG2 H (D vs sc)) as (v2 & O2 & S2).
  - exists 0, []. change (view s2) with 0. change (cursor s2) with 0. change (topc s2) with (topc s1). rewrite part_nil, ipart_nil.
    split; [pose proof (zlen_nonneg (line s2)); lia|]. split; [constructor|]. split; [exact Hrow|exact Hcol].
  - exists (vs ++ v2). split; [|now rewrite iD_app]. eapply iemits_trans; [exact H1|]. destruct O2 as (ts & O2 & O3). exists ts. split; [exact O2|exact O3].
Qed.
Lemma history_I s s0 h s' : GI s -> (s0 = s \/ s0 = set_hptr s h) ->
  (let* s1 := saveModifiedHistory C s0 in show_history C (set_hptr s1 (hptr s1 + 1))) = Some s' \/
  (let* s1 := saveModifiedHistory C s0 in show_history C (set_hptr s1 (hptr s1 - 1))) = Some s' ->
  ni (line s') -> wide C s' -> IR s s'.
Proof.
  intros (HG & Hi) H0 H Hn' Hw'.
  destruct (saveModifiedHistory C s0) as [s1|] eqn:Hsv; [|destruct H; discriminate].
  assert (Hs1 : exists m, s1 = set_modh s0 m).
  { unfold saveModifiedHistory in Hsv. assert (Hr : s0 = set_modh s0 (modh s0)) by (now destruct s0). destruct (hptr s0 <? zlen (hist C)).
    - opt Hsv. destruct (str_eqb s2 (buf_string s0)); injection Hsv as <-; eauto.
    - injection Hsv as <-. eauto. }
  destruct Hs1 as [md ->].
  destruct H as [H|H]; (eapply IR_same; [..|eapply show_I; [|exact H|exact Hn'|exact Hw']]; [destruct H0 as [-> | ->]; reflexivity..|]);
    (split; [eapply (G_same C); [..|exact HG]; destruct H0 as [-> | ->]; reflexivity|destruct H0 as [-> | ->]; exact Hi]).
Qed.
Lemma PreviousHistory_I s s' : GI s -> cmdPreviousHistory C s = Some s' -> ni (line s') -> wide C s' -> IR s s'.
Proof.
  intros HGI H Hn' Hw'. unfold cmdPreviousHistory in H. destruct (zlen (hist C) <=? 0); [injection H as <-; apply IR_refl|].
  destruct (hptr s <=? 0); [destruct (negb (cycling C)); [injection H as <-; apply IR_refl|]|].
  - eapply history_I; [exact HGI|right; reflexivity|right; exact H|exact Hn'|exact Hw'].
  - eapply history_I; [exact HGI|left; reflexivity|right; exact H|exact Hn'|exact Hw'].
    Unshelve. exact 0.
Qed.
Lemma NextHistory_I s s' : GI s -> cmdNextHistory C s = Some s' -> ni (line s') -> wide C s' -> IR s s'.
Proof.
  intros HGI H Hn' Hw'. unfold cmdNextHistory in H. destruct (zlen (hist C) <=? 0); [injection H as <-; apply IR_refl|].
  destruct (zlen (hist C) <? hptr s + 1); [injection H as <-; apply IR_refl|].
  eapply history_I; [exact HGI|left; reflexivity|left; exact H|exact Hn'|exact Hw'].
    Unshelve. exact 0.
Qed.

(** SWAPCHAR next to the end of the line or with an orderless colouring, when all units of the line are one column wide. *)
Lemma ni_swap p a b q : ni (p ++ [a; b] ++ q) -> ni (p ++ [b; a] ++ q).
Proof.
  apply ni_incl. intros x Hx. rewrite !in_app_iff in *. cbn in *. tauto.
Qed.
Lemma SwapChar_I s s' : GI s -> Forall (fun m => width E m = 1) (line s) -> zlen (line s) <= cursor s + 1 \/ orderless K -> cmdSwapChar C s = Some s' -> IR s s'.
Proof.
  intros (HG & Hi) Hu Hend1 H. pose proof HG as (Hn & Ht & Hw & Hv & Hc & Hs & HW). unfold cmdSwapChar in H. destruct (zlen (cells s) =? cursor s) eqn:Hend.
  - destruct (cursor s <? 2) eqn:Hc2; [injection H as <-; now apply IR_refl|]. opt H. cbn [cells push_undo set_undoes] in Ev0.
    apply swap_ref in Ev0. change (emojis (cells s)) with (line s) in Ev0. replace (cursor s - 1) with (cursor s - 2 + 1) in Ev0 by lia. apply aswap_shape in Ev0 as (p & a & b & q & Hl & Hl' & Hz).
    set (s2 := GotoHead _) in *. assert (L2 : line s2 = p ++ [b; a] ++ q) by exact Hl'.
    assert (Hi2 : ni (line s2)) by (rewrite L2; apply ni_swap; rewrite <- Hl; exact Hi). assert (Hn2 := ni_nt _ Hi2).
    assert (Hu2 : Forall (fun m => width E m = 1) (line s2)) by (rewrite Forall_forall in *; intros x Hx; apply Hu; rewrite Hl, L2, !in_app_iff in *; cbn in *; tauto).
    assert (Hz2 : zlen (line s2) = zlen (line s)) by (rewrite L2, Hl, !zlen_app; reflexivity).
    pose proof (paints_fields _ _ (puts_paints C _ _ _ _ H)) as (F1 & F2 & F3 & F4 & F5 & F6 & F7 & _).
    assert (FL : line s' = line s2) by exact F1. assert (FV : ViewWidth s' = ViewWidth s) by (unfold ViewWidth; rewrite F6, F7; reflexivity).
    apply (puts_ink C HB HT) in H as Em; [|exact Hi2].
    change (view s2) with (view s) in *. change (cursor s2) with (cursor s) in *. change (topc s2) with (topc s) in *. change (termw s2) with (termw s) in *. change (suffix s2) with (suffix s) in *.
    assert (Hcz : cursor s = zlen (line s)) by (rewrite zlen_line; lia).
    assert (WP : W (part (line s2) (view s) (cursor s)) = W (part (line s) (view s) (cursor s))).
    { rewrite !(W_units C) by (now apply Forall_part). rewrite !zlen_part by lia. reflexivity. }
    intros sc (k & pred & Hk & Hpred & Hrow & Hcol & HWk). fold (look pred) in Hrow.
    exists ([OGoto (topc s + 1)] ++ om (ipart (il s2) (view s) (cursor s))). split.
    { eapply (iemits_trans s s2); [exists [TGoto (topc s + 1)]; split; reflexivity|exact Em]. }
    assert (k = cursor s) by lia. subst k.
    assert (Hokp : iok (look pred)) by (eapply pred_ok; eauto).
    rewrite iD_app. set (sc1 := D [OGoto (topc s + 1)] sc). assert (C1 : icol sc1 = topc s) by (unfold sc1; cbn; lia).
    exists (cursor s), pred. unfold bshows, ishows. fold (look pred). rewrite FL, F3, F4, F5, F7, FV, Hz2. split; [exact Hk|]. split; [exact Hpred|].
    split; [|split; [rewrite icol_tm, C1, IW_part; reflexivity|rewrite W_app in *; lia]].
    eapply ifull_replace; [| | |exact Hrow|exact C1]; [apply Forall_app; split; [now apply iok_part|exact Hokp]|now apply iok_part|now rewrite !IW_part].
  - destruct (cursor s <? 1) eqn:Hc2; [injection H as <-; now apply IR_refl|]. opt H. cbn [cells push_undo set_undoes] in Ev1.
    apply swap_ref in Ev1. change (emojis (cells s)) with (line s) in Ev1. replace (cursor s) with (cursor s - 1 + 1) in Ev1 at 2 by lia. apply aswap_shape in Ev1 as (p & a & b & q & Hl & Hl' & Hz).
    apply (W_between C) in Ev0 as (-> & Hb1 & Hb2); [|exact Hn].
    set (c := cursor s) in *. cbn [view push_undo set_undoes cursor] in H. change (line (push_undo s (mkUndo (c - 1) 2 s0))) with (line s) in *.
    set (s2 := GotoHead _) in *. assert (L2 : line s2 = p ++ [b; a] ++ q) by exact Hl'.
    set (v := view s) in *. set (v' := if ViewWidth s <=? W (part (line s) v (c + 1)) then v + 1 else v).
    assert (Hs3 : (if ViewWidth s2 <=? W (part (line s) v (c + 1)) then set_view s2 (view s2 + 1) else s2) = set_view s2 v').
    { unfold v'. change (ViewWidth s2) with (ViewWidth s). destruct (_ <=? _); reflexivity. }
    cbv zeta in H. rewrite Hs3 in H. clear Hs3. cbn [view cursor set_view set_cursor] in H.
    assert (Hi2 : ni (line s2)) by (rewrite L2; apply ni_swap; rewrite <- Hl; exact Hi). assert (Hn2 := ni_nt _ Hi2).
    assert (Hu2 : Forall (fun m => width E m = 1) (line s2)) by (rewrite Forall_forall in *; intros x Hx; apply Hu; rewrite Hl, L2, !in_app_iff in *; cbn in *; tauto).
    assert (Hz2 : zlen (line s2) = zlen (line s)) by (rewrite L2, Hl, !zlen_app; reflexivity).
    pose proof (paints_fields _ _ (puts_paints C _ _ _ _ H)) as (F1 & F2 & F3 & F4 & F5 & F6 & F7 & _).
    assert (FL : line s' = line s2) by exact F1. assert (FV : ViewWidth s' = ViewWidth s) by (unfold ViewWidth; rewrite F6, F7; reflexivity).
    apply (puts_ink C HB HT) in H as Em; [|exact Hi2]. change (line (set_cursor (set_view s2 v') (c + 1))) with (line s2) in Em.
    cbn [view cursor topc termw suffix set_view set_cursor] in F3, F4, F5, F6, F7.
    change (topc s2) with (topc s) in *. change (termw s2) with (termw s) in *. change (suffix s2) with (suffix s) in *.
    assert (UP : forall x y, 0 <= x <= y -> y <= zlen (line s) -> W (part (line s) x y) = y - x) by (intros; rewrite (W_units C) by (now apply Forall_part); apply zlen_part; lia).
    assert (UP2 : forall x y, 0 <= x <= y -> y <= zlen (line s) -> W (part (line s2) x y) = y - x) by (intros; rewrite (W_units C) by (now apply Forall_part); apply zlen_part; lia).
    unfold ScreenCmd.Wv in HW. fold c v in HW. rewrite UP in HW by lia.
    assert (Hv' : v <= v' <= c + 1 /\ c + 1 - v' < ViewWidth s /\ (v' = v \/ c + 1 - v = ViewWidth s /\ v' = v + 1)).
    { unfold v'. rewrite UP by lia. destruct (ViewWidth s <=? c + 1 - v) eqn:Hq; lia. }
    clearbody v'. destruct Hv' as (Hv1 & HW' & Hvc).
    intros sc (k & pred & Hk & Hpred & Hrow & Hcol & HWk). fold c v in Hk, Hpred, Hrow, HWk.
    exists ([OGoto (topc s + 1)] ++ om (ipart (il s2) v' (c + 1))). split.
    { eapply (iemits_trans s (set_cursor (set_view s2 v') (c + 1))); [exists [TGoto (topc s + 1)]; split; reflexivity|exact Em]. }
    assert (pred = []) by (destruct Hpred as [Hp|(Hp & _)]; [exact Hp|exfalso; rewrite zlen_line in Hp; lia]). subst pred. cbn [map] in Hrow. rewrite app_nil_r in *. rewrite UP in HWk by lia.
    assert (NP : forall l x y, nt l -> iok (ipart (binked K l) x y)) by (intros; now apply iok_part).
    assert (IUP : forall x y, 0 <= x <= y -> y <= zlen (line s) -> IW (ipart (il s) x y) = y - x) by (intros; rewrite IW_part; auto).
    assert (IUP2 : forall x y, 0 <= x <= y -> y <= zlen (line s) -> IW (ipart (il s2) x y) = y - x) by (intros; rewrite IW_part; auto).
    rewrite iD_app. set (sc1 := D [OGoto (topc s + 1)] sc). assert (C1 : icol sc1 = topc s) by (unfold sc1; cbn; lia).
    assert (R1 : irow sc1 = irow sc) by reflexivity.
    assert (Fin : forall k', c + 1 <= k' <= zlen (line s) -> k' - v' < ViewWidth s -> ifull E (topc s) (ipart (il s2) v' k') (D (om (ipart (il s2) v' (c + 1))) sc1) -> ishown s' (D (om (ipart (il s2) v' (c + 1))) sc1)).
    { intros k' Hk1 Hk2 Hf. exists k', []. unfold bshows, ishows. cbn [map]. rewrite !app_nil_r, FL, F4, F5, F7, FV, Hz2. split; [lia|]. split; [now left|]. split; [exact Hf|].
      split; [now rewrite icol_tm, C1, IW_part|]. rewrite UP2 by lia. exact Hk2. }
    destruct Hvc as [-> |[Hvc ->]].
    + destruct (Z.eq_dec k c) as [-> |Hkc].
      * apply (Fin (c + 1)); [lia|lia|]. rewrite (ipart_split (il s2) v c (c + 1)) by lia. rewrite om_app, iD_app.
        apply ifull_extend; [now apply NP|now apply NP| |rewrite icol_tm, C1; reflexivity].
        rewrite <- (app_nil_r (ipart (il s2) v c)) at 1. apply (ifull_replace E other (topc s) (ipart (il s) v c)); [rewrite app_nil_r; now apply NP|now apply NP| |rewrite app_nil_r; exact Hrow|exact C1].
        rewrite IUP, IUP2 by lia. reflexivity.
      * apply (Fin k); [lia|lia|]. rewrite (ipart_split (il s2) v (c + 1) k) by lia.
        assert (Hsm : ipart (il s2) (c + 1) k = ipart (il s) (c + 1) k).
        { destruct Hend1 as [Hend1|HO]; [replace k with (c + 1) by lia; now rewrite !ipart_nil|].
          rewrite L2, Hl. replace (c + 1) with (zlen p + 2) by lia. apply binked_swap; [exact HO|]. rewrite <- Hl. apply Hi. }
        rewrite Hsm. apply (ifull_replace E other (topc s) (ipart (il s) v (c + 1))); [rewrite <- ipart_split by lia; now apply NP|now apply NP| |rewrite <- ipart_split by lia; exact Hrow|exact C1].
        rewrite IUP, IUP2 by lia. reflexivity.
    + apply (Fin (c + 1)); [lia|lia|]. rewrite <- (app_nil_r (ipart (il s2) (v + 1) (c + 1))) at 1.
      assert (k = c) by lia. subst k.
      apply (ifull_replace E other (topc s) (ipart (il s) v c)); [rewrite app_nil_r; now apply NP|now apply NP| |rewrite app_nil_r; exact Hrow|exact C1].
      rewrite IUP, IUP2 by lia. lia.
Qed.

Lemma exec_I c s s' r : GI s -> (forall f, c <> CUser f) -> c <> CInterrupt ->
  (c = CForwardChar -> Forall (fun m => 1 <= width E m <= 2) (line s) \/ W (part (line s) (view s) (cursor s + 1)) < ViewWidth s) ->
  (c = CSwapChar -> Forall (fun m => width E m = 1) (line s) /\ (zlen (line s) <= cursor s + 1 \/ orderless K)) ->
  exec C c s = Some (s', r) -> ni (line s') -> wide C s' -> IR s s'.
Proof.
  intros HGI HU HI HF HS H Hn Hw. pose proof HGI as (HG & Hi). destruct c; cbn [exec] in H; try (exfalso; now apply HI); try (exfalso; now apply (HU f));
    try (unfold continue_ in H; match type of H with (match ?o with Some _ => _ | None => _ end) = _ => destruct o as [s1|] eqn:Ho; [|discriminate] end; injection H as <- <-).
  - injection H as <- <-. now apply IR_refl.
  - apply IR0_IR. eapply BeginningOfLine_I; eauto.
  - eapply BackwardChar_I; eauto.
  - eapply EndOfLine_I; eauto.
  - eapply ForwardChar_I; eauto.
  - eapply BackwardDelete_I; eauto.
  - apply IR0_IR. eapply DeleteChar_I; eauto.
  - unfold cmdDeleteOrAbort in H. destruct (0 <? zlen (cells s)).
    + opt H. injection H as <- <-. apply IR0_IR. eapply DeleteChar_I; eauto.
    + injection H as <- <-. now apply IR_refl.
  - eapply KillLine_I; eauto.
  - eapply KillWhole_I; eauto.
  - apply IR0_IR. eapply WordRubout_I; eauto.
  - apply IR0_IR. eapply LineDiscard_I; eauto.
  - apply IR0_IR. eapply RepaintAll_I; eauto. intros m [Hm|[]]. discriminate.
  - apply IR0_IR. eapply RepaintAll_I; eauto. intros m [Hm|[]]. discriminate.
  - injection H as <- <-. now apply IR_refl.
  - eapply Yank_I; eauto.
  - eapply YankQ_I; eauto.
  - destruct (HS eq_refl). eapply SwapChar_I; eauto.
  - apply IR0_IR. eapply BackwardWord_I; eauto.
  - eapply ForwardWord_I; eauto.
  - eapply Undo_I; eauto.
  - eapply PreviousHistory_I; eauto.
  - eapply NextHistory_I; eauto.
  - injection H as <- <-. now apply IR_refl.
  - eapply selfInsert_I; eauto.
Qed.
End Screen.
