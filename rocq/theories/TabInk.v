(** Every command keeps the colours right when the line, tabs and all, fits the row: TabScreen.v
    again, with ink. *)
From Coq Require Import Sorting.Permutation.
From Verif Require Import Base Utf8 Moji Color Prompt Buffer Commands KeyMap Session MojiFacts Abs AbsRef AbsSess
  AbsSafe AbsInv Safe Spec SpecScreen SpecTabScreen ScreenFacts ScreenPaint ScreenCmd SpecPaint PaintFacts SpecInk InkFacts InkPaint SpecTabInk.
From Verif Require TabScreen.
Ltac lia := unfold rune in *; Lia.lia.

Section Screen.
Variable C : cfg.
Notation E := (cE C).
Notation K := (ccol C).
Hypothesis HE : env_ok E.
Hypothesis HP : pcolor0 C = [].
Hypothesis HB : blind K.
Hypothesis HT : true_colours K.
Variable other : iterminal.
Notation D := (idisplay E other).
Notation W := (total_width E).
Notation IW := (itotal E).
Notation ok := (Forall (fun m => 0 <= width E m)).
Notation iok := (Forall (fun u => 0 <= iwidth E u)).
Notation pw := (snd (callPromptWriter E (prompt C))).
Notation laid := (laid E).
Notation ut := TabScreen.ut.
Notation width_any := (TabScreen.width_any C HE).
Notation W_pos := (TabScreen.W_pos C HE).
Notation laid_app := (TabScreen.laid_app C HE).
Notation laid_firstn := (TabScreen.laid_firstn C).
Notation zlen_laid := (TabScreen.zlen_laid C).
Notation laid_W := (TabScreen.laid_W C HE).
Notation units_le := (TabScreen.units_le C HE).
Notation Delete_cok := (TabScreen.Delete_cok C).
Notation swap_cok := TabScreen.swap_cok.
Notation part_two := TabScreen.part_two.
Notation laid_two := (TabScreen.laid_two C).
Notation repaint_line := (TabScreen.repaint_line C HP).
Notation inl l := (binked K (laid 0 l)).

Lemma iok_any l : iok l.
Proof. apply Forall_forall. intros u _. apply width_any. Qed.
Lemma om_app a b : om (a ++ b) = om a ++ om b. Proof. apply map_app. Qed.
Lemma inl_firstn n l : firstn n (inl l) = inl (firstn n l).
Proof. now rewrite binked_firstn, laid_firstn. Qed.
Lemma IW_inl n l : IW (firstn n (inl l)) = W (firstn n (laid 0 l)).
Proof. unfold itotal. now rewrite binked_firstn, binked_fst. Qed.
Lemma zlen_inl l : zlen (inl l) = zlen l.
Proof. unfold zlen. rewrite binked_length. exact (zlen_laid l 0). Qed.
Lemma ipart0 (l : list painted) k : ipart l 0 k = firstn (Z.to_nat k) l.
Proof. unfold ipart. now rewrite Z.sub_0_r. Qed.
Lemma ipart_all (l : list painted) : ipart l 0 (zlen l) = l.
Proof. rewrite ipart0, to_nat_zlen. apply firstn_all. Qed.

(** Units that reach the colouring as they are written. *)
Definition nh (l : list moji) : Prop := Forall moji_valid l /\ Forall (fun m => heard_as_is m = true) l.
Lemma nh_incl l l' : incl l l' -> nh l' -> nh l.
Proof. intros H [H1 H2]. unfold nh in *. rewrite !Forall_forall in *. auto. Qed.
Lemma written_laid l : forall c, written (laid c l) = written l.
Proof. induction l as [|m l IH]; intros c; [reflexivity|]. destruct m; cbn [SpecTabScreen.laid]; unfold written in *; cbn [map concat flat_map]; rewrite ?IH; reflexivity. Qed.

(** The line fits the row. *)
Definition Fit (s : buf) : Prop :=
  Forall ut (line s) /\ topc s = pw /\ W (line s) < termw s - PW C - 3 /\ W (line s) <= 32767 /\ nh (line s).
Definition Room (s : buf) : Prop := Forall ut (line s) /\ W (line s) < termw s - PW C - 3 /\ W (line s) <= 32767 /\ nh (line s).
Lemma Fit_Room s : Fit s -> Room s. Proof. unfold Fit, Room. tauto. Qed.
Lemma Room_Fit s : Room s -> topc s = pw -> Fit s. Proof. unfold Fit, Room. tauto. Qed.
Definition G (s : buf) : Prop :=
  Fit s /\ cok (cells s) /\ view s = 0 /\ 0 <= cursor s <= zlen (line s) /\ suffix s = None.
Lemma Fit_old s : Fit s -> TabScreen.Fit C s. Proof. unfold Fit, TabScreen.Fit. tauto. Qed.
Lemma G_old s : G s -> TabScreen.G C s. Proof. intros (H & H1). split; [now apply Fit_old|exact H1]. Qed.
Lemma Fit_same s s' : line s' = line s -> topc s' = topc s -> termw s' = termw s -> Fit s -> Fit s'.
Proof. intros H1 H2 H3 H. unfold Fit in *. now rewrite H1, H2, H3. Qed.

Lemma puts_T s a b s' : Forall ut (line s) -> W (line s) <= 32767 -> nh (line s) -> puts C s a b = Some s' ->
  iemits s s' (om (ipart (inl (line s)) a b)) /\ 0 <= a <= b /\ b <= zlen (line s) /\ (cok (cells s) -> cok (cells s')).
Proof.
  intros Hu Hw [Hv Hh] H. destruct (TabScreen.puts_T C HE s a b s' Hu Hw H) as (_ & Hb). split; [|exact Hb]. clear Hb.
  pose proof (puts_colours C s a b s' H Hv Hh) as Hcol. unfold puts in H. destruct (refreshColor C s) as [s1|] eqn:Hr; [|discriminate].
  destruct (slice (cells s1) a b) as [seg|] eqn:Hs; [|discriminate]. destruct (paint C (-1) seg) as [[ts k]|] eqn:Hpt; [|discriminate]. injection H as <-.
  unfold refreshColor in Hr. destruct (refresh_loop C (cursor s) 0 0 [] (cells s)) as [[l p]|] eqn:Hrl; [|discriminate]. injection Hr as <-. cbn [cells set_cells emit] in *.
  assert (Hl : map c_moji l = laid 0 (line s)) by (eapply (TabScreen.refresh_laid C HE); [exact Hu|lia| |exact Hrl]; change (emojis (cells s)) with (line s); lia).
  assert (Hall : map (fun c => (c_moji c, Colour (c_color c))) l = inl (line s)).
  { apply nth_error_ext. intros i. rewrite nth_error_map. destruct (nth_error l i) as [c|] eqn:Hi; cbn [option_map].
    - specialize (Hcol i c Hi). assert (Hm : nth_error (laid 0 (line s)) i = Some (c_moji c)) by (rewrite <- Hl, nth_error_map, Hi; reflexivity).
      unfold binked. rewrite (binked_from_nth K _ _ _ _ Hm). cbn [app]. do 3 f_equal. rewrite laid_firstn, written_laid, Hcol. apply marked_blind; [exact HB|].
      rewrite <- (firstn_skipn (Datatypes.S i) (line s)) in Hv. now apply Forall_app in Hv.
    - symmetry. apply nth_error_None. rewrite binked_length. apply nth_error_None in Hi. rewrite <- Hl. now rewrite map_length. }
  assert (Hn1 : Forall (fun c => c_color c <> -1) seg).
  { apply slice_split in Hs as (p1 & q1 & Hs & _). apply Forall_forall. intros c Hc. assert (Hi : In c l) by (rewrite Hs; apply in_or_app; right; apply in_or_app; now left).
    apply In_nth_error in Hi as [i Hi]. rewrite (Hcol i c Hi). apply HT. }
  exists (ts ++ (if k =? c_init K then [] else [TColor (c_init K)])). cbn [out emit set_cells]. split; [reflexivity|]. intros k0.
  destruct (inkify_app ts k0 (if k =? c_init K then [] else [TColor (c_init K)])) as [k' ->].
  replace (inkify k' _) with (@nil op) by (destruct (k =? c_init K); reflexivity). rewrite app_nil_r. rewrite (paint_ink C _ _ _ _ _ Hpt (or_introl eq_refl) Hn1).
  unfold om. rewrite <- Hall. rewrite <- (map_map (fun c => (c_moji c, Colour (c_color c))) OUnit). f_equal.
  apply slice_some in Hs as (_ & _ & ->). unfold ipart. now rewrite <- firstn_map, <- skipn_map.
Qed.
Lemma getView2_T s e w : Fit s -> cok (cells s) -> view s = 0 -> getView2 C s = Some (e, w) -> e = zlen (line s) /\ 0 <= cursor s <= zlen (line s).
Proof. intros HF. apply (TabScreen.getView2_T C HE). now apply Fit_old. Qed.
Lemma Reset_T s : Fit s -> cok (cells s) -> ResetViewStart C s = set_view s 0.
Proof. intros HF. apply (TabScreen.Reset_T C HE). now apply Fit_old. Qed.

(** ** Painting *)
Definition shown (s : buf) (sc : iscreen) : Prop :=
  (forall x, topc s <= x -> irow sc x = iimage E (topc s) (inl (line s)) x) /\
  icol sc = topc s + W (firstn (Z.to_nat (cursor s)) (laid 0 (line s))).
Definition R0 (s s' : buf) : Prop := forall sc, exists vs, iemits s s' vs /\ shown s' (D vs sc).
Definition R (s s' : buf) : Prop := forall sc, shown s sc -> exists vs, iemits s s' vs /\ shown s' (D vs sc).
Definition Q0 (s s' : buf) : Prop := R0 s s' /\ G s' /\ termw s' = termw s.
Definition Q (s s' : buf) : Prop := R s s' /\ G s' /\ termw s' = termw s.
Lemma Q0_Q s s' : Q0 s s' -> Q s s'.
Proof. intros (H1 & H2). split; [|exact H2]. intros sc _. apply H1. Qed.
Lemma Q0_pre s0 s s' ts : out s = out s0 ++ ts -> termw s = termw s0 -> (forall m, ~ In (TMoji m) ts) -> Q0 s s' -> Q0 s0 s'.
Proof.
  intros H1 H2 H3 (H4 & H5 & H6). split; [|split; [exact H5|congruence]]. intros sc. destruct (iemits_wordless s0 s ts H1 H3) as [vs Hv]. destruct (H4 (D vs sc)) as (v1 & O & Sh).
  exists (vs ++ v1). split; [eapply iemits_trans; eauto|]. now rewrite iD_app.
Qed.
Lemma Q0_same s0 s s' : out s = out s0 -> termw s = termw s0 -> Q0 s s' -> Q0 s0 s'.
Proof. intros H1 H2. apply (Q0_pre s0 s s' []); [now rewrite app_nil_r|exact H2|auto]. Qed.
Lemma Q_trans s s1 s2 : Q s s1 -> Q s1 s2 -> Q s s2.
Proof.
  intros (H1 & H2 & H3) (H4 & H5 & H6). split; [|split; [exact H5|congruence]]. intros sc Hs. destruct (H1 sc Hs) as (t1 & O1 & S1). destruct (H4 _ S1) as (t2 & O2 & S2).
  exists (t1 ++ t2). split; [eapply iemits_trans; eauto|]. now rewrite iD_app.
Qed.
Lemma Q_refl s : G s -> Q s s.
Proof. intros H. split; [|auto]. intros sc Hs. exists []. split; [now apply iemits_same|exact Hs]. Qed.
Lemma Q_bell s : G s -> Q s (emit s [TBell]).
Proof. intros H. split; [|split; [exact H|reflexivity]]. intros sc Hs. exists []. split; [exists [TBell]; split; reflexivity|exact Hs]. Qed.

Lemma repaintW_T s s' : repaintWithoutUpdateSuffix C s = Some s' -> Fit s -> cok (cells s) -> view s = 0 -> suffix s = None -> Q0 s s'.
Proof.
  intros H HF Hc Hv Hsu. pose proof (repaintW_paints C s s' H) as Hp. unfold repaintWithoutUpdateSuffix in H.
  destruct (getView2 C s) as [[e w]|] eqn:Hg; [|discriminate]. apply getView2_T in Hg as (-> & Hcu); auto.
  destruct (puts C (GotoHead s) (view (GotoHead s)) (zlen (line s))) as [s2|] eqn:Hp1; [|discriminate].
  rewrite HP in H. pose proof (paints_fields _ _ (puts_paints C _ _ _ _ Hp1)) as (F1 & F2 & F3 & F4 & F5 & F6 & F7 & _).
  apply puts_T in Hp1 as (Em1 & _ & _ & Hc1); [|apply HF|apply HF|apply HF]. change (line (GotoHead s)) with (line s) in Em1. change (view (GotoHead s)) with (view s) in Em1. rewrite Hv in Em1.
  assert (L3 : line (GotoHead (eraseline s2)) = line s) by exact F1.
  pose proof (paints_fields _ _ Hp) as (P1 & P2 & P3 & P4 & P5 & P6 & P7 & _).
  apply puts_T in H as (Em2 & _ & _ & Hc2); [|rewrite L3; apply HF|rewrite L3; apply HF|rewrite L3; apply HF]. rewrite L3 in Em2. cbn [view cursor GotoHead eraseline emit] in Em2. rewrite F4, F5 in Em2. cbn [view cursor GotoHead emit] in Em2. rewrite Hv in Em2.
  rewrite <- (zlen_inl (line s)) in Em1. rewrite ipart_all in Em1. rewrite ipart0 in Em2. set (L := inl (line s)) in *.
  set (a := firstn (Z.to_nat (cursor s)) L) in *. assert (Hab : L = a ++ skipn (Z.to_nat (cursor s)) L) by (symmetry; apply firstn_skipn).
  assert (Em : iemits s s' (([OGoto (topc s + 1)] ++ om L ++ [OErase]) ++ [OGoto (topc s + 1)] ++ om a)).
  { rewrite <- !app_assoc. eapply (iemits_trans s (GotoHead s)); [exists [TGoto (topc s + 1)]; split; reflexivity|]. eapply iemits_trans; [exact Em1|].
    change ([OErase] ++ [OGoto (topc s + 1)] ++ om a) with ([OErase; OGoto (topc s + 1)] ++ om a).
    eapply iemits_trans; [|exact Em2]. exists [TErase; TGoto (topc s2 + 1)]. split; [cbn; now rewrite <- app_assoc|]. intros k. cbn. rewrite F7. reflexivity. }
  assert (PL : line s' = line s) by exact P1.
  split; [|split; [|exact P6]].
  - intros sc. eexists. split; [exact Em|].
    destruct (iscreen_repaint E other (topc s) a (skipn (Z.to_nat (cursor s)) L) sc (iok_any _)) as (S1 & S2).
    rewrite <- Hab in S1, S2. split.
    + rewrite P7, PL. exact S1.
    + rewrite P7, P5, PL, S2. unfold a, L. now rewrite IW_inl.
  - split; [apply (Fit_same s); auto|]. split; [apply Hc2; exact (Hc1 Hc)|]. rewrite P4, P5, P3, PL. auto.
Qed.
Lemma repaint_T s s' : repaint C s = Some s' -> Fit s -> cok (cells s) -> view s = 0 -> suffix s = None -> Q0 s s'.
Proof. unfold repaint, updateSuffix. rewrite HP. apply repaintW_T. Qed.
Lemma pre_fit s s' : repaint C s = Some s' -> topc s = pw -> Room s' -> Fit s.
Proof. intros H Ht HF. apply repaint_line in H as (H1 & H2 & H3). apply (Fit_same s'); auto. apply Room_Fit; [exact HF|congruence]. Qed.
(** With a new view, when the width of the line decides. *)
Lemma reset_T s s' : repaint C (ResetViewStart C s) = Some s' -> topc s = pw -> Room s' -> cok (cells s) -> suffix s = None -> Q0 s s'.
Proof.
  intros H Ht HF Hc Hs. assert (F1 : Fit s) by (apply (pre_fit (ResetViewStart C s) s' H Ht) in HF; exact HF).
  rewrite (Reset_T s F1 Hc) in H. apply (Q0_same s (set_view s 0)); [reflexivity|reflexivity|]. now apply repaint_T.
Qed.
(** With the old view. *)
Lemma plain_T s s' : repaint C s = Some s' -> topc s = pw -> Room s' -> cok (cells s) -> view s = 0 -> suffix s = None -> Q0 s s'.
Proof. intros H Ht HF Hc Hv Hs. apply repaint_T; auto. now apply (pre_fit s s'). Qed.

(** ** The commands *)
Lemma BeginningOfLine_T s s' : G s -> cmdBeginningOfLine C s = Some s' -> Room s' -> Q0 s s'.
Proof.
  intros (HF & Hc & Hv & Hcu & Hs) H HF'. unfold cmdBeginningOfLine in H. apply (Q0_same s (set_view (set_cursor s 0) 0)); [reflexivity|reflexivity|].
  apply plain_T; auto. apply HF.
Qed.
Lemma BackwardChar_T s s' : G s -> cmdBackwardChar C s = Some s' -> Room s' -> Q s s'.
Proof.
  intros HG H HF'. pose proof HG as (HF & Hc & Hv & Hcu & Hs). unfold cmdBackwardChar in H. destruct (cursor s <=? 0) eqn:H0; [injection H as <-; now apply Q_refl|]. apply Q0_Q.
  cbn [cursor view set_cursor] in H. replace (cursor s - 1 <? view s) with false in H by lia.
  apply (Q0_same s (set_cursor s (cursor s - 1))); [reflexivity|reflexivity|]. apply plain_T; auto. apply HF.
Qed.
Lemma BackwardDelete_T s s' : G s -> cmdBackwardDeleteChar C s = Some s' -> Room s' -> Q s s'.
Proof.
  intros HG H HF'. pose proof HG as (HF & Hc & Hv & Hcu & Hs). unfold cmdBackwardDeleteChar in H.
  destruct (0 <? cursor s) eqn:H0; [|injection H as <-; now apply Q_refl]. apply Q0_Q. opt H.
  pose proof (Delete_cok _ _ _ _ _ Ev Hc) as Hc1. apply Delete_shape in Ev as (l & us & -> & _). cbn [cursor view set_cursor set_undoes set_cells] in *.
  replace (cursor s - 1 <? view s) with false in H by lia. eapply Q0_same; [| |apply (plain_T _ _ H); auto]; [reflexivity|reflexivity|]. apply HF.
Qed.
Lemma DeleteChar_T s s' : G s -> cmdDeleteChar C s = Some s' -> Room s' -> Q0 s s'.
Proof.
  intros HG H HF'. pose proof HG as (HF & Hc & Hv & Hcu & Hs). unfold cmdDeleteChar in H. opt H.
  pose proof (Delete_cok _ _ _ _ _ Ev Hc) as Hc1. apply Delete_shape in Ev as (l & us & -> & _).
  eapply Q0_same; [| |apply (plain_T _ _ H); auto]; [reflexivity|reflexivity|]. apply HF.
Qed.
Lemma self_tail_T s k s' : G s -> self_insert_tail C s k = Some s' -> Room s' -> Q0 s s'.
Proof.
  intros HG H HF'. pose proof HG as (HF & Hc & Hv & Hcu & Hs). unfold self_insert_tail in H. opt H.
  pose proof (repaint_line _ _ H) as (RL & _). pose proof (insert_shape C s _ _ _ _ Ev) as (l0 & us & Hb & _). subst b. set (s2 := set_cursor _ _) in *.
  assert (HL : line s' = line (set_undoes (set_cells s l0) us)) by (rewrite RL; destruct (_ <=? _); reflexivity).
  pose proof (units_le _ _ _ _ _ Ev ltac:(rewrite <- HL; apply HF') Hc) as [Hc1 _].
  apply (Q0_same s s2); [reflexivity|reflexivity|].
  destruct (ViewWidth s2 <=? z + range_width C l).
  - apply reset_T; auto. apply HF.
  - apply plain_T; auto. apply HF.
Qed.
Lemma Fit_sub s s1 p d q : Fit s -> line s = p ++ d ++ q -> line s1 = p ++ q -> termw s1 = termw s -> topc s1 = topc s -> Fit s1.
Proof.
  intros (H1 & H2 & H3 & H4 & H5) HL HL1 Ht Hp. unfold Fit. rewrite HL1, Ht, Hp. rewrite HL in *. apply Forall_app in H1 as [U1 U2]. apply Forall_app in U2 as [_ U2].
  rewrite !W_app in *. pose proof (W_pos d). split; [apply Forall_app; auto|]. split; [exact H2|]. split; [lia|]. split; [lia|].
  eapply nh_incl; [|exact H5]. intros m Hm. rewrite !in_app_iff in *. tauto.
Qed.
Lemma selfInsert_T k s s' : G s -> selfInsert C k s = Some s' -> Room s' -> Q s s'.
Proof.
  intros HG H HF'. unfold selfInsert in H. destruct (AreZeroWidthJoin E (altgr k) && (0 <? cursor s)).
  { opt H. exact (BackwardDelete_T (set_pending s _) s' HG H HF'). }
  destruct ((AreVariationSelectorLike E (altgr k) || AreEmojiModifier E (altgr k)) && (0 <? cursor s)).
  { opt H. assert (Hd : exists p d q, line s = p ++ d ++ q /\ line b = p ++ q).
    { apply cmdBackwardDeleteChar_ref in Ev0. apply aBackwardDelete_mid in Ev0. exact Ev0. }
    assert (Htw : termw b = termw s /\ topc b = topc s).
    { unfold cmdBackwardDeleteChar in Ev0. destruct (0 <? cursor s); [|injection Ev0 as <-; auto]. opt Ev0.
      apply repaint_line in Ev0 as (_ & -> & ->). apply Delete_shape in Ev1 as (? & ? & -> & _). destruct (_ <? _); auto. }
    destruct Hd as (p & d & q & H1 & H2).
    assert (QB : Q s b) by (apply BackwardDelete_T; auto; apply Fit_Room; eapply Fit_sub; [apply HG|exact H1|exact H2|apply Htw|apply Htw]).
    eapply Q_trans; [exact QB|]. apply Q0_Q. eapply self_tail_T; [apply QB|exact H|auto]. }
  destruct (pending s).
  - apply Q0_Q. eapply self_tail_T; eauto.
  - apply Q0_Q. exact (self_tail_T (set_pending s []) _ s' HG H HF').
Qed.
Lemma Replace_T s pos t s' : topc s = pw -> cok (cells s) -> suffix s = None -> ReplaceAndRepaint C s pos t = Some s' -> Room s' -> Q0 s s'.
Proof.
  intros Ht Hc Hs H HF'. unfold ReplaceAndRepaint in H. opt H. pose proof (Delete_cok _ _ _ _ _ Ev Hc) as Hc1. apply Delete_shape in Ev as (l & us & -> & _).
  unfold InsertString in Ev0. opt Ev0. injection Ev0 as <- <-. pose proof (insert_shape C _ _ _ _ _ Ev) as (l1 & us1 & Hb & _). subst b.
  destruct (joinUndo_shape (set_cursor (set_undoes (set_cells (set_undoes (set_cells s l) us) l1) us1) (pos + zlen l0))) as [us2 Hj]. rewrite Hj in H.
  pose proof (repaint_line _ _ H) as (RL & _).
  pose proof (units_le _ _ _ _ _ Ev) as HU. change (line (set_undoes (set_cells (set_undoes (set_cells s l) us) l1) us1)) with (line (ResetViewStart C (set_undoes (set_cursor (set_undoes (set_cells (set_undoes (set_cells s l) us) l1) us1) (pos + zlen l0)) us2))) in HU.
  rewrite <- RL in HU. specialize (HU ltac:(apply HF') Hc1).
  eapply Q0_same; [| |apply (reset_T _ _ H); auto]; [reflexivity|reflexivity|]. apply HU.
Qed.
Lemma WordRubout_T s s' : G s -> cmdUnixWordRubout C s = Some s' -> Room s' -> Q0 s s'.
Proof.
  intros HG H HF'. pose proof HG as (HF & Hc & Hv & Hcu & Hs). unfold cmdUnixWordRubout in H. opt H.
  match goal with H : context [clip_write ?x ?y] |- _ => destruct (clip_write_shape x y) as [cl Hcl]; rewrite Hcl in * end.
  pose proof (Delete_cok _ _ _ _ _ Ev2 Hc) as Hc1. apply Delete_shape in Ev2 as (l2 & us & -> & _).
  cbn [view cursor set_cursor set_undoes set_cells set_clip] in H. destruct (z - view s <? 2).
  - eapply Q0_same; [| |apply (reset_T _ _ H); auto]; [reflexivity|reflexivity|]. apply HF.
  - eapply Q0_same; [| |apply (plain_T _ _ H); auto]; [reflexivity|reflexivity|]. apply HF.
Qed.
Lemma LineDiscard_T s s' : G s -> cmdUnixLineDiscard C s = Some s' -> Room s' -> Q0 s s'.
Proof.
  intros HG H HF'. pose proof HG as (HF & Hc & Hv & Hcu & Hs). unfold cmdUnixLineDiscard in H. opt H.
  match goal with H : context [clip_write ?x ?y] |- _ => destruct (clip_write_shape x y) as [cl Hcl]; rewrite Hcl in * end.
  pose proof (Delete_cok _ _ _ _ _ Ev0 Hc) as Hc1. apply Delete_shape in Ev0 as (l2 & us & -> & _).
  eapply Q0_same; [| |apply (plain_T _ _ H); auto]; [reflexivity|reflexivity|]. apply HF.
Qed.
Lemma RepaintAll_T s ts s' : G s -> (forall m, ~ In (TMoji m) ts) -> RepaintAll C (emit s ts) = Some s' -> Room s' -> Q0 s s'.
Proof.
  intros HG Hts H HF'. pose proof HG as (HF & Hc & Hv & Hcu & Hs). unfold RepaintAll in H.
  pose proof HF as (_ & Ht & _). destruct (callPromptWriter E (prompt C)) as [t p] eqn:Hp. cbn [snd] in Ht. rewrite <- Ht in H.
  eapply (Q0_pre s _ s' (ts ++ [TFlush; TPrompt t])); [| | |apply (plain_T _ _ H); auto].
  - cbn. now rewrite app_assoc.
  - reflexivity.
  - intros m Hi. apply in_app_or in Hi as [Hi|[Hi|[Hi|[]]]]; [now apply (Hts m)|discriminate|discriminate].
  - rewrite Hp. exact Ht.
Qed.
Lemma BackwardWord_T s s' : G s -> cmdBackwardWord C s = Some s' -> Room s' -> Q0 s s'.
Proof.
  intros HG H HF'. pose proof HG as (HF & Hc & Hv & Hcu & Hs). unfold cmdBackwardWord in H. opt H.
  match goal with H : context [set_cursor _ ?p] |- _ => set (np := p) in * end.
  destruct (np <? view s) eqn:Hn.
  - exfalso. rewrite Hv in Hn. unfold repaint, repaintWithoutUpdateSuffix, getView2, getView in H. unfold updateSuffix in H. rewrite HP in H. cbn [cells view set_cursor set_view] in H.
    destruct (slice (cells s) np (zlen (cells s))) as [v|] eqn:Hsl; [|discriminate]. apply slice_some in Hsl as (Hx & _). lia.
  - eapply Q0_same; [| |apply (plain_T _ _ H); auto]; [reflexivity|reflexivity|]. apply HF.
Qed.
Lemma Undo_T s s' : G s -> cmdUndo C s = Some s' -> Room s' -> Q s s'.
Proof.
  intros HG H HF'. pose proof HG as (HF & Hc & Hv & Hcu & Hs). unfold cmdUndo in H.
  destruct (undoes s) as [|u rest]; [injection H as <-; now apply Q_bell|]. apply Q0_Q. opt H.
  assert (Hl1 : cok l).
  { destruct (0 <? u_del u) eqn:Hd; [|injection Ev as <-; exact Hc]. eapply Forall_sliceDelete; [|exact Ev|exact Hc]. lia. }
  pose proof (repaint_line _ _ H) as (RL & _).
  assert (Hb : exists l2 c2, b = set_cursor (set_cells (GotoHead (set_undoes s rest)) l2) c2 /\ cok l2).
  { destruct (u_text u) as [|x t] eqn:Hut; [injection Ev0 as <-; eauto|]. opt Ev0. injection Ev0 as <-. eexists _, _. split; [reflexivity|].
    set (s0 := set_cells (GotoHead (set_undoes s rest)) l) in *. set (cs := mojis2cells (StringToMoji E (x :: t))) in *.
    assert (Hins : insertString C s0 (u_pos u) (x :: t) = Some (push_undo (set_cells s0 l0) (mkUndo (u_pos u) (zlen cs) []), cs)) by (unfold insertString, insert; fold cs; rewrite Ev1; reflexivity).
    apply units_le in Hins as [Hi _]; [exact Hi| |exact Hl1]. change (W (line (push_undo (set_cells s0 l0) (mkUndo (u_pos u) (zlen cs) []))) <= 32767).
    change (line (push_undo (set_cells s0 l0) (mkUndo (u_pos u) (zlen cs) []))) with (line (ResetViewStart C (set_cursor (set_cells s0 l0) (u_pos u + zlen cs)))). rewrite <- RL. apply HF'. }
  destruct Hb as (l2 & c2 & -> & Hc2).
  eapply (Q0_pre s _ s' [TGoto (topc s + 1)]); [| | |apply (reset_T _ _ H); auto]; [reflexivity|reflexivity| |apply HF]. intros m [Hi|[]]. discriminate.
Qed.
Lemma Yank_T s t s' : G s -> InsertAndRepaint C s t = Some s' -> Room s' -> Q s s'.
Proof.
  intros (HF & Hc & Hv & Hcu & Hs) H HF'. apply Q0_Q. eapply Replace_T; [apply HF|exact Hc|exact Hs|exact H|exact HF'].
Qed.

(** ** The commands that paint less *)
Lemma advance_T s p s1 : G s -> puts C s (cursor s) p = Some s1 -> Q s (set_cursor s1 p).
Proof.
  intros HG H. pose proof HG as (HF & Hc & Hv & Hcu & Hs).
  pose proof (paints_fields _ _ (puts_paints C _ _ _ _ H)) as (F1 & F2 & F3 & F4 & F5 & F6 & F7 & _).
  apply puts_T in H as (Em & Hb1 & Hb2 & Hc1); [|apply HF|apply HF|apply HF]. assert (FL : line s1 = line s) by exact F1.
  split; [|split; [|exact F6]].
  2:{ split; [apply (Fit_same s); auto|]. split; [now apply Hc1|]. change (line (set_cursor s1 p)) with (line s1). cbn [view cursor suffix set_cursor]. rewrite FL, F4, F3. repeat split; auto; lia. }
  intros sc [Hrow Hcol]. exists (om (ipart (inl (line s)) (cursor s) p)). split; [exact Em|].
  set (L := inl (line s)) in *.
  assert (Hsp : firstn (Z.to_nat p) L = firstn (Z.to_nat (cursor s)) L ++ ipart L (cursor s) p) by (rewrite <- !ipart0; apply ipart_split; lia).
  assert (Hall : L = firstn (Z.to_nat (cursor s)) L ++ ipart L (cursor s) p ++ skipn (Z.to_nat p) L) by (rewrite app_assoc, <- Hsp; symmetry; apply firstn_skipn).
  assert (Hcol' : icol sc = topc s + IW (firstn (Z.to_nat (cursor s)) L)) by (rewrite Hcol; unfold L; now rewrite IW_inl).
  split.
  - change (line (set_cursor s1 p)) with (line s1). cbn [topc set_cursor]. rewrite F7, FL. fold L. pose proof (ifull_over E other (topc s) (ipart L (cursor s) p) (firstn (Z.to_nat (cursor s)) L) (skipn (Z.to_nat p) L) sc) as X.
    rewrite <- Hall in X. exact (X (iok_any _) Hrow Hcol').
  - change (line (set_cursor s1 p)) with (line s1). cbn [topc cursor set_cursor]. rewrite F7, FL. rewrite <- IW_inl. fold L. rewrite icol_tm, Hcol', Hsp, iW_app. lia.
Qed.
Lemma width_between s a b w : G s -> GetWidthBetween C s a b = Some w -> (w <? ViewWidth s) = true.
Proof. intros HG. apply (TabScreen.width_between C HE). now apply G_old. Qed.
(** Erasing to the right of the end of the line. *)
Lemma erase_T s : G s -> cursor s = zlen (line s) -> Q s (eraseline s).
Proof.
  intros HG Hz. split; [|split; [exact HG|reflexivity]]. intros sc [Hrow Hcol]. exists [OErase]. split; [exists [TErase]; split; reflexivity|].
  rewrite <- IW_inl in Hcol. set (L := inl (line s)) in *. assert (Hf : firstn (Z.to_nat (cursor s)) L = L) by (rewrite Hz, <- (zlen_inl (line s)); fold L; rewrite to_nat_zlen; apply firstn_all).
  rewrite Hf in Hcol.
  assert (U : iupto E (topc s) L sc) by (split; [exact Hcol|]; intros x Hx; apply Hrow; lia).
  destruct (iupto_erase E other _ _ _ (iok_any _) U) as [H1 H2]. split.
  - exact H1.
  - change (line (eraseline s)) with (line s). change (cursor (eraseline s)) with (cursor s). rewrite <- IW_inl. fold L. rewrite Hf. exact H2.
Qed.
Lemma EndOfLine_T s s' : G s -> cmdEndOfLine C s = Some s' -> Q s s'.
Proof.
  intros HG H. unfold cmdEndOfLine in H. destruct (GetWidthBetween C s (view s) (zlen (cells s))) as [w|] eqn:Hw; [|discriminate].
  rewrite (width_between _ _ _ _ HG Hw) in H. opt H. injection H as <-. opt Ev. injection Ev as <-.
  pose proof (advance_T s _ _ HG Ev0) as HQ. eapply Q_trans; [exact HQ|]. apply erase_T; [apply HQ|].
  apply puts_paints, paints_fields in Ev0 as (F1 & F2 & _). change (line (set_cursor b0 (zlen (cells s)))) with (line b0). cbn [cursor set_cursor].
  assert (FL : line b0 = line s) by exact F1. rewrite FL. symmetry. apply zlen_map.
Qed.
Lemma ForwardChar_T s s' : G s -> cmdForwardChar C s = Some s' -> Q s s'.
Proof.
  intros HG H. pose proof HG as (HF & Hc & Hv & Hcu & Hs). unfold cmdForwardChar in H. rewrite Hs in H. destruct (zlen (cells s) <=? cursor s); [injection H as <-; now apply Q_refl|].
  destruct (GetWidthBetween C s (view s) (cursor s + 1)) as [w|] eqn:Hw; [|discriminate]. rewrite (width_between _ _ _ _ HG Hw) in H. opt H. injection H as <-.
  pose proof (paints_fields _ _ (puts_paints C _ _ _ _ Ev)) as (_ & _ & _ & _ & -> & _). now apply advance_T.
Qed.
Lemma ForwardWord_T s s' : G s -> cmdForwardWord C s = Some s' -> Q s s'.
Proof.
  intros HG H. unfold cmdForwardWord in H. opt H. rewrite (width_between _ _ _ _ HG Ev0) in H. opt H. injection H as <-. now apply advance_T.
Qed.
Lemma KillLine_T s s' : G s -> cmdKillLine s = Some s' -> Q s s'.
Proof.
  intros HG H. pose proof HG as (HF & Hc & Hv & Hcu & Hs). unfold cmdKillLine in H. opt H. injection H as <-.
  match goal with H : context [clip_write ?x ?y] |- _ => destruct (clip_write_shape x y) as [cl Hcl]; rewrite Hcl in * end.
  cbn [cells cursor eraseline emit push_undo set_undoes set_clip] in Ev0.
  set (s' := set_cells (push_undo (eraseline (set_clip s cl)) _) l) in *.
  assert (Hx : line s' = firstn (Z.to_nat (cursor s)) (line s)).
  { assert (Hx : slice (line s) 0 (cursor s) = Some (line s')) by (change (line s) with (emojis (cells s)); rewrite slice_emojis, Ev0; reflexivity).
    apply part_of_slice in Hx as (Hx & _). rewrite Hx. apply TabScreen.part0. }
  set (L := inl (line s)). assert (HL : inl (line s') = firstn (Z.to_nat (cursor s)) L) by (rewrite Hx; symmetry; apply inl_firstn).
  assert (Hz : zlen (line s') = cursor s) by (rewrite Hx, zlen_firstn; lia).
  assert (Hfull : firstn (Z.to_nat (cursor s)) (inl (line s')) = inl (line s')) by (apply firstn_all2; pose proof (zlen_inl (line s')); unfold zlen in *; lia).
  split; [|split; [|reflexivity]].
  - intros sc [Hrow Hcol]. rewrite <- IW_inl in Hcol. fold L in Hrow, Hcol. exists [OErase]. split; [exists [TErase]; split; reflexivity|].
    assert (U : iupto E (topc s) (inl (line s')) sc).
    { rewrite HL. rewrite <- (firstn_skipn (Z.to_nat (cursor s)) L) in Hrow. eapply ifull_upto; [apply iok_any|apply iok_any|exact Hrow|exact Hcol]. }
    destruct (iupto_erase E other _ _ _ (iok_any _) U) as [H1 H2]. split.
    + exact H1.
    + change (cursor s') with (cursor s). rewrite <- IW_inl, Hfull. exact H2.
  - split; [|split; [|split; [exact Hv|split; [change (cursor s') with (cursor s); lia|exact Hs]]]].
    + apply (Fit_sub s s' (line s') (skipn (Z.to_nat (cursor s)) (line s)) []); auto; rewrite app_nil_r; [|reflexivity]. rewrite Hx. symmetry. apply firstn_skipn.
    + apply slice_split in Ev0 as (p & q & Hp & _). unfold cok in *. rewrite Hp in Hc. apply Forall_app in Hc as [_ Hc]. now apply Forall_app in Hc.
Qed.
Lemma nh_nil : nh []. Proof. split; constructor. Qed.
Lemma Fit_nil s s1 : Fit s -> line s1 = [] -> termw s1 = termw s -> topc s1 = topc s -> Fit s1.
Proof. intros (H1 & H2 & H3 & H4 & H5) Hl Ht Hp. unfold Fit. rewrite Hl, Ht, Hp. pose proof (W_pos (line s)). rewrite W_nil. split; [constructor|]. split; [exact H2|]. split; [lia|]. split; [lia|exact nh_nil]. Qed.
Lemma KillWhole_T s s' : G s -> cmdKillWholeLine s = Some s' -> Q0 s s'.
Proof.
  intros HG H. pose proof HG as (HF & Hc & Hv & Hcu & Hs). unfold cmdKillWholeLine in H. injection H as <-.
  split; [|split; [|reflexivity]].
  - intros sc. exists ([OGoto (topc s + 1)] ++ om [] ++ [OErase]). split; [exists [TGoto (topc s + 1); TErase]; split; [cbn; now rewrite <- app_assoc|reflexivity]|].
    destruct (iscreen_row E other (topc s) [] sc (Forall_nil _)) as (H1 & H2).
    split; [exact H1|exact H2].
  - split; [now apply (Fit_nil s)|]. split; [constructor|]. cbn. repeat split; auto; unfold zlen; cbn; lia.
Qed.
Lemma show_T s s' : G s -> show_history C s = Some s' -> Room s' -> Q s s'.
Proof.
  intros HG H HF'. unfold show_history in H. destruct (cmdKillWholeLine s) as [s1|] eqn:Hk; [|discriminate].
  pose proof (KillWhole_T s s1 HG Hk) as HQ. opt H. destruct s0 as [|x t]; [injection H as <-; now apply Q0_Q|].
  assert (Hk2 : line s1 = [] /\ view s1 = 0 /\ cursor s1 = 0) by (unfold cmdKillWholeLine in Hk; injection Hk as <-; cbn; auto). destruct Hk2 as (L1 & V1 & C1).
  opt H. unfold InsertString in Ev0. opt Ev0. injection Ev0 as <- <-. pose proof (insert_shape C _ _ _ _ _ Ev1) as (l0 & us & Hb & _). subst b0.
  set (s2 := set_cursor (set_view (set_undoes (set_cells s1 l0) us) 0) 0) in *.
  assert (HL : line s' = line s2).
  { apply cmdEndOfLine_ref in H. apply (f_equal aline) in H. exact H. }
  assert (HTw : termw s' = termw s2 /\ topc s' = topc s2).
  { unfold cmdEndOfLine in H. opt H. injection H as <-. cbn [termw topc eraseline emit]. destruct (_ <? _).
    - opt Ev2. injection Ev2 as <-. apply puts_paints, paints_fields in Ev3 as (_&_&_&_&_&X1&X2&_). auto.
    - opt Ev2. injection Ev2 as <-. apply puts_paints, paints_fields in Ev4 as (_&_&_&_&_&X1&X2&_). auto. }
  destruct HQ as (HR & (HF1 & Hc1 & Hv1 & Hcu1 & Hs1) & HT1).
  pose proof (units_le _ _ _ _ _ Ev1) as HU. change (line (set_undoes (set_cells s1 l0) us)) with (line s2) in HU. rewrite <- HL in HU. destruct (HU ltac:(apply HF') Hc1) as [Hc2 _].
  assert (HG2 : G s2).
  { split; [apply Room_Fit; [unfold Room in *; rewrite <- HL, <- (proj1 HTw); exact HF'|apply HF1]|]. split; [exact Hc2|]. split; [reflexivity|]. split; [split; [apply Z.le_refl|apply zlen_nonneg]|exact Hs1]. }
  split; [|split; [exact (proj1 (proj2 (EndOfLine_T _ _ HG2 H)))|rewrite (proj1 HTw); exact HT1]].
  (* the row is empty, and then the entry is written from its start *)
  pose proof H as Hw. unfold cmdEndOfLine in Hw. destruct (GetWidthBetween C s2 (view s2) (zlen (cells s2))) as [w|] eqn:Hgw; [|discriminate]. rewrite (width_between _ _ _ _ HG2 Hgw) in Hw.
  opt Hw. injection Hw as <-. opt Ev0. injection Ev0 as <-.
  pose proof (paints_fields _ _ (puts_paints C _ _ _ _ Ev2)) as (F1 & F2 & F3 & F4 & F5 & F6 & F7 & _). assert (FL : line b0 = line s2) by exact F1.
  apply puts_T in Ev2 as (Em & _); [|apply HG2|apply HG2|apply HG2].
  assert (Hz : zlen (cells s2) = zlen (inl (line s2))) by (rewrite zlen_inl; symmetry; apply zlen_map).
  change (cursor s2) with 0 in Em. rewrite Hz, ipart_all in Em. set (L := inl (line s2)) in *.
  intros sc Hsc. destruct (HR sc) as (vs & O & [Hrow Hcol]). rewrite L1, C1 in *. cbn [Z.to_nat firstn SpecTabScreen.laid] in Hcol. rewrite W_nil, Z.add_0_r in Hcol.
  exists (vs ++ om L ++ [OErase]).
  change (topc s2) with (topc s1) in *.
  split; [eapply iemits_trans; [exact O|]; eapply (iemits_trans s1 b0); [exact Em|exists [TErase]; split; reflexivity]|].
  rewrite !iD_app.
  assert (U : iupto E (topc s1) L (D (om L) (D vs sc))).
  { apply (iupto_tm E other (topc s1) L [] _ (Forall_nil _) (iok_any _)). apply iupto_nil. exact Hcol. }
  destruct (iupto_erase E other _ _ _ (iok_any _) U) as [H1 H2]. split.
  - rewrite HL, (proj2 HTw). exact H1.
  - rewrite HL, (proj2 HTw). rewrite <- IW_inl. fold L. cbn [cursor eraseline emit set_cursor].
    change (icol (ierase E other (D (om L) (D vs sc))) = topc s1 + IW (firstn (Z.to_nat (zlen (cells s2))) L)). rewrite Hz, to_nat_zlen, firstn_all. exact H2.
Qed.
Lemma history_T s s0 h s' : G s -> (s0 = s \/ s0 = set_hptr s h) ->
  (let* s1 := saveModifiedHistory C s0 in show_history C (set_hptr s1 (hptr s1 + 1))) = Some s' \/
  (let* s1 := saveModifiedHistory C s0 in show_history C (set_hptr s1 (hptr s1 - 1))) = Some s' -> Room s' -> Q s s'.
Proof.
  intros HG H0 H HF'. destruct (saveModifiedHistory C s0) as [s1|] eqn:Hsv; [|destruct H; discriminate].
  assert (Hs1 : exists m, s1 = set_modh s0 m).
  { unfold saveModifiedHistory in Hsv. assert (Hr : s0 = set_modh s0 (modh s0)) by (now destruct s0). destruct (hptr s0 <? zlen (hist C)).
    - opt Hsv. destruct (str_eqb s2 (buf_string s0)); injection Hsv as <-; eauto.
    - injection Hsv as <-. eauto. }
  destruct Hs1 as [md ->]. destruct H0 as [-> | ->]; destruct H as [H|H]; (apply show_T in H; [exact H|exact HG|exact HF']).
Qed.
Lemma PreviousHistory_T s s' : G s -> cmdPreviousHistory C s = Some s' -> Room s' -> Q s s'.
Proof.
  intros HG H HF'. unfold cmdPreviousHistory in H. destruct (zlen (hist C) <=? 0); [injection H as <-; now apply Q_refl|].
  destruct (hptr s <=? 0); [destruct (negb (cycling C)); [injection H as <-; now apply Q_refl|]|].
  - eapply history_T; [exact HG|right; reflexivity|right; exact H|exact HF'].
  - eapply (history_T s s 0); [exact HG|left; reflexivity|right; exact H|exact HF'].
Qed.
Lemma NextHistory_T s s' : G s -> cmdNextHistory C s = Some s' -> Room s' -> Q s s'.
Proof.
  intros HG H HF'. unfold cmdNextHistory in H. destruct (zlen (hist C) <=? 0); [injection H as <-; now apply Q_refl|].
  destruct (zlen (hist C) <? hptr s + 1); [injection H as <-; now apply Q_refl|].
  eapply (history_T s s 0); [exact HG|left; reflexivity|left; exact H|exact HF'].
Qed.

(** SWAPCHAR, when the two units are no tabs. *)
Lemma binked_tail p a b l : (l = [] \/ orderless K) -> Forall moji_valid (p ++ [a; b] ++ l) ->
  binked_from K (p ++ [b; a]) l = binked_from K (p ++ [a; b]) l.
Proof.
  intros [-> |HO] HV; [reflexivity|]. apply binked_from_order; [exact HO| |].
  - apply Permutation_app_head. constructor.
  - rewrite Forall_forall in *. intros x Hx. apply HV. rewrite !in_app_iff in *. cbn in *. tauto.
Qed.
Lemma valid_laid l : forall c, Forall moji_valid l -> Forall moji_valid (laid c l).
Proof. induction l as [|m l IH]; intros c H; [constructor|]. inversion_clear H as [|? ? Hm Hl]. destruct m; cbn [SpecTabScreen.laid]; constructor; auto. Qed.
Lemma swap_paint s s2 s' p a b q : G s -> line s = p ++ [a; b] ++ q -> line s2 = p ++ [b; a] ++ q -> tabfree a = true -> tabfree b = true -> q = [] \/ orderless K ->
  out s2 = out s ++ [TGoto (topc s + 1)] -> view s2 = 0 -> cursor s2 = zlen p + 2 -> topc s2 = topc s -> termw s2 = termw s -> suffix s2 = None -> cok (cells s2) ->
  puts C s2 (view s2) (cursor s2) = Some s' -> Q s s'.
Proof.
  intros HG Hl Hl2 Ta Tb HO Ho Hv2 Hc2 Ht2 Hw2 Hs2 Hk2 H. pose proof HG as (HF & Hc & Hv & Hcu & Hs).
  assert (HF2 : Fit s2).
  { destruct HF as (F1 & F2 & F3 & F4 & F5). unfold Fit. rewrite Hl2, Ht2, Hw2. rewrite Hl in *. rewrite !W_app, !W_cons, W_nil in *. split; [|split; [exact F2|split; [lia|split; [lia|]]]].
    - apply Forall_app in F1 as [U1 U2]. apply Forall_app in U2 as [_ U2]. apply Forall_app. split; [exact U1|]. apply Forall_app. split; [|exact U2]. constructor; [now left|]. constructor; [now left|constructor].
    - eapply nh_incl; [|exact F5]. intros m Hm. rewrite !in_app_iff in *. cbn in *. tauto. }
  pose proof (paints_fields _ _ (puts_paints C _ _ _ _ H)) as (P1 & P2 & P3 & P4 & P5 & P6 & P7 & _). assert (PL : line s' = line s2) by exact P1.
  apply puts_T in H as (Em & _ & Hb & Hk); [|apply HF2|apply HF2|apply HF2]. rewrite Hv2, Hc2, ipart0 in Em.
  set (pw0 := W (laid 0 p)). pose proof (W_pos (laid 0 p)) as Hpw. fold pw0 in Hpw. pose proof (width_any a). pose proof (width_any b).
  set (tl := laid (pw0 + width E a + width E b) q).
  assert (L1 : laid 0 (line s) = (laid 0 p ++ [a; b]) ++ tl).
  { rewrite Hl, laid_app by lia. rewrite Z.add_0_l. fold pw0. rewrite laid_app by lia. rewrite laid_two by auto. rewrite !W_cons, W_nil, <- app_assoc. unfold tl. do 3 f_equal. lia. }
  assert (L2 : laid 0 (line s2) = (laid 0 p ++ [b; a]) ++ tl).
  { rewrite Hl2, laid_app by lia. rewrite Z.add_0_l. fold pw0. rewrite laid_app by lia. rewrite laid_two by auto. rewrite !W_cons, W_nil, <- app_assoc. unfold tl. do 3 f_equal. lia. }
  assert (HVl : Forall moji_valid (laid 0 p ++ [a; b] ++ tl)) by (rewrite app_assoc, <- L1; apply valid_laid; apply HF).
  set (old := binked_from K [] (laid 0 p ++ [a; b])). set (new := binked_from K [] (laid 0 p ++ [b; a])). set (rest := binked_from K (laid 0 p ++ [a; b]) tl).
  assert (I1 : inl (line s) = old ++ rest) by (rewrite L1; unfold binked; rewrite binked_from_app; reflexivity).
  assert (I2 : inl (line s2) = new ++ rest).
  { rewrite L2. unfold binked. rewrite binked_from_app. cbn [app]. unfold new, rest. f_equal. apply binked_tail; [|exact HVl]. destruct HO as [-> |HO]; [now left|now right]. }
  assert (HLn : List.length new = Z.to_nat (zlen p + 2)).
  { unfold new. rewrite <- (map_length fst), binked_from_fst, app_length. pose proof (zlen_laid p 0). unfold zlen in *. cbn [List.length]. lia. }
  assert (Hf : firstn (Z.to_nat (zlen p + 2)) (inl (line s2)) = new).
  { rewrite I2, firstn_app, <- HLn, firstn_all, Nat.sub_diag. cbn [firstn]. apply app_nil_r. }
  rewrite Hf in Em.
  assert (HWn : IW new = IW old) by (unfold itotal, new, old; rewrite !binked_from_fst, !W_app, !W_cons, W_nil; lia).
  split; [|split; [|congruence]].
  - intros sc [Hrow Hcol].
    exists ([OGoto (topc s + 1)] ++ om new). split; [eapply (iemits_trans s s2); [exists [TGoto (topc s + 1)]; split; [exact Ho|reflexivity]|exact Em]|].
    rewrite iD_app. set (sc1 := D [OGoto (topc s + 1)] sc). assert (C1 : icol sc1 = topc s) by (unfold sc1; cbn; lia).
    rewrite I1 in Hrow. split.
    + rewrite P7, PL, Ht2, I2. apply (ifull_replace E other (topc s) old); [apply iok_any|apply iok_any|exact HWn|exact Hrow|exact C1].
    + rewrite P7, PL, Ht2, P5, Hc2, <- IW_inl, Hf, icol_tm, C1. reflexivity.
  - split; [apply (Fit_same s2); auto|]. split; [now apply Hk|]. rewrite P4, P5, P3, PL, Hv2, Hs2, Hc2. repeat split; auto; pose proof (zlen_nonneg p); lia.
Qed.
Lemma SwapChar_T s s' : G s -> Forall (fun m => tabfree m = true) (part (line s) (Z.max 0 (cursor s - 2)) (cursor s + 1)) -> zlen (line s) <= cursor s + 1 \/ orderless K -> cmdSwapChar C s = Some s' -> Q s s'.
Proof.
  intros HG Hu HO H. pose proof HG as (HF & Hc & Hv & Hcu & Hs). unfold cmdSwapChar in H. destruct (zlen (cells s) =? cursor s) eqn:Hend.
  - destruct (cursor s <? 2) eqn:Hc2; [injection H as <-; now apply Q_refl|]. opt H. cbn [cells push_undo set_undoes] in Ev0. pose proof (swap_cok _ _ _ _ Ev0 Hc) as Hk.
    apply swap_ref in Ev0. change (emojis (cells s)) with (line s) in Ev0. replace (cursor s - 1) with (cursor s - 2 + 1) in Ev0 by lia. apply aswap_shape in Ev0 as (p & a & b & q & Hl & Hl' & Hz).
    rewrite Hl in Hu. apply part_two in Hu as [Ta Tb]; [|lia|lia].
    assert (Hq : q = [] \/ orderless K).
    { left. assert (zlen (line s) = cursor s) by (rewrite zlen_line; lia). rewrite Hl, !zlen_app, !zlen_cons in H0. change (zlen (@nil moji)) with 0 in H0. destruct q; [reflexivity|]. rewrite zlen_cons in H0. pose proof (zlen_nonneg q). lia. }
    refine (swap_paint s _ s' p a b q HG Hl _ Ta Tb Hq _ _ _ _ _ _ _ H); [exact Hl'|..|exact Hk]; cbn [out view cursor topc termw suffix GotoHead emit set_cells push_undo set_undoes]; auto. lia.
  - destruct (cursor s <? 1) eqn:Hc2; [injection H as <-; now apply Q_refl|]. opt H. cbn [cells push_undo set_undoes] in Ev1. pose proof (swap_cok _ _ _ _ Ev1 Hc) as Hk.
    apply swap_ref in Ev1. change (emojis (cells s)) with (line s) in Ev1. replace (cursor s) with (cursor s - 1 + 1) in Ev1 at 2 by lia. apply aswap_shape in Ev1 as (p & a & b & q & Hl & Hl' & Hz).
    rewrite Hl in Hu. apply part_two in Hu as [Ta Tb]; [|lia|lia].
    assert (Hq : q = [] \/ orderless K).
    { destruct HO as [HO|HO]; [left|now right]. rewrite Hl, !zlen_app, !zlen_cons in HO. change (zlen (@nil moji)) with 0 in HO. destruct q; [reflexivity|]. rewrite zlen_cons in HO. pose proof (zlen_nonneg q). lia. }
    assert (Hw : (ViewWidth s <=? z) = false) by (pose proof (width_between (push_undo s (mkUndo (cursor s - 1) 2 s0)) _ _ _ HG Ev0) as Hx; change (ViewWidth (push_undo s (mkUndo (cursor s - 1) 2 s0))) with (ViewWidth s) in Hx; lia).
    cbv zeta in H. change (ViewWidth (GotoHead (set_cells (push_undo s (mkUndo (cursor s - 1) 2 s0)) l))) with (ViewWidth s) in H. rewrite Hw in H.
    refine (swap_paint s _ s' p a b q HG Hl _ Ta Tb Hq _ _ _ _ _ _ _ H); [exact Hl'|..|exact Hk]; cbn [out view cursor topc termw suffix GotoHead emit set_cells push_undo set_undoes set_cursor]; auto. lia.
Qed.

Lemma exec_T c s s' r : G s -> (forall f, c <> CUser f) -> c <> CInterrupt ->
  (c = CSwapChar -> Forall (fun m => tabfree m = true) (part (line s) (Z.max 0 (cursor s - 2)) (cursor s + 1)) /\ (zlen (line s) <= cursor s + 1 \/ orderless K)) ->
  exec C c s = Some (s', r) -> Room s' -> Q s s'.
Proof.
  intros HG HU HI HS H HF. destruct c; cbn [exec] in H; try (exfalso; now apply HI); try (exfalso; now apply (HU f));
    try (unfold continue_ in H; match type of H with (match ?o with Some _ => _ | None => _ end) = _ => destruct o as [s1|] eqn:Ho; [|discriminate] end; injection H as <- <-).
  - injection H as <- <-. now apply Q_refl.
  - apply Q0_Q. eapply BeginningOfLine_T; eauto.
  - eapply BackwardChar_T; eauto.
  - eapply EndOfLine_T; eauto.
  - eapply ForwardChar_T; eauto.
  - eapply BackwardDelete_T; eauto.
  - apply Q0_Q. eapply DeleteChar_T; eauto.
  - unfold cmdDeleteOrAbort in H. destruct (0 <? zlen (cells s)).
    + opt H. injection H as <- <-. apply Q0_Q. eapply DeleteChar_T; eauto.
    + injection H as <- <-. now apply Q_refl.
  - eapply KillLine_T; eauto.
  - apply Q0_Q. eapply KillWhole_T; eauto.
  - apply Q0_Q. eapply WordRubout_T; eauto.
  - apply Q0_Q. eapply LineDiscard_T; eauto.
  - apply Q0_Q. eapply RepaintAll_T; eauto. intros m [Hm|[]]. discriminate.
  - apply Q0_Q. eapply RepaintAll_T; eauto. intros m [Hm|[]]. discriminate.
  - injection H as <- <-. now apply Q_refl.
  - unfold cmdYank in Ho. destruct (clip s); [|injection Ho as <-; now apply Q_refl]. eapply Yank_T; eauto.
  - unfold cmdYankWithQuote in Ho. destruct (clip s); [|injection Ho as <-; now apply Q_refl]. eapply Yank_T; eauto.
  - destruct (HS eq_refl). eapply SwapChar_T; eauto.
  - apply Q0_Q. eapply BackwardWord_T; eauto.
  - eapply ForwardWord_T; eauto.
  - eapply Undo_T; eauto.
  - eapply PreviousHistory_T; eauto.
  - eapply NextHistory_T; eauto.
  - injection H as <- <-. now apply Q_refl.
  - eapply selfInsert_T; eauto.
Qed.
End Screen.
