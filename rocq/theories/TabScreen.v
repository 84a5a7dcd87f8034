(** Every command keeps the screen right when the line, tabs and all, fits the row. *)
From Verif Require Import Base Utf8 Moji Color Prompt Buffer Commands KeyMap Session MojiFacts Abs AbsRef AbsSess
  AbsSafe AbsInv Safe Spec SpecScreen SpecTabScreen ScreenFacts ScreenPaint ScreenCmd.
Ltac lia := unfold rune in *; Lia.lia.

Section Screen.
Variable C : cfg.
Notation E := (cE C).
Hypothesis HE : env_ok E.
Hypothesis HP : pcolor0 C = [].
Variable other : terminal.
Notation D := (display E other).
Notation W := (total_width E).
Notation ok := (Forall (fun m => 0 <= width E m)).
Notation inside := (inside E other).
Notation pw := (snd (callPromptWriter E (prompt C))).
Notation laid := (laid E).

(** ** Widths *)
Definition ut (m : moji) : Prop := tabfree m = true \/ m = MTab 0.
Lemma rem4 p : -3 <= Z.rem p 4 <= 3.
Proof.
  destruct (Z_le_dec 0 p); [pose proof (Z.rem_bound_pos p 4); lia|].
  pose proof (Z.rem_bound_pos (- p) 4). rewrite Z.rem_opp_l in H by lia. lia.
Qed.
Lemma width_any m : 0 <= width E m.
Proof.
  destruct HE as (H1 & H2 & H3). induction m; cbn [width]; try (specialize (H1 r)); try lia.
  - pose proof (rem4 pos). lia.
  - pose proof (lenEscaped_ge r). lia.
  - specialize (H2 _ _ IHm1 IHm2). lia.
  - destruct m1; lia.
Qed.
Lemma ok_any l : ok l.
Proof. induction l; constructor; auto using width_any. Qed.
Lemma W_pos l : 0 <= W l. Proof. apply W_nonneg, ok_any. Qed.
Lemma width_tab c : 0 <= c -> c + width E (MTab c) = 4 * (c / 4) + 4 /\ 1 <= width E (MTab c) <= 4.
Proof.
  intros H. cbn [width]. rewrite Z.rem_mod_nonneg by lia. pose proof (Z.div_mod c 4). pose proof (Z.mod_pos_bound c 4). lia.
Qed.
Lemma laid_step m l c : 0 <= c -> laid c (m :: l) =
  (match m with MTab _ => MTab c | m => m end) :: laid (c + width E (match m with MTab _ => MTab c | m => m end)) l.
Proof. intros H. destruct m; try reflexivity. cbn [SpecTabScreen.laid]. now rewrite (proj1 (width_tab c H)). Qed.
Lemma laid_app a : forall b c, 0 <= c -> laid c (a ++ b) = laid c a ++ laid (c + W (laid c a)) b.
Proof.
  induction a as [|m a IH]; intros b c Hc; [cbn [app SpecTabScreen.laid]; now rewrite W_nil, Z.add_0_r|]. cbn [app]. rewrite !laid_step by exact Hc.
  set (m' := match m with MTab _ => MTab c | m => m end). pose proof (width_any m'). rewrite IH by lia. cbn [app]. rewrite W_cons. now rewrite Z.add_assoc.
Qed.
Lemma laid_firstn n : forall l c, firstn n (laid c l) = laid c (firstn n l).
Proof. induction n as [|n IH]; intros l c; [reflexivity|]. destruct l as [|m l]; [reflexivity|]. destruct m; cbn [SpecTabScreen.laid firstn]; now rewrite IH. Qed.
Lemma zlen_laid l : forall c, zlen (laid c l) = zlen l.
Proof. induction l as [|m l IH]; intros c; [reflexivity|]. destruct m; cbn [SpecTabScreen.laid]; rewrite !zlen_cons, IH; reflexivity. Qed.
Lemma laid_W l : forall c, 0 <= c -> Forall ut l -> W (laid c l) <= W l.
Proof.
  induction l as [|m l IH]; intros c Hc H; [apply Z.le_refl|]. apply Forall_cons_iff in H as [Hm H]. rewrite laid_step by exact Hc. rewrite !W_cons.
  set (m' := match m with MTab _ => MTab c | m => m end). pose proof (width_any m') as Hw. specialize (IH (c + width E m') ltac:(lia) H).
  assert (width E m' <= width E m); [|lia]. unfold m' in *. destruct m; try lia. destruct Hm as [Hm|Hm]; [discriminate|]. injection Hm as ->.
  pose proof (width_tab c Hc). pose proof (width_tab 0 ltac:(lia)) as [T _]. change (4 * (0 / 4) + 4) with 4 in T. lia.
Qed.
Lemma laid_nt l : forall c, nt l -> laid c l = l.
Proof. induction l as [|m l IH]; intros c H; [reflexivity|]. apply Forall_cons_iff in H as [Hm H]. destruct m; cbn [SpecTabScreen.laid]; rewrite ?IH by exact H; try reflexivity. discriminate. Qed.
Lemma tabfree_has m : has_tab m = negb (tabfree m).
Proof. induction m; cbn; try reflexivity; rewrite IHm1, IHm2; now destruct (tabfree m1), (tabfree m2). Qed.
Lemma esum_line s : esum E (line s) = W (line s).
Proof. unfold esum. change (line s) with (emojis (cells s)). unfold emojis. rewrite map_map. unfold W, total_width, sumw. f_equal. apply map_ext. intros c. unfold emoji. apply erase_idem. Qed.
Lemma range_le l : cok l -> range_width C l <= W (emojis l).
Proof.
  intros H. apply (cok_erased C HE) in H. induction H as [|c l Hc _ IH]; [apply Z.le_refl|]. cbn [range_width]. rewrite emojis_cons, W_cons. unfold rune in *. lia.
Qed.
Lemma slice_width s a b d : cok (cells s) -> slice (cells s) a b = Some d -> range_width C d <= W (line s).
Proof.
  intros Hc H. pose proof (Forall_slice _ _ _ _ _ H Hc) as Hd. apply range_le in Hd. apply slice_split in H as (p & q & Hs & _).
  change (line s) with (emojis (cells s)). rewrite Hs. unfold emojis. rewrite !map_app, !W_app. change (map emoji d) with (emojis d). pose proof (W_pos (map emoji p)). pose proof (W_pos (map emoji q)). lia.
Qed.

(** ** What the painting functions write *)
Lemma ut_moji c : ut (emoji c) -> match c_moji c with MTab _ => emoji c = MTab 0 | m => emoji c = m end.
Proof.
  intros [H|H].
  - assert (Hn : has_tab (c_moji c) = false) by (unfold emoji in H; rewrite <- has_tab_erase, tabfree_has, H; reflexivity).
    pose proof (erase_nt _ Hn) as He. unfold emoji. destruct (c_moji c); try exact He. discriminate.
  - unfold emoji in *. destruct (c_moji c); try discriminate H. reflexivity.
Qed.
Lemma refresh_laid l : forall cur i pos past l' p, Forall ut (emojis l) -> 0 <= pos -> pos + W (emojis l) <= 32767 ->
  refresh_loop C cur i pos past l = Some (l', p) -> map c_moji l' = laid pos (emojis l).
Proof.
  induction l as [|c l IH]; intros cur i pos past l' p Hu Hp Hw H; cbn [refresh_loop] in H; [injection H as <- _; reflexivity|].
  rewrite emojis_cons in *. apply Forall_cons_iff in Hu as [Hc Hu]. rewrite W_cons in Hw. opt H. injection H as <- _. cbn [map c_moji].
  rewrite laid_step by exact Hp. pose proof (W_pos (emojis l)).
  set (m' := match c_moji c with MTab _ => MTab pos | m => m end) in *.
  assert (Hm : m' = match emoji c with MTab _ => MTab pos | _ => emoji c end) by (apply ut_moji in Hc; unfold m'; destruct (c_moji c); rewrite Hc; reflexivity).
  rewrite <- Hm. assert (Hle : width E m' <= width E (emoji c)).
  { pose proof (laid_W [emoji c] pos Hp (Forall_cons _ Hc (Forall_nil _))) as HL. rewrite laid_step in HL by exact Hp. rewrite <- Hm in HL. cbn [SpecTabScreen.laid] in HL. rewrite !W_cons, !W_nil in HL. lia. }
  pose proof (width_any m'). rewrite wrap16_id in Ev0 by lia. f_equal. eapply IH; [exact Hu| | |exact Ev0]; lia.
Qed.

(** The line fits the row. *)
Definition Fit (s : buf) : Prop :=
  Forall ut (line s) /\ topc s = pw /\ W (line s) < termw s - PW C - 3 /\ W (line s) <= 32767.
Definition Room (s : buf) : Prop := Forall ut (line s) /\ W (line s) < termw s - PW C - 3 /\ W (line s) <= 32767.
Lemma Fit_Room s : Fit s -> Room s. Proof. unfold Fit, Room. tauto. Qed.
Lemma Room_Fit s : Room s -> topc s = pw -> Fit s. Proof. unfold Fit, Room. tauto. Qed.
Definition G (s : buf) : Prop :=
  Fit s /\ cok (cells s) /\ view s = 0 /\ 0 <= cursor s <= zlen (line s) /\ suffix s = None.
Lemma Fit_VW s : Fit s -> W (line s) < ViewWidth s /\ 0 < ViewWidth s.
Proof. intros (_ & H1 & H2 & _). unfold ViewWidth, forbiddenWidth. unfold PW in H2. pose proof (W_pos (line s)). lia. Qed.
Lemma Fit_same s s' : line s' = line s -> topc s' = topc s -> termw s' = termw s -> Fit s -> Fit s'.
Proof. intros H1 H2 H3 H. unfold Fit in *. now rewrite H1, H2, H3. Qed.

Lemma puts_T s a b s' : Forall ut (line s) -> W (line s) <= 32767 -> puts C s a b = Some s' ->
  emits s s' (tm (part (laid 0 (line s)) a b)) /\ 0 <= a <= b /\ b <= zlen (line s) /\ (cok (cells s) -> cok (cells s')).
Proof.
  intros Hu Hw H. unfold puts in H. destruct (refreshColor C s) as [s1|] eqn:Hr; [|discriminate].
  destruct (slice (cells s1) a b) as [seg|] eqn:Hs; [|discriminate]. destruct (paint C (-1) seg) as [[ts k]|] eqn:Hpt; [|discriminate]. injection H as <-.
  unfold refreshColor in Hr. destruct (refresh_loop C (cursor s) 0 0 [] (cells s)) as [[l p]|] eqn:Hrl; [|discriminate]. injection Hr as <-. cbn [cells set_cells emit] in *.
  assert (Hl : map c_moji l = laid 0 (line s)) by (eapply refresh_laid; [exact Hu|lia| |exact Hrl]; change (emojis (cells s)) with (line s); lia).
  assert (Hm : slice (laid 0 (line s)) a b = Some (map c_moji seg)).
  { rewrite <- Hl. apply slice_split in Hs as (p1 & q1 & -> & Hz1 & Hz2). rewrite !map_app. rewrite <- (zlen_map c_moji p1) in Hz1. rewrite <- (zlen_map c_moji seg) in Hz2.
    replace b with (zlen (map c_moji p1) + zlen (map c_moji seg)) by lia. rewrite <- Hz1. apply slice_app_mid. }
  apply part_of_slice in Hm as (Hm & Hb1 & Hb2). rewrite zlen_laid in Hb2. split; [|split; [exact Hb1|split; [exact Hb2|]]].
  - eexists. split; [reflexivity|]. rewrite vis_app, (paint_emits C _ _ _ _ Hpt), Hm. destruct (k =? _); cbn; now rewrite app_nil_r.
  - intros Hc. eapply (refresh_cok C HE); [exact Hc| | |exact Hrl]; [lia|]. change (emojis (cells s)) with (line s). rewrite esum_line. lia.
Qed.

Lemma getView2_T s e w : Fit s -> cok (cells s) -> view s = 0 -> getView2 C s = Some (e, w) -> e = zlen (line s) /\ 0 <= cursor s <= zlen (line s).
Proof.
  intros HF Hc Hv H. destruct (Fit_VW s HF) as [HW HV]. unfold getView2, getView in H. rewrite Hv in H.
  assert (Hz : zlen (line s) = zlen (cells s)) by apply zlen_map.
  pose proof (zlen_nonneg (cells s)). rewrite (slice_ok (cells s)) in H by lia. rewrite Z.sub_0_r, to_nat_zlen in H. cbn [Z.to_nat skipn] in H. rewrite firstn_all in H.
  destruct (view_fit C (ViewWidth s) 0 (cells s)) as [n w1] eqn:Hf. destruct (slice (cells s) 0 (cursor s)) as [v2|] eqn:Hs2; [|discriminate]. injection H as <- <-.
  apply slice_some in Hs2 as (Hb1 & Hb2 & _). split; [|lia]. apply (view_fit_spec C) in Hf as (H1 & H2 & H3 & H4); [|lia].
  specialize (H4 (List.length (cells s)) (le_n _) (ok_any _)). rewrite firstn_all in H4. pose proof (range_le (cells s) Hc) as HR. change (emojis (cells s)) with (line s) in HR.
  specialize (H4 ltac:(lia)). rewrite Hz. unfold zlen. lia.
Qed.

Lemma rvs_T l : forall vw cur i w r, 0 <= w -> Forall (fun c => 0 <= width E (c_moji c)) l -> w + range_width C l < vw -> rvs_loop C vw cur i w 0 r l = 0.
Proof.
  induction l as [|c l IH]; intros vw cur i w r Hw Hl H; cbn [rvs_loop]; [reflexivity|]. destruct (i <=? cur); [|reflexivity].
  apply Forall_cons_iff in Hl as [Hc Hl]. cbn [range_width] in H.
  assert (Hn : 0 <= range_width C l) by (rewrite range_W; apply W_pos).
  assert (Hs : rvs_shrink C vw (w + width E (c_moji c)) 0 r = (w + width E (c_moji c), 0, r, false)).
  { destruct r; cbn [rvs_shrink]; replace (vw <=? w + width E (c_moji c)) with false by lia; reflexivity. }
  rewrite Hs. apply IH; [lia|exact Hl|lia].
Qed.
Lemma Reset_T s : Fit s -> cok (cells s) -> ResetViewStart C s = set_view s 0.
Proof.
  intros HF Hc. destruct (Fit_VW s HF) as [HW HV]. unfold ResetViewStart. f_equal. apply rvs_T; [lia| |].
  - rewrite Forall_forall. intros c _. apply width_any.
  - pose proof (range_le (cells s) Hc) as HR. change (emojis (cells s)) with (line s) in HR. lia.
Qed.

(** ** Painting *)
Notation shown := (shows_tabs E).
Definition R0 (lim : Z) (s s' : buf) : Prop :=
  forall sc, exists ts, out s' = out s ++ ts /\ shown s' (D ts sc) /\ inside lim sc ts.
Definition R (lim : Z) (s s' : buf) : Prop :=
  forall sc, shown s sc -> exists ts, out s' = out s ++ ts /\ shown s' (D ts sc) /\ inside lim sc ts.
Definition Q0 (s s' : buf) : Prop := R0 (termw s - 3) s s' /\ G s' /\ termw s' = termw s.
Definition Q (s s' : buf) : Prop := R (termw s - 3) s s' /\ G s' /\ termw s' = termw s.
Lemma Q0_Q s s' : Q0 s s' -> Q s s'.
Proof. intros (H1 & H2). split; [|exact H2]. intros sc _. apply H1. Qed.
Lemma Q0_pre s0 s s' ts : out s = out s0 ++ ts -> termw s = termw s0 -> (forall m, ~ In (TMoji m) ts) -> Q0 s s' -> Q0 s0 s'.
Proof.
  intros H1 H2 H3 (H4 & H5 & H6). split; [|split; [exact H5|congruence]]. intros sc. destruct (H4 (D ts sc)) as (t1 & O & Sh & I). exists (ts ++ t1).
  split; [rewrite O, H1; now rewrite app_assoc|]. split; [now rewrite D_app|]. rewrite <- H2. apply inside_app; [|exact I]. intros a m b Hx. exfalso. apply (H3 m). rewrite Hx. apply in_or_app. right. now left.
Qed.
Lemma Q0_same s0 s s' : out s = out s0 -> termw s = termw s0 -> Q0 s s' -> Q0 s0 s'.
Proof. intros H1 H2. apply (Q0_pre s0 s s' []); [now rewrite app_nil_r|exact H2|auto]. Qed.
Lemma Q_trans s s1 s2 : Q s s1 -> Q s1 s2 -> Q s s2.
Proof.
  intros (H1 & H2 & H3) (H4 & H5 & H6). rewrite H3 in H4. split; [|split; [exact H5|congruence]]. intros sc Hs. destruct (H1 sc Hs) as (t1 & O1 & S1 & I1). destruct (H4 _ S1) as (t2 & O2 & S2 & I2).
  exists (t1 ++ t2). split; [rewrite O2, O1; now rewrite app_assoc|]. split; [now rewrite D_app|]. now apply inside_app.
Qed.
Lemma Q_refl s : G s -> Q s s.
Proof. intros H. split; [|auto]. intros sc Hs. exists []. rewrite app_nil_r. split; [reflexivity|]. split; [exact Hs|apply inside_nil]. Qed.
Lemma Q_quiet s ts : G s -> vis ts = [] -> Q s (emit s ts).
Proof.
  intros H Hv. split; [|split; [exact H|reflexivity]]. intros sc Hs. exists ts. split; [reflexivity|].
  rewrite <- (D_vis C), Hv. split; [exact Hs|]. apply (inside_vis C). rewrite Hv. apply inside_nil.
Qed.
Lemma R_emits lim s s' vs sc : emits s s' vs -> shown s' (D vs sc) /\ inside lim sc vs ->
  exists ts, out s' = out s ++ ts /\ shown s' (D ts sc) /\ inside lim sc ts.
Proof. intros (ts & H1 & <-) [H2 H3]. exists ts. split; [exact H1|]. rewrite (D_vis C) in H2. split; [exact H2|]. now apply (inside_vis C). Qed.

Lemma part0 (l : list moji) k : part l 0 k = firstn (Z.to_nat k) l.
Proof. unfold part. now rewrite Z.sub_0_r. Qed.
Lemma part_all (l : list moji) : part l 0 (zlen l) = l.
Proof. rewrite part0, to_nat_zlen. apply firstn_all. Qed.

Lemma repaintW_T s s' : repaintWithoutUpdateSuffix C s = Some s' -> Fit s -> cok (cells s) -> view s = 0 -> suffix s = None -> Q0 s s'.
Proof.
  intros H HF Hc Hv Hsu. pose proof (repaintW_paints C s s' H) as Hp. destruct (Fit_VW s HF) as [HW HV]. unfold repaintWithoutUpdateSuffix in H.
  destruct (getView2 C s) as [[e w]|] eqn:Hg; [|discriminate]. apply getView2_T in Hg as (-> & Hcu); auto.
  destruct (puts C (GotoHead s) (view (GotoHead s)) (zlen (line s))) as [s2|] eqn:Hp1; [|discriminate].
  rewrite HP in H. pose proof (paints_fields _ _ (puts_paints C _ _ _ _ Hp1)) as (F1 & F2 & F3 & F4 & F5 & F6 & F7 & _).
  apply puts_T in Hp1 as (Em1 & _ & _ & Hc1); [|apply HF|apply HF]. change (line (GotoHead s)) with (line s) in Em1. change (view (GotoHead s)) with (view s) in Em1. rewrite Hv in Em1.
  assert (L3 : line (GotoHead (eraseline s2)) = line s) by exact F1.
  pose proof (paints_fields _ _ Hp) as (P1 & P2 & P3 & P4 & P5 & P6 & P7 & _).
  apply puts_T in H as (Em2 & _ & _ & Hc2); [|rewrite L3; apply HF|rewrite L3; apply HF]. rewrite L3 in Em2. cbn [view cursor GotoHead eraseline emit] in Em2. rewrite F4, F5 in Em2. cbn [view cursor GotoHead emit] in Em2. rewrite Hv in Em2.
  set (L := laid 0 (line s)) in *. rewrite <- (zlen_laid (line s) 0) in Em1. fold L in Em1. rewrite part_all in Em1. rewrite part0 in Em2.
  set (a := firstn (Z.to_nat (cursor s)) L) in *. assert (Hab : L = a ++ skipn (Z.to_nat (cursor s)) L) by (symmetry; apply firstn_skipn).
  assert (HWL : W L <= W (line s)) by (apply laid_W; [lia|apply HF]).
  assert (Em : emits s s' (([TGoto (topc s + 1)] ++ tm L ++ [TErase]) ++ [TGoto (topc s + 1)] ++ tm a)).
  { rewrite <- !app_assoc. eapply emits_trans; [apply (emits_emit s [TGoto (topc s + 1)])|]. eapply emits_trans; [exact Em1|].
    change ([TErase] ++ [TGoto (topc s + 1)] ++ tm a) with ([TErase; TGoto (topc s + 1)] ++ tm a).
    eapply emits_trans; [|exact Em2]. exists [TErase; TGoto (topc s2 + 1)]. split; [cbn; now rewrite <- app_assoc|]. cbn. rewrite F7. reflexivity. }
  assert (PL : line s' = line s) by exact P1.
  split; [|split; [|exact P6]].
  - intros sc. apply (R_emits _ _ _ _ _ Em). pose proof (VW_lim s) as Hlim.
    destruct (screen_repaint E other (topc s) a (skipn (Z.to_nat (cursor s)) L) sc (termw s - 3) (ok_any _)) as (S1 & S2 & S3); [rewrite <- Hab; lia|].
    rewrite <- Hab in S1, S2, S3. split; [|exact S3]. split.
    + rewrite P7, PL. exact S1.
    + rewrite P7, P5, PL. exact S2.
  - split; [apply (Fit_same s); auto|]. split; [apply Hc2; exact (Hc1 Hc)|]. rewrite P4, P5, P3, PL. auto.
Qed.
Lemma repaint_T s s' : repaint C s = Some s' -> Fit s -> cok (cells s) -> view s = 0 -> suffix s = None -> Q0 s s'.
Proof. unfold repaint, updateSuffix. rewrite HP. apply repaintW_T. Qed.
Lemma repaint_line s s' : repaint C s = Some s' -> line s' = line s /\ termw s' = termw s /\ topc s' = topc s.
Proof. unfold repaint, updateSuffix. rewrite HP. intros H. apply repaintW_paints, paints_fields in H as (H1 & _ & _ & _ & _ & H6 & H7 & _). auto. Qed.
Lemma pre_fit s s' : repaint C s = Some s' -> topc s = pw -> Room s' -> Fit s.
Proof. intros H Ht HF. apply repaint_line in H as (H1 & H2 & H3). apply (Fit_same s'); auto. apply Room_Fit; [exact HF|congruence]. Qed.
(** With a new view, when the width of the line decides. *)
Lemma reset_T s s' : repaint C (ResetViewStart C s) = Some s' -> topc s = pw -> Room s' -> cok (cells s) -> suffix s = None -> Q0 s s'.
Proof.
  intros H Ht HF Hc Hs. assert (F1 : Fit s) by (apply (pre_fit (ResetViewStart C s) s' H Ht) in HF; exact HF).
  rewrite (Reset_T s F1 Hc) in H. apply (Q0_same s (set_view s 0)); [reflexivity|reflexivity|]. now apply repaint_T.
Qed.
(** With the old view. *)
Lemma plain_T s s' : repaint C s = Some s' -> topc s = pw -> Room s' -> cok (cells s) -> view s = 0 -> suffix s = None -> Q0 s s'.
Proof. intros H Ht HF Hc Hv Hs. apply repaint_T; auto. now apply (pre_fit s s'). Qed.

(** ** Editing steps keep the tab positions *)
Lemma Delete_cok s pos n s1 w : Delete C s pos n = Some (s1, w) -> cok (cells s) -> cok (cells s1).
Proof.
  unfold Delete. destruct ((n <=? 0) || (zlen (cells s) <? pos + n)) eqn:Hg; intros H Hc; [injection H as <- _; exact Hc|].
  opt H. injection H as <- _. cbn [cells push_undo set_undoes set_cells] in *. eapply Forall_sliceDelete; [|exact Ev1|exact Hc]. lia.
Qed.
Lemma units_le s pos t s1 l : insertString C s pos t = Some (s1, l) -> W (line s1) <= 32767 -> cok (cells s) -> cok (cells s1) /\ cok l.
Proof.
  intros H HW Hc. pose proof (insert_shape C s pos t s1 l H) as (l0 & us & _ & _ & Hl). unfold insertString, insert in H. opt H. injection H as <- <-. opt Ev. injection Ev as <-.
  assert (Hk : cok (mojis2cells (StringToMoji E t))).
  { unfold cok, mojis2cells. apply Forall_map. cbn [c_moji]. apply (StringToMoji_tab E HE). right. rewrite <- (emojis_units E t). unfold esum.
    assert (Hid : map erase (emojis (mojis2cells (StringToMoji E t))) = emojis (mojis2cells (StringToMoji E t))) by (unfold emojis; rewrite map_map; apply map_ext; intros c; apply erase_idem).
    rewrite Hid. change (sumw E ?x) with (W x). rewrite Hl, !W_app in HW. pose proof (W_pos (firstn (Z.to_nat pos) (line s))). pose proof (W_pos (skipn (Z.to_nat pos) (line s))). lia. }
  split; [|exact Hk]. cbn [cells push_undo set_undoes set_cells]. eapply Forall_sliceInsert; [exact Ev0|exact Hc|exact Hk].
Qed.
Lemma clip_cells s t : exists cl, clip_write s t = set_clip s cl. Proof. apply clip_write_shape. Qed.

(** ** The commands *)
Lemma BeginningOfLine_T s s' : G s -> cmdBeginningOfLine C s = Some s' -> Room s' -> Q0 s s'.
Proof.
  intros (HF & Hc & Hv & Hcu & Hs) H HF'. unfold cmdBeginningOfLine in H. apply (Q0_same s (set_view (set_cursor s 0) 0)); [reflexivity|reflexivity|].
  apply plain_T; auto. apply HF.
Qed.
Lemma BackwardChar_T s s' : G s -> cmdBackwardChar C s = Some s' -> Room s' -> Q s s'.
Proof.
  intros HG H HF'. pose proof HG as (HF & Hc & Hv & Hcu & Hs). unfold cmdBackwardChar in H. destruct (cursor s <=? 0) eqn:H0; [injection H as <-; now apply Q_refl|]. apply Q0_Q.
  cbn [cursor view set_cursor] in H. replace (cursor s - 1 <? view s) with false in H by lia.
  apply (Q0_same s (set_cursor s (cursor s - 1))); [reflexivity|reflexivity|]. apply plain_T; auto. apply HF.
Qed.
Lemma BackwardDelete_T s s' : G s -> cmdBackwardDeleteChar C s = Some s' -> Room s' -> Q s s'.
Proof.
  intros HG H HF'. pose proof HG as (HF & Hc & Hv & Hcu & Hs). unfold cmdBackwardDeleteChar in H.
  destruct (0 <? cursor s) eqn:H0; [|injection H as <-; now apply Q_refl]. apply Q0_Q. opt H.
  pose proof (Delete_cok _ _ _ _ _ Ev Hc) as Hc1. apply Delete_shape in Ev as (l & us & -> & _). cbn [cursor view set_cursor set_undoes set_cells] in *.
  replace (cursor s - 1 <? view s) with false in H by lia. eapply Q0_same; [| |apply (plain_T _ _ H); auto]; [reflexivity|reflexivity|]. apply HF.
Qed.
Lemma DeleteChar_T s s' : G s -> cmdDeleteChar C s = Some s' -> Room s' -> Q0 s s'.
Proof.
  intros HG H HF'. pose proof HG as (HF & Hc & Hv & Hcu & Hs). unfold cmdDeleteChar in H. opt H.
  pose proof (Delete_cok _ _ _ _ _ Ev Hc) as Hc1. apply Delete_shape in Ev as (l & us & -> & _).
  eapply Q0_same; [| |apply (plain_T _ _ H); auto]; [reflexivity|reflexivity|]. apply HF.
Qed.
Lemma self_tail_T s k s' : G s -> self_insert_tail C s k = Some s' -> Room s' -> Q0 s s'.
Proof.
  intros HG H HF'. pose proof HG as (HF & Hc & Hv & Hcu & Hs). unfold self_insert_tail in H. opt H.
  pose proof (repaint_line _ _ H) as (RL & _). pose proof (insert_shape C s _ _ _ _ Ev) as (l0 & us & Hb & _). subst b. set (s2 := set_cursor _ _) in *.
  assert (HL : line s' = line (set_undoes (set_cells s l0) us)) by (rewrite RL; destruct (_ <=? _); reflexivity).
  pose proof (units_le _ _ _ _ _ Ev ltac:(rewrite <- HL; apply HF') Hc) as [Hc1 _].
  apply (Q0_same s s2); [reflexivity|reflexivity|].
  destruct (ViewWidth s2 <=? z + range_width C l).
  - apply reset_T; auto. apply HF.
  - apply plain_T; auto. apply HF.
Qed.
Lemma Fit_sub s s1 p d q : Fit s -> line s = p ++ d ++ q -> line s1 = p ++ q -> termw s1 = termw s -> topc s1 = topc s -> Fit s1.
Proof.
  intros (H1 & H2 & H3 & H4) HL HL1 Ht Hp. unfold Fit. rewrite HL1, Ht, Hp. rewrite HL in *. apply Forall_app in H1 as [U1 U2]. apply Forall_app in U2 as [_ U2].
  rewrite !W_app in *. pose proof (W_pos d). split; [apply Forall_app; auto|]. split; [exact H2|]. lia.
Qed.
Lemma selfInsert_T k s s' : G s -> selfInsert C k s = Some s' -> Room s' -> Q s s'.
Proof.
  intros HG H HF'. unfold selfInsert in H. destruct (AreZeroWidthJoin E (altgr k) && (0 <? cursor s)).
  { opt H. exact (BackwardDelete_T (set_pending s _) s' HG H HF'). }
  destruct ((AreVariationSelectorLike E (altgr k) || AreEmojiModifier E (altgr k)) && (0 <? cursor s)).
  { opt H. assert (Hd : exists p d q, line s = p ++ d ++ q /\ line b = p ++ q).
    { apply cmdBackwardDeleteChar_ref in Ev0. apply aBackwardDelete_mid in Ev0. exact Ev0. }
    assert (Htw : termw b = termw s /\ topc b = topc s).
    { unfold cmdBackwardDeleteChar in Ev0. destruct (0 <? cursor s); [|injection Ev0 as <-; auto]. opt Ev0.
      apply repaint_line in Ev0 as (_ & -> & ->). apply Delete_shape in Ev1 as (? & ? & -> & _). destruct (_ <? _); auto. }
    destruct Hd as (p & d & q & H1 & H2).
    assert (QB : Q s b) by (apply BackwardDelete_T; auto; apply Fit_Room; eapply Fit_sub; [apply HG|exact H1|exact H2|apply Htw|apply Htw]).
    eapply Q_trans; [exact QB|]. apply Q0_Q. eapply self_tail_T; [apply QB|exact H|auto]. }
  destruct (pending s).
  - apply Q0_Q. eapply self_tail_T; eauto.
  - apply Q0_Q. exact (self_tail_T (set_pending s []) _ s' HG H HF').
Qed.
Lemma Replace_T s pos t s' : topc s = pw -> cok (cells s) -> suffix s = None -> ReplaceAndRepaint C s pos t = Some s' -> Room s' -> Q0 s s'.
Proof.
  intros Ht Hc Hs H HF'. unfold ReplaceAndRepaint in H. opt H. pose proof (Delete_cok _ _ _ _ _ Ev Hc) as Hc1. apply Delete_shape in Ev as (l & us & -> & _).
  unfold InsertString in Ev0. opt Ev0. injection Ev0 as <- <-. pose proof (insert_shape C _ _ _ _ _ Ev) as (l1 & us1 & Hb & _). subst b.
  destruct (joinUndo_shape (set_cursor (set_undoes (set_cells (set_undoes (set_cells s l) us) l1) us1) (pos + zlen l0))) as [us2 Hj]. rewrite Hj in H.
  pose proof (repaint_line _ _ H) as (RL & _).
  pose proof (units_le _ _ _ _ _ Ev) as HU. change (line (set_undoes (set_cells (set_undoes (set_cells s l) us) l1) us1)) with (line (ResetViewStart C (set_undoes (set_cursor (set_undoes (set_cells (set_undoes (set_cells s l) us) l1) us1) (pos + zlen l0)) us2))) in HU.
  rewrite <- RL in HU. specialize (HU ltac:(apply HF') Hc1).
  eapply Q0_same; [| |apply (reset_T _ _ H); auto]; [reflexivity|reflexivity|]. apply HU.
Qed.
Lemma WordRubout_T s s' : G s -> cmdUnixWordRubout C s = Some s' -> Room s' -> Q0 s s'.
Proof.
  intros HG H HF'. pose proof HG as (HF & Hc & Hv & Hcu & Hs). unfold cmdUnixWordRubout in H. opt H.
  match goal with H : context [clip_write ?x ?y] |- _ => destruct (clip_write_shape x y) as [cl Hcl]; rewrite Hcl in * end.
  pose proof (Delete_cok _ _ _ _ _ Ev2 Hc) as Hc1. apply Delete_shape in Ev2 as (l2 & us & -> & _).
  cbn [view cursor set_cursor set_undoes set_cells set_clip] in H. destruct (z - view s <? 2).
  - eapply Q0_same; [| |apply (reset_T _ _ H); auto]; [reflexivity|reflexivity|]. apply HF.
  - eapply Q0_same; [| |apply (plain_T _ _ H); auto]; [reflexivity|reflexivity|]. apply HF.
Qed.
Lemma LineDiscard_T s s' : G s -> cmdUnixLineDiscard C s = Some s' -> Room s' -> Q0 s s'.
Proof.
  intros HG H HF'. pose proof HG as (HF & Hc & Hv & Hcu & Hs). unfold cmdUnixLineDiscard in H. opt H.
  match goal with H : context [clip_write ?x ?y] |- _ => destruct (clip_write_shape x y) as [cl Hcl]; rewrite Hcl in * end.
  pose proof (Delete_cok _ _ _ _ _ Ev0 Hc) as Hc1. apply Delete_shape in Ev0 as (l2 & us & -> & _).
  eapply Q0_same; [| |apply (plain_T _ _ H); auto]; [reflexivity|reflexivity|]. apply HF.
Qed.
Lemma RepaintAll_T s ts s' : G s -> (forall m, ~ In (TMoji m) ts) -> RepaintAll C (emit s ts) = Some s' -> Room s' -> Q0 s s'.
Proof.
  intros HG Hts H HF'. pose proof HG as (HF & Hc & Hv & Hcu & Hs). unfold RepaintAll in H.
  pose proof HF as (_ & Ht & _). destruct (callPromptWriter E (prompt C)) as [t p] eqn:Hp. cbn [snd] in Ht. rewrite <- Ht in H.
  eapply (Q0_pre s _ s' (ts ++ [TFlush; TPrompt t])); [| | |apply (plain_T _ _ H); auto].
  - cbn. now rewrite app_assoc.
  - reflexivity.
  - intros m Hi. apply in_app_or in Hi as [Hi|[Hi|[Hi|[]]]]; [now apply (Hts m)|discriminate|discriminate].
  - rewrite Hp. exact Ht.
Qed.
Lemma BackwardWord_T s s' : G s -> cmdBackwardWord C s = Some s' -> Room s' -> Q0 s s'.
Proof.
  intros HG H HF'. pose proof HG as (HF & Hc & Hv & Hcu & Hs). unfold cmdBackwardWord in H. opt H.
  match goal with H : context [set_cursor _ ?p] |- _ => set (np := p) in * end.
  destruct (np <? view s) eqn:Hn.
  - exfalso. rewrite Hv in Hn. unfold repaint, repaintWithoutUpdateSuffix, getView2, getView in H. unfold updateSuffix in H. rewrite HP in H. cbn [cells view set_cursor set_view] in H.
    destruct (slice (cells s) np (zlen (cells s))) as [v|] eqn:Hsl; [|discriminate]. apply slice_some in Hsl as (Hx & _). lia.
  - eapply Q0_same; [| |apply (plain_T _ _ H); auto]; [reflexivity|reflexivity|]. apply HF.
Qed.
Lemma Undo_T s s' : G s -> cmdUndo C s = Some s' -> Room s' -> Q s s'.
Proof.
  intros HG H HF'. pose proof HG as (HF & Hc & Hv & Hcu & Hs). unfold cmdUndo in H.
  destruct (undoes s) as [|u rest]; [injection H as <-; now apply Q_quiet|]. apply Q0_Q. opt H.
  assert (Hl1 : cok l).
  { destruct (0 <? u_del u) eqn:Hd; [|injection Ev as <-; exact Hc]. eapply Forall_sliceDelete; [|exact Ev|exact Hc]. lia. }
  pose proof (repaint_line _ _ H) as (RL & _).
  assert (Hb : exists l2 c2, b = set_cursor (set_cells (GotoHead (set_undoes s rest)) l2) c2 /\ cok l2).
  { destruct (u_text u) as [|x t] eqn:Hut; [injection Ev0 as <-; eauto|]. opt Ev0. injection Ev0 as <-. eexists _, _. split; [reflexivity|].
    set (s0 := set_cells (GotoHead (set_undoes s rest)) l) in *. set (cs := mojis2cells (StringToMoji E (x :: t))) in *.
    assert (Hins : insertString C s0 (u_pos u) (x :: t) = Some (push_undo (set_cells s0 l0) (mkUndo (u_pos u) (zlen cs) []), cs)) by (unfold insertString, insert; fold cs; rewrite Ev1; reflexivity).
    apply units_le in Hins as [Hi _]; [exact Hi| |exact Hl1]. change (W (line (push_undo (set_cells s0 l0) (mkUndo (u_pos u) (zlen cs) []))) <= 32767).
    change (line (push_undo (set_cells s0 l0) (mkUndo (u_pos u) (zlen cs) []))) with (line (ResetViewStart C (set_cursor (set_cells s0 l0) (u_pos u + zlen cs)))). rewrite <- RL. apply HF'. }
  destruct Hb as (l2 & c2 & -> & Hc2).
  eapply (Q0_pre s _ s' [TGoto (topc s + 1)]); [| | |apply (reset_T _ _ H); auto]; [reflexivity|reflexivity| |apply HF]. intros m [Hi|[]]. discriminate.
Qed.
Lemma Yank_T s t s' : G s -> InsertAndRepaint C s t = Some s' -> Room s' -> Q s s'.
Proof.
  intros (HF & Hc & Hv & Hcu & Hs) H HF'. apply Q0_Q. eapply Replace_T; [apply HF|exact Hc|exact Hs|exact H|exact HF'].
Qed.

(** ** The commands that paint less *)
Lemma tm_app a b : tm (a ++ b) = tm a ++ tm b. Proof. apply map_app. Qed.
Lemma laid_split s p : 0 <= cursor s <= p -> p <= zlen (line s) -> firstn (Z.to_nat p) (laid 0 (line s)) = firstn (Z.to_nat (cursor s)) (laid 0 (line s)) ++ part (laid 0 (line s)) (cursor s) p.
Proof. intros H1 H2. rewrite <- !part0. apply part_split; lia. Qed.
Lemma advance_T s p s1 : G s -> puts C s (cursor s) p = Some s1 -> Q s (set_cursor s1 p).
Proof.
  intros HG H. pose proof HG as (HF & Hc & Hv & Hcu & Hs). destruct (Fit_VW s HF) as [HW HV].
  pose proof (paints_fields _ _ (puts_paints C _ _ _ _ H)) as (F1 & F2 & F3 & F4 & F5 & F6 & F7 & _).
  apply puts_T in H as (Em & Hb1 & Hb2 & Hc1); [|apply HF|apply HF]. assert (FL : line s1 = line s) by exact F1.
  split; [|split; [|exact F6]].
  2:{ split; [apply (Fit_same s); auto|]. split; [now apply Hc1|]. change (line (set_cursor s1 p)) with (line s1). cbn [view cursor suffix set_cursor]. rewrite FL, F4, F3. repeat split; auto; lia. }
  intros sc [Hrow Hcol]. apply (R_emits _ s (set_cursor s1 p) _ sc Em).
  set (L := laid 0 (line s)) in *. pose proof (laid_split s p Hb1 Hb2) as Hsp. fold L in Hsp.
  assert (HWL : W L <= W (line s)) by (apply laid_W; [lia|apply HF]).
  assert (Hall : L = firstn (Z.to_nat (cursor s)) L ++ part L (cursor s) p ++ skipn (Z.to_nat p) L) by (rewrite app_assoc, <- Hsp; symmetry; apply firstn_skipn).
  split; [split|].
  - change (line (set_cursor s1 p)) with (line s1). cbn [topc set_cursor]. rewrite F7, FL. fold L. pose proof (full_over E other (topc s) (part L (cursor s) p) (firstn (Z.to_nat (cursor s)) L) (skipn (Z.to_nat p) L) sc) as X.
    rewrite <- Hall in X. exact (X (ok_any _) Hrow Hcol).
  - change (line (set_cursor s1 p)) with (line s1). cbn [topc cursor set_cursor]. rewrite F7, FL. fold L. rewrite col_tm, Hcol, Hsp, W_app. lia.
  - apply inside_tm; [apply ok_any|]. rewrite Hcol. rewrite Hall, !W_app in HWL. pose proof (W_pos (skipn (Z.to_nat p) L)). pose proof (VW_lim s). lia.
Qed.
Lemma width_between s a b w : G s -> GetWidthBetween C s a b = Some w -> (w <? ViewWidth s) = true.
Proof.
  intros (HF & Hc & _) H. destruct (Fit_VW s HF) as [HW HV]. unfold GetWidthBetween in H. opt H. injection H as <-. pose proof (slice_width s a b l Hc Ev). lia.
Qed.
(** Erasing to the right of the end of the line. *)
Lemma erase_T s : G s -> cursor s = zlen (line s) -> Q s (eraseline s).
Proof.
  intros HG Hz. split; [|split; [exact HG|reflexivity]]. intros sc [Hrow Hcol]. exists [TErase]. split; [reflexivity|].
  set (L := laid 0 (line s)) in *. assert (Hf : firstn (Z.to_nat (cursor s)) L = L) by (rewrite Hz, <- (zlen_laid (line s) 0); fold L; rewrite to_nat_zlen; apply firstn_all).
  rewrite Hf in Hcol.
  assert (U : upto E (topc s) L sc) by (split; [exact Hcol|]; intros x Hx; apply Hrow; lia).
  destruct (upto_erase E other _ _ _ (ok_any _) U) as [H1 H2]. split; [split|apply inside_other; discriminate].
  - exact H1.
  - change (line (eraseline s)) with (line s). change (cursor (eraseline s)) with (cursor s). fold L. rewrite Hf. exact H2.
Qed.
Lemma EndOfLine_T s s' : G s -> cmdEndOfLine C s = Some s' -> Q s s'.
Proof.
  intros HG H. unfold cmdEndOfLine in H. destruct (GetWidthBetween C s (view s) (zlen (cells s))) as [w|] eqn:Hw; [|discriminate].
  rewrite (width_between _ _ _ _ HG Hw) in H. opt H. injection H as <-. opt Ev. injection Ev as <-.
  pose proof (advance_T s _ _ HG Ev0) as HQ. eapply Q_trans; [exact HQ|]. apply erase_T; [apply HQ|].
  apply puts_paints, paints_fields in Ev0 as (F1 & F2 & _). change (line (set_cursor b0 (zlen (cells s)))) with (line b0). cbn [cursor set_cursor].
  assert (FL : line b0 = line s) by exact F1. rewrite FL. symmetry. apply zlen_map.
Qed.
Lemma ForwardChar_T s s' : G s -> cmdForwardChar C s = Some s' -> Q s s'.
Proof.
  intros HG H. pose proof HG as (HF & Hc & Hv & Hcu & Hs). unfold cmdForwardChar in H. rewrite Hs in H. destruct (zlen (cells s) <=? cursor s); [injection H as <-; now apply Q_refl|].
  destruct (GetWidthBetween C s (view s) (cursor s + 1)) as [w|] eqn:Hw; [|discriminate]. rewrite (width_between _ _ _ _ HG Hw) in H. opt H. injection H as <-.
  pose proof (paints_fields _ _ (puts_paints C _ _ _ _ Ev)) as (_ & _ & _ & _ & -> & _). now apply advance_T.
Qed.
Lemma ForwardWord_T s s' : G s -> cmdForwardWord C s = Some s' -> Q s s'.
Proof.
  intros HG H. unfold cmdForwardWord in H. opt H. rewrite (width_between _ _ _ _ HG Ev0) in H. opt H. injection H as <-. now apply advance_T.
Qed.
Lemma KillLine_T s s' : G s -> cmdKillLine s = Some s' -> Q s s'.
Proof.
  intros HG H. pose proof HG as (HF & Hc & Hv & Hcu & Hs). unfold cmdKillLine in H. opt H. injection H as <-.
  match goal with H : context [clip_write ?x ?y] |- _ => destruct (clip_write_shape x y) as [cl Hcl]; rewrite Hcl in * end.
  cbn [cells cursor eraseline emit push_undo set_undoes set_clip] in Ev0.
  set (s' := set_cells (push_undo (eraseline (set_clip s cl)) _) l) in *.
  assert (Hx : line s' = firstn (Z.to_nat (cursor s)) (line s)).
  { assert (Hx : slice (line s) 0 (cursor s) = Some (line s')) by (change (line s) with (emojis (cells s)); rewrite slice_emojis, Ev0; reflexivity).
    apply part_of_slice in Hx as (Hx & _). rewrite Hx. apply part0. }
  set (L := laid 0 (line s)). assert (HL : laid 0 (line s') = firstn (Z.to_nat (cursor s)) L) by (rewrite Hx; symmetry; apply laid_firstn).
  assert (Hz : zlen (line s') = cursor s) by (rewrite Hx, zlen_firstn; lia).
  assert (Hfull : firstn (Z.to_nat (cursor s)) (laid 0 (line s')) = laid 0 (line s')) by (apply firstn_all2; pose proof (zlen_laid (line s') 0); unfold zlen in *; lia).
  split; [|split; [|reflexivity]].
  - intros sc [Hrow Hcol]. apply (R_emits (termw s - 3) s s' [TErase] sc); [exists [TErase]; split; reflexivity|].
    assert (U : upto E (topc s) (laid 0 (line s')) sc).
    { rewrite HL. fold L in Hrow. rewrite <- (firstn_skipn (Z.to_nat (cursor s)) L) in Hrow. eapply full_upto; [apply ok_any|apply ok_any|exact Hrow|exact Hcol]. }
    destruct (upto_erase E other _ _ _ (ok_any _) U) as [H1 H2]. split; [split|apply inside_other; discriminate].
    + exact H1.
    + change (cursor s') with (cursor s). rewrite Hfull. exact H2.
  - split; [|split; [|split; [exact Hv|split; [change (cursor s') with (cursor s); lia|exact Hs]]]].
    + apply (Fit_sub s s' (line s') (skipn (Z.to_nat (cursor s)) (line s)) []); auto; rewrite app_nil_r; [|reflexivity]. rewrite Hx. symmetry. apply firstn_skipn.
    + apply slice_split in Ev0 as (p & q & Hp & _). unfold cok in *. rewrite Hp in Hc. apply Forall_app in Hc as [_ Hc]. now apply Forall_app in Hc.
Qed.
Lemma Fit_nil s s1 : Fit s -> line s1 = [] -> termw s1 = termw s -> topc s1 = topc s -> Fit s1.
Proof. intros (H1 & H2 & H3 & H4) Hl Ht Hp. unfold Fit. rewrite Hl, Ht, Hp. pose proof (W_pos (line s)). rewrite W_nil. split; [constructor|]. split; [exact H2|]. lia. Qed.
Lemma KillWhole_T s s' : G s -> cmdKillWholeLine s = Some s' -> Q0 s s'.
Proof.
  intros HG H. pose proof HG as (HF & Hc & Hv & Hcu & Hs). destruct (Fit_VW s HF) as [HW HV]. unfold cmdKillWholeLine in H. injection H as <-.
  split; [|split; [|reflexivity]].
  - intros sc. exists ([TGoto (topc s + 1)] ++ tm [] ++ [TErase]). split; [cbn; now rewrite <- app_assoc|].
    destruct (screen_row E other (topc s) [] sc (termw s - 3) (Forall_nil _)) as (H1 & H2 & H3); [rewrite W_nil; pose proof (VW_lim s); lia|].
    split; [split; [exact H1|exact H2]|exact H3].
  - split; [now apply (Fit_nil s)|]. split; [constructor|]. cbn. repeat split; auto; unfold zlen; cbn; lia.
Qed.
Lemma show_T s s' : G s -> show_history C s = Some s' -> Room s' -> Q s s'.
Proof.
  intros HG H HF'. unfold show_history in H. destruct (cmdKillWholeLine s) as [s1|] eqn:Hk; [|discriminate].
  pose proof (KillWhole_T s s1 HG Hk) as HQ. opt H. destruct s0 as [|x t]; [injection H as <-; now apply Q0_Q|].
  assert (Hk2 : line s1 = [] /\ view s1 = 0 /\ cursor s1 = 0) by (unfold cmdKillWholeLine in Hk; injection Hk as <-; cbn; auto). destruct Hk2 as (L1 & V1 & C1).
  opt H. unfold InsertString in Ev0. opt Ev0. injection Ev0 as <- <-. pose proof (insert_shape C _ _ _ _ _ Ev1) as (l0 & us & Hb & _). subst b0.
  set (s2 := set_cursor (set_view (set_undoes (set_cells s1 l0) us) 0) 0) in *.
  assert (HL : line s' = line s2).
  { apply cmdEndOfLine_ref in H. apply (f_equal aline) in H. exact H. }
  assert (HT : termw s' = termw s2 /\ topc s' = topc s2).
  { unfold cmdEndOfLine in H. opt H. injection H as <-. cbn [termw topc eraseline emit]. destruct (_ <? _).
    - opt Ev2. injection Ev2 as <-. apply puts_paints, paints_fields in Ev3 as (_&_&_&_&_&X1&X2&_). auto.
    - opt Ev2. injection Ev2 as <-. apply puts_paints, paints_fields in Ev4 as (_&_&_&_&_&X1&X2&_). auto. }
  destruct HQ as (HR & (HF1 & Hc1 & Hv1 & Hcu1 & Hs1) & HT1).
  pose proof (units_le _ _ _ _ _ Ev1) as HU. change (line (set_undoes (set_cells s1 l0) us)) with (line s2) in HU. rewrite <- HL in HU. destruct (HU ltac:(apply HF') Hc1) as [Hc2 _].
  assert (HG2 : G s2).
  { split; [apply Room_Fit; [unfold Room in *; rewrite <- HL, <- (proj1 HT); exact HF'|apply HF1]|]. split; [exact Hc2|]. split; [reflexivity|]. split; [split; [apply Z.le_refl|apply zlen_nonneg]|exact Hs1]. }
  split; [|split; [exact (proj1 (proj2 (EndOfLine_T _ _ HG2 H)))|rewrite (proj1 HT); exact HT1]].
  (* the row is empty, and then the entry is written from its start *)
  pose proof H as Hw. unfold cmdEndOfLine in Hw. destruct (GetWidthBetween C s2 (view s2) (zlen (cells s2))) as [w|] eqn:Hgw; [|discriminate]. rewrite (width_between _ _ _ _ HG2 Hgw) in Hw.
  opt Hw. injection Hw as <-. opt Ev0. injection Ev0 as <-.
  pose proof (paints_fields _ _ (puts_paints C _ _ _ _ Ev2)) as (F1 & F2 & F3 & F4 & F5 & F6 & F7 & _). assert (FL : line b0 = line s2) by exact F1.
  apply puts_T in Ev2 as (Em & _); [|apply HG2|apply HG2].
  assert (Hz : zlen (cells s2) = zlen (laid 0 (line s2))) by (rewrite zlen_laid; symmetry; apply zlen_map).
  change (cursor s2) with 0 in Em. rewrite Hz, part_all in Em. set (L := laid 0 (line s2)) in *.
  intros sc Hsc. destruct (HR sc) as (ts & O & [Hrow Hcol] & I). rewrite L1, C1 in *. cbn [Z.to_nat firstn SpecTabScreen.laid] in Hrow, Hcol. rewrite W_nil, Z.add_0_r in Hcol.
  destruct Em as (t2 & O2 & V2). exists (ts ++ t2 ++ [TErase]).
  destruct (Fit_VW s2 (proj1 HG2)) as [HW2 HV2]. assert (HWL : W L <= W (line s2)) by (apply laid_W; [lia|apply HG2]). pose proof (VW_lim s2) as Hlim.
  change (topc s2) with (topc s1) in *. change (termw s2) with (termw s1) in *.
  split; [cbn [out eraseline emit set_cursor]; rewrite O2; change (out s2) with (out s1); rewrite O, <- !app_assoc; reflexivity|].
  rewrite !D_app. assert (HD2 : D t2 (D ts sc) = D (tm L) (D ts sc)) by (rewrite <- V2; symmetry; apply (D_vis C)). rewrite HD2.
  assert (U : upto E (topc s1) L (D (tm L) (D ts sc))).
  { apply (upto_tm E other (topc s1) L [] _ (Forall_nil _) (ok_any _)). apply upto_nil. exact Hcol. }
  destruct (upto_erase E other _ _ _ (ok_any _) U) as [H1 H2]. split; [split|].
  - rewrite HL, (proj2 HT). exact H1.
  - rewrite HL, (proj2 HT). fold L. cbn [cursor eraseline emit set_cursor].
    change (col (erase_right E other (D (tm L) (D ts sc))) = topc s1 + W (firstn (Z.to_nat (zlen (cells s2))) L)). rewrite Hz, to_nat_zlen, firstn_all. exact H2.
  - apply inside_app; [exact I|]. apply inside_app; [|apply inside_other; discriminate]. apply (inside_vis C). rewrite V2. apply inside_tm; [apply ok_any|]. rewrite Hcol. rewrite <- HT1. lia.
Qed.
Lemma history_T s s0 h s' : G s -> (s0 = s \/ s0 = set_hptr s h) ->
  (let* s1 := saveModifiedHistory C s0 in show_history C (set_hptr s1 (hptr s1 + 1))) = Some s' \/
  (let* s1 := saveModifiedHistory C s0 in show_history C (set_hptr s1 (hptr s1 - 1))) = Some s' -> Room s' -> Q s s'.
Proof.
  intros HG H0 H HF'. destruct (saveModifiedHistory C s0) as [s1|] eqn:Hsv; [|destruct H; discriminate].
  assert (Hs1 : exists m, s1 = set_modh s0 m).
  { unfold saveModifiedHistory in Hsv. assert (Hr : s0 = set_modh s0 (modh s0)) by (now destruct s0). destruct (hptr s0 <? zlen (hist C)).
    - opt Hsv. destruct (str_eqb s2 (buf_string s0)); injection Hsv as <-; eauto.
    - injection Hsv as <-. eauto. }
  destruct Hs1 as [md ->]. destruct H0 as [-> | ->]; destruct H as [H|H]; (apply show_T in H; [exact H|exact HG|exact HF']).
Qed.
Lemma PreviousHistory_T s s' : G s -> cmdPreviousHistory C s = Some s' -> Room s' -> Q s s'.
Proof.
  intros HG H HF'. unfold cmdPreviousHistory in H. destruct (zlen (hist C) <=? 0); [injection H as <-; now apply Q_refl|].
  destruct (hptr s <=? 0); [destruct (negb (cycling C)); [injection H as <-; now apply Q_refl|]|].
  - eapply history_T; [exact HG|right; reflexivity|right; exact H|exact HF'].
  - eapply (history_T s s 0); [exact HG|left; reflexivity|right; exact H|exact HF'].
Qed.
Lemma NextHistory_T s s' : G s -> cmdNextHistory C s = Some s' -> Room s' -> Q s s'.
Proof.
  intros HG H HF'. unfold cmdNextHistory in H. destruct (zlen (hist C) <=? 0); [injection H as <-; now apply Q_refl|].
  destruct (zlen (hist C) <? hptr s + 1); [injection H as <-; now apply Q_refl|].
  eapply (history_T s s 0); [exact HG|left; reflexivity|left; exact H|exact HF'].
Qed.

(** SWAPCHAR, when the two units are no tabs. *)
Lemma laid_two c a b : 0 <= c -> tabfree a = true -> tabfree b = true -> laid c [a; b] = [a; b].
Proof. intros Hc Ha Hb. destruct a; try discriminate Ha; destruct b; try discriminate Hb; reflexivity. Qed.
Lemma swap_cok l i j l2 : swap_cells l i j = Some l2 -> cok l -> cok l2.
Proof.
  intros H Hc. unfold swap_cells in H. opt H. pose proof (Forall_index _ _ _ _ Ev Hc) as Ha. pose proof (Forall_index _ _ _ _ Ev0 Hc) as Hb.
  destruct (Forall_set_index _ _ _ _ _ Ev1 Hc Hb) as [H1 _]. now destruct (Forall_set_index _ _ _ _ _ H H1 Ha).
Qed.
Lemma swap_paint s s2 s' p a b q : G s -> line s = p ++ [a; b] ++ q -> line s2 = p ++ [b; a] ++ q -> tabfree a = true -> tabfree b = true ->
  out s2 = out s ++ [TGoto (topc s + 1)] -> view s2 = 0 -> cursor s2 = zlen p + 2 -> topc s2 = topc s -> termw s2 = termw s -> suffix s2 = None -> cok (cells s2) ->
  puts C s2 (view s2) (cursor s2) = Some s' -> Q s s'.
Proof.
  intros HG Hl Hl2 Ta Tb Ho Hv2 Hc2 Ht2 Hw2 Hs2 Hk2 H. pose proof HG as (HF & Hc & Hv & Hcu & Hs). destruct (Fit_VW s HF) as [HW HV].
  assert (HF2 : Fit s2).
  { destruct HF as (F1 & F2 & F3 & F4). unfold Fit. rewrite Hl2, Ht2, Hw2. rewrite Hl in *. rewrite !W_app, !W_cons, W_nil in *. split; [|split; [exact F2|lia]].
    apply Forall_app in F1 as [U1 U2]. apply Forall_app in U2 as [_ U2]. apply Forall_app. split; [exact U1|]. apply Forall_app. split; [|exact U2]. constructor; [now left|]. constructor; [now left|constructor]. }
  pose proof (paints_fields _ _ (puts_paints C _ _ _ _ H)) as (P1 & P2 & P3 & P4 & P5 & P6 & P7 & _). assert (PL : line s' = line s2) by exact P1.
  apply puts_T in H as (Em & _ & Hb & Hk); [|apply HF2|apply HF2]. rewrite Hv2, Hc2, part0 in Em.
  set (pw0 := W (laid 0 p)). pose proof (W_pos (laid 0 p)) as Hpw. fold pw0 in Hpw. pose proof (width_any a). pose proof (width_any b).
  set (tl := laid (pw0 + width E a + width E b) q).
  assert (L1 : laid 0 (line s) = (laid 0 p ++ [a; b]) ++ tl).
  { rewrite Hl, laid_app by lia. rewrite Z.add_0_l. fold pw0. rewrite laid_app by lia. rewrite laid_two by auto. rewrite !W_cons, W_nil, <- app_assoc. unfold tl. do 3 f_equal. lia. }
  assert (L2 : laid 0 (line s2) = (laid 0 p ++ [b; a]) ++ tl).
  { rewrite Hl2, laid_app by lia. rewrite Z.add_0_l. fold pw0. rewrite laid_app by lia. rewrite laid_two by auto. rewrite !W_cons, W_nil, <- app_assoc. unfold tl. do 3 f_equal. lia. }
  assert (Hf : firstn (Z.to_nat (zlen p + 2)) (laid 0 (line s2)) = laid 0 p ++ [b; a]).
  { rewrite L2, firstn_app. assert (HLn : List.length (laid 0 p ++ [b; a]) = Z.to_nat (zlen p + 2)) by (rewrite app_length; pose proof (zlen_laid p 0); unfold zlen in *; cbn [List.length]; lia).
    rewrite <- HLn, firstn_all, Nat.sub_diag. cbn [firstn]. apply app_nil_r. }
  rewrite Hf in Em.
  assert (HWn : W (laid 0 p ++ [b; a]) = W (laid 0 p ++ [a; b])) by (rewrite !W_app, !W_cons, W_nil; lia).
  assert (HWL : W (laid 0 (line s)) <= W (line s)) by (apply laid_W; [lia|apply HF]).
  split; [|split; [|congruence]].
  - intros sc [Hrow Hcol].
    assert (Em' : emits s s' ([TGoto (topc s + 1)] ++ tm (laid 0 p ++ [b; a]))).
    { eapply emits_trans; [|exact Em]. exists [TGoto (topc s + 1)]. split; [exact Ho|reflexivity]. }
    apply (R_emits _ s s' _ sc Em'). rewrite D_app. set (sc1 := D [TGoto (topc s + 1)] sc). assert (C1 : col sc1 = topc s) by (unfold sc1; cbn; lia).
    rewrite L1 in Hrow, HWL.
    split; [split|].
    + rewrite P7, PL, Ht2, L2. apply (full_replace E other (topc s) (laid 0 p ++ [a; b])); [apply ok_any|apply ok_any|exact HWn|exact Hrow|exact C1].
    + rewrite P7, PL, Ht2, P5, Hc2, Hf, col_tm, C1. reflexivity.
    + apply inside_app; [apply inside_other; discriminate|]. apply inside_tm; [apply ok_any|]. fold sc1. rewrite C1, HWn. rewrite W_app in HWL. pose proof (W_pos tl). pose proof (VW_lim s). lia.
  - split; [apply (Fit_same s2); auto|]. split; [now apply Hk|]. rewrite P4, P5, P3, PL, Hv2, Hs2, Hc2. repeat split; auto; pose proof (zlen_nonneg p); lia.
Qed.
Lemma part_two (p q : list moji) a b x y : 0 <= x <= zlen p -> zlen p + 2 <= y -> Forall (fun m => tabfree m = true) (part (p ++ [a; b] ++ q) x y) -> tabfree a = true /\ tabfree b = true.
Proof.
  intros Hx Hy H. rewrite (part_split _ x (zlen p) y) in H by lia. apply Forall_app in H as [_ H]. rewrite (part_split _ (zlen p) (zlen p + 2) y) in H by lia. apply Forall_app in H as [H _].
  assert (Hp : part (p ++ [a; b] ++ q) (zlen p) (zlen p + 2) = [a; b]).
  { unfold part. rewrite to_nat_zlen, skipn_app, skipn_all, Nat.sub_diag. replace (Z.to_nat (zlen p + 2 - zlen p)) with 2%nat by lia. reflexivity. }
  rewrite Hp in H. inversion_clear H as [|? ? Ha Hb]. inversion_clear Hb. auto.
Qed.
Lemma SwapChar_T s s' : G s -> Forall (fun m => tabfree m = true) (part (line s) (Z.max 0 (cursor s - 2)) (cursor s + 1)) -> cmdSwapChar C s = Some s' -> Q s s'.
Proof.
  intros HG Hu H. pose proof HG as (HF & Hc & Hv & Hcu & Hs). unfold cmdSwapChar in H. destruct (zlen (cells s) =? cursor s) eqn:Hend.
  - destruct (cursor s <? 2) eqn:Hc2; [injection H as <-; now apply Q_refl|]. opt H. cbn [cells push_undo set_undoes] in Ev0. pose proof (swap_cok _ _ _ _ Ev0 Hc) as Hk.
    apply swap_ref in Ev0. change (emojis (cells s)) with (line s) in Ev0. replace (cursor s - 1) with (cursor s - 2 + 1) in Ev0 by lia. apply aswap_shape in Ev0 as (p & a & b & q & Hl & Hl' & Hz).
    rewrite Hl in Hu. apply part_two in Hu as [Ta Tb]; [|lia|lia].
    refine (swap_paint s _ s' p a b q HG Hl _ Ta Tb _ _ _ _ _ _ _ H); [exact Hl'|..|exact Hk]; cbn [out view cursor topc termw suffix GotoHead emit set_cells push_undo set_undoes]; auto. lia.
  - destruct (cursor s <? 1) eqn:Hc2; [injection H as <-; now apply Q_refl|]. opt H. cbn [cells push_undo set_undoes] in Ev1. pose proof (swap_cok _ _ _ _ Ev1 Hc) as Hk.
    apply swap_ref in Ev1. change (emojis (cells s)) with (line s) in Ev1. replace (cursor s) with (cursor s - 1 + 1) in Ev1 at 2 by lia. apply aswap_shape in Ev1 as (p & a & b & q & Hl & Hl' & Hz).
    rewrite Hl in Hu. apply part_two in Hu as [Ta Tb]; [|lia|lia].
    assert (Hw : (ViewWidth s <=? z) = false) by (pose proof (width_between (push_undo s (mkUndo (cursor s - 1) 2 s0)) _ _ _ HG Ev0) as Hx; change (ViewWidth (push_undo s (mkUndo (cursor s - 1) 2 s0))) with (ViewWidth s) in Hx; lia).
    cbv zeta in H. change (ViewWidth (GotoHead (set_cells (push_undo s (mkUndo (cursor s - 1) 2 s0)) l))) with (ViewWidth s) in H. rewrite Hw in H.
    refine (swap_paint s _ s' p a b q HG Hl _ Ta Tb _ _ _ _ _ _ _ H); [exact Hl'|..|exact Hk]; cbn [out view cursor topc termw suffix GotoHead emit set_cells push_undo set_undoes set_cursor]; auto. lia.
Qed.

Lemma exec_T c s s' r : G s -> (forall f, c <> CUser f) -> c <> CInterrupt ->
  (c = CSwapChar -> Forall (fun m => tabfree m = true) (part (line s) (Z.max 0 (cursor s - 2)) (cursor s + 1))) ->
  exec C c s = Some (s', r) -> Room s' -> Q s s'.
Proof.
  intros HG HU HI HS H HF. destruct c; cbn [exec] in H; try (exfalso; now apply HI); try (exfalso; now apply (HU f));
    try (unfold continue_ in H; match type of H with (match ?o with Some _ => _ | None => _ end) = _ => destruct o as [s1|] eqn:Ho; [|discriminate] end; injection H as <- <-).
  - injection H as <- <-. now apply Q_refl.
  - apply Q0_Q. eapply BeginningOfLine_T; eauto.
  - eapply BackwardChar_T; eauto.
  - eapply EndOfLine_T; eauto.
  - eapply ForwardChar_T; eauto.
  - eapply BackwardDelete_T; eauto.
  - apply Q0_Q. eapply DeleteChar_T; eauto.
  - unfold cmdDeleteOrAbort in H. destruct (0 <? zlen (cells s)).
    + opt H. injection H as <- <-. apply Q0_Q. eapply DeleteChar_T; eauto.
    + injection H as <- <-. now apply Q_refl.
  - eapply KillLine_T; eauto.
  - apply Q0_Q. eapply KillWhole_T; eauto.
  - apply Q0_Q. eapply WordRubout_T; eauto.
  - apply Q0_Q. eapply LineDiscard_T; eauto.
  - apply Q0_Q. eapply RepaintAll_T; eauto. intros m [Hm|[]]. discriminate.
  - apply Q0_Q. eapply RepaintAll_T; eauto. intros m [Hm|[]]. discriminate.
  - injection H as <- <-. now apply Q_refl.
  - unfold cmdYank in Ho. destruct (clip s); [|injection Ho as <-; now apply Q_refl]. eapply Yank_T; eauto.
  - unfold cmdYankWithQuote in Ho. destruct (clip s); [|injection Ho as <-; now apply Q_refl]. eapply Yank_T; eauto.
  - eapply SwapChar_T; eauto.
  - apply Q0_Q. eapply BackwardWord_T; eauto.
  - eapply ForwardWord_T; eauto.
  - eapply Undo_T; eauto.
  - eapply PreviousHistory_T; eauto.
  - eapply NextHistory_T; eauto.
  - injection H as <- <-. now apply Q_refl.
  - eapply selfInsert_T; eauto.
Qed.
End Screen.
