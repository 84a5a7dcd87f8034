(** Every command keeps the screen right, tabs and scrolling included, when the row is taken to
    be as long as need be. *)
From Verif Require Import Base Utf8 Moji Color Prompt Buffer Commands KeyMap Session MojiFacts Abs AbsRef AbsSess
  AbsSafe AbsInv Safe Spec SpecScreen SpecTabScreen SpecTabScroll ScreenFacts ScreenPaint ScreenCmd TabScreen.
Ltac lia := unfold rune in *; Lia.lia.

Section Screen.
Variable C : cfg.
Notation E := (cE C).
Hypothesis HE : env_ok E.
Variable other : terminal.
Notation D := (display E other).
Notation W := (total_width E).
Notation ok := (Forall (fun m => 0 <= width E m)).
Notation laid := (laid E).
Notation oka := (ok_any C HE).
Notation Wp := (W_pos C HE).

(** ** Rows *)
Lemma blank_stays l : forall sc x, col sc + W l <= x -> row sc x = Blank -> row (D (tm l) sc) x = Blank.
Proof.
  induction l as [|m l IH]; intros sc x Hx H; [exact H|]. rewrite D_tm_cons. rewrite W_cons in Hx. pose proof (Wp l). pose proof (width_any C HE m).
  apply IH; [cbn; lia|]. cbn [row put]. replace ((col sc <=? x) && (x <? col sc + width E m)) with false by lia. now rewrite H.
Qed.
Lemma full_cover c old new sc : full E c old sc -> col sc = c -> W old <= W new -> full E c new (D (tm new) sc).
Proof.
  intros H Hc Hw x Hx. assert (U : upto E c new (D (tm new) sc)) by (apply (upto_tm E other c new [] sc (Forall_nil _) (oka _)); now apply upto_nil).
  destruct (Z_lt_dec x (c + W new)) as [Hlt|Hge]; [apply U; lia|].
  rewrite image_after by (apply oka || lia). apply blank_stays; [lia|]. rewrite H by exact Hx. apply image_after; [apply oka|lia].
Qed.
Lemma part_W l a b c : 0 <= a <= b -> b <= c -> c <= zlen l -> W (part l a b) <= W (part l a c).
Proof. intros H1 H2 H3. rewrite (part_split l a b c) by lia. rewrite W_app. pose proof (Wp (part l b c)). lia. Qed.
(** Writing from the head of the row up to the cursor. *)
Lemma over c l v e k sc : 0 <= v <= e -> v <= k -> e <= zlen l -> k <= zlen l -> full E c (part l v e) sc -> col sc = c ->
  full E c (part l v (Z.max e k)) (D (tm (part l v k)) sc).
Proof.
  intros H1 H2 H3 H4 H Hc. destruct (Z_le_dec k e) as [Hk|Hk].
  - rewrite Z.max_l by lia. rewrite (part_split l v k e) in * by lia. apply (full_over E other c (part l v k) [] (part l k e)); [apply oka|exact H|rewrite W_nil; lia].
  - rewrite Z.max_r by lia. eapply full_cover; [exact H|exact Hc|]. apply part_W; lia.
Qed.
(** Writing on from the cursor. *)
Lemma onward c l v k p q sc : 0 <= v <= p -> p <= k -> p <= q -> k <= zlen l -> q <= zlen l -> full E c (part l v k) sc -> col sc = c + W (part l v p) ->
  full E c (part l v (Z.max k q)) (D (tm (part l p q)) sc) /\ col (D (tm (part l p q)) sc) = c + W (part l v q).
Proof.
  intros H1 H2 H3 H4 H5 H Hc. split; [|rewrite col_tm, Hc, (part_split l v p q) by lia; rewrite W_app; lia].
  destruct (Z_le_dec q k) as [Hq|Hq].
  - rewrite Z.max_l by lia. rewrite (part_split l v p k), (part_split l p q k) in * by lia. apply (full_over E other c (part l p q) (part l v p) (part l q k)); [apply oka|exact H|exact Hc].
  - rewrite Z.max_r by lia. rewrite (part_split l p k q) by lia. unfold tm. rewrite map_app. fold (tm (part l p k)). fold (tm (part l k q)). rewrite D_app, (part_split l v k q) by lia.
    assert (Hc2 : col (D (tm (part l p k)) sc) = c + W (part l v k)) by (rewrite col_tm, Hc, (part_split l v p k) by lia; rewrite W_app; lia).
    apply full_extend; [apply oka|apply oka| |exact Hc2].
    rewrite (part_split l v p k) in * by lia. pose proof (full_over E other c (part l p k) (part l v p) [] sc) as X. rewrite app_nil_r in X. apply X; [apply oka|exact H|exact Hc].
Qed.

(** ** States *)
Definition Room (s : buf) : Prop := Forall ut (line s) /\ W (line s) <= 32767.
Definition fresh (s : buf) : Prop := map c_moji (cells s) = laid 0 (line s).
Definition G0 (s : buf) : Prop := Room s /\ 0 <= view s <= cursor s /\ cursor s <= zlen (line s).
Definition G (s : buf) : Prop := G0 s /\ fresh s.
Notation shown := (shows_scrolled E).
Definition R0 (s s' : buf) : Prop := forall sc, exists ts, out s' = out s ++ ts /\ shown s' (D ts sc).
Definition R (s s' : buf) : Prop := forall sc, shown s sc -> exists ts, out s' = out s ++ ts /\ shown s' (D ts sc).
Definition Q0 (s s' : buf) : Prop := R0 s s' /\ G s'.
Definition Q (s s' : buf) : Prop := R s s' /\ G s'.
Lemma Q0_Q s s' : Q0 s s' -> Q s s'.
Proof. intros (H1 & H2). split; [|exact H2]. intros sc _. apply H1. Qed.
Lemma Q0_pre s0 s s' ts : out s = out s0 ++ ts -> Q0 s s' -> Q0 s0 s'.
Proof.
  intros H1 (H4 & H5). split; [|exact H5]. intros sc. destruct (H4 (D ts sc)) as (t1 & O & Sh). exists (ts ++ t1).
  split; [rewrite O, H1; now rewrite app_assoc|]. now rewrite D_app.
Qed.
Lemma Q0_same s0 s s' : out s = out s0 -> Q0 s s' -> Q0 s0 s'.
Proof. intros H1. apply (Q0_pre s0 s s' []). now rewrite app_nil_r. Qed.
Lemma Q_trans s s1 s2 : Q s s1 -> Q s1 s2 -> Q s s2.
Proof.
  intros (H1 & H2) (H4 & H5). split; [|exact H5]. intros sc Hs. destruct (H1 sc Hs) as (t1 & O1 & S1). destruct (H4 _ S1) as (t2 & O2 & S2).
  exists (t1 ++ t2). split; [rewrite O2, O1; now rewrite app_assoc|]. now rewrite D_app.
Qed.
Lemma Q_refl s : G s -> Q s s.
Proof. intros H. split; [|exact H]. intros sc Hs. exists []. rewrite app_nil_r. auto. Qed.
Lemma Q_quiet s ts : G s -> vis ts = [] -> Q s (emit s ts).
Proof. intros H Hv. split; [|exact H]. intros sc Hs. exists ts. split; [reflexivity|]. now rewrite <- (D_vis C), Hv. Qed.
Lemma R_emits s s' vs sc : emits s s' vs -> shown s' (D vs sc) -> exists ts, out s' = out s ++ ts /\ shown s' (D ts sc).
Proof. intros (ts & H1 & <-) H2. exists ts. split; [exact H1|]. now rewrite (D_vis C) in H2. Qed.
Lemma Room_same s s' : line s' = line s -> Room s -> Room s'.
Proof. unfold Room. now intros ->. Qed.

Lemma puts_S s a b s' : Room s -> puts C s a b = Some s' ->
  emits s s' (tm (part (laid 0 (line s)) a b)) /\ 0 <= a <= b /\ b <= zlen (line s) /\ fresh s'.
Proof.
  intros [Hu Hw] H. pose proof (paints_fields _ _ (puts_paints C _ _ _ _ H)) as (F1 & _). pose proof H as H0. apply (puts_T C HE) in H0 as (H1 & H2 & H3 & _); auto.
  split; [exact H1|]. split; [exact H2|]. split; [exact H3|]. unfold fresh. assert (FL : line s' = line s) by exact F1. rewrite FL.
  unfold puts in H. destruct (refreshColor C s) as [s1|] eqn:Hr; [|discriminate]. opt H. injection H as <-.
  unfold refreshColor in Hr. destruct (refresh_loop C (cursor s) 0 0 [] (cells s)) as [[l7 p7]|] eqn:Hrl; [|discriminate]. injection Hr as <-. cbn [cells set_cells emit].
  eapply (refresh_laid C HE); [exact Hu|lia| |exact Hrl]. change (emojis (cells s)) with (line s). lia.
Qed.
(** A prediction is painted after the part of the line that fits by the widths of the last
    refresh.  These are right, or all of the rest of the line fits by them. *)
Definition ready (s : buf) : Prop := cursor s = zlen (line s) -> 0 < ViewWidth s ->
  fresh s \/ exists d, slice (cells s) (view s) (zlen (cells s)) = Some d /\ range_width C d < ViewWidth s.
Lemma view_S s e w : getView2 C s = Some (e, w) -> exists d n, slice (cells s) (view s) (zlen (cells s)) = Some d /\ e = view s + Z.of_nat n /\
  (n <= List.length d)%nat /\ 0 <= w /\ (0 < ViewWidth s -> w = range_width C (firstn n d) /\
    forall j, (j <= List.length d)%nat -> range_width C (firstn j d) < ViewWidth s -> (j <= n)%nat).
Proof.
  unfold getView2, getView. intros H. destruct (slice (cells s) (view s) (zlen (cells s))) as [d|]; [|discriminate].
  destruct (view_fit C (ViewWidth s) 0 d) as [n w1] eqn:Hf. destruct (slice (cells s) (view s) (cursor s)); [|discriminate]. injection H as <- <-.
  exists d, n. split; [reflexivity|]. split; [reflexivity|]. destruct (Z_lt_dec 0 (ViewWidth s)) as [HV|HV].
  - apply (view_fit_spec C) in Hf as (H1 & H2 & H3 & H4); [|lia]. split; [exact H3|]. split; [rewrite H1, range_W; pose proof (Wp (map c_moji (firstn n d))); lia|].
    intros _. split; [lia|]. intros j Hj Hw. apply (H4 j Hj (oka _)). lia.
  - destruct d as [|c d]; cbn [view_fit] in Hf; [injection Hf as <- <-; cbn; split; [lia|]; split; [lia|intros; lia]|].
    pose proof (width_any C HE (c_moji c)). replace (ViewWidth s <=? 0 + width E (c_moji c)) with true in Hf by lia. injection Hf as <- <-. split; [lia|]. split; [lia|intros; lia].
Qed.
Lemma suffix_S vw w l ts : paint_suffix C vw w l = Some ts -> exists p r, l = p ++ r /\ ts = tm p /\ (p = [] \/ w + W p < vw).
Proof.
  intros H. destruct (Z_lt_dec w vw) as [Hw|Hw].
  - apply (paint_suffix_emits C) in H as (p & r & H1 & H2 & H3); [|exact Hw]. exists p, r. auto.
  - exists [], l. split; [reflexivity|]. split; [|now left]. destruct l as [|m l]; cbn [paint_suffix] in H; [now injection H as <-|].
    pose proof (width_any C HE m). replace (vw <=? w + width E m) with true in H by lia. now injection H as <-.
Qed.
Lemma slice_laid s v d : fresh s -> slice (cells s) v (zlen (cells s)) = Some d -> forall n, range_width C (firstn n d) = W (part (laid 0 (line s)) v (v + Z.of_nat n)).
Proof.
  intros Hf H n. apply slice_some in H as (H1 & _ & ->). unfold fresh in Hf. rewrite <- Hf, range_W. unfold part. rewrite skipn_map, <- !firstn_map. replace (v + Z.of_nat n - v) with (Z.of_nat n) by lia. rewrite Nat2Z.id.
  f_equal. f_equal. apply firstn_all2. rewrite map_length, skipn_length. unfold zlen. lia.
Qed.
Lemma repaintW_S s s' : repaintWithoutUpdateSuffix C s = Some s' -> Room s -> ready s -> Q0 s s'.
Proof.
  intros H HR Hrd. pose proof (repaintW_paints C s s' H) as Hp. unfold repaintWithoutUpdateSuffix in H.
  destruct (getView2 C s) as [[e w]|] eqn:Hg; [|discriminate].
  destruct (puts C (GotoHead s) (view (GotoHead s)) e) as [s2|] eqn:Hp1; [|discriminate].
  pose proof (paints_fields _ _ (puts_paints C _ _ _ _ Hp1)) as (F1 & F2 & F3 & F4 & F5 & F6 & F7 & _).
  apply puts_S in Hp1 as (Em1 & B1 & B2 & _); [|exact HR]. change (line (GotoHead s)) with (line s) in *. change (view (GotoHead s)) with (view s) in *.
  assert (ZC : zlen (line s) = zlen (cells s)) by apply zlen_map.
  assert (L2 : line s2 = line s) by exact F1.
  match type of H with (match ?o with Some _ => _ | None => _ end) = _ => assert (Ho : o = o) by reflexivity; destruct o as [s3|] eqn:Hs3 in H; [|discriminate]; clear Ho end.
  assert (Hpr : exists pred ts, s3 = emit s2 ts /\ vis ts = tm pred /\
    (pred = [] \/ cursor s = zlen (line s) /\ (exists rest, suffix s = Some (pred ++ rest)) /\ w + W pred < ViewWidth s)).
  { assert (None3 : s3 = s2 -> exists pred ts, s3 = emit s2 ts /\ vis ts = tm pred /\ (pred = [] \/ cursor s = zlen (line s) /\ (exists rest, suffix s = Some (pred ++ rest)) /\ w + W pred < ViewWidth s)).
    { intros ->. exists [], []. split; [destruct s2; unfold emit; cbn; now rewrite app_nil_r|]. auto. }
    destruct (pcolor0 C) as [|y0 y1] eqn:HP; [injection Hs3 as <-; auto|]. destruct (suffix s2) as [[|z0 z1]|] eqn:Hsu; [injection Hs3 as <-; auto| |injection Hs3 as <-; auto].
    opt Hs3. injection Hs3 as <-. unfold Suffix in Ev. rewrite HP, Hsu in Ev. apply suffix_S in Ev as (pr & r & E1 & -> & E3).
    exists pr, (TAttr (y0 :: y1) :: tm pr ++ [TAttr (pcolor1 C)]). split; [reflexivity|]. split.
    { change (TAttr (y0 :: y1) :: tm pr ++ [TAttr (pcolor1 C)]) with ([TAttr (y0 :: y1)] ++ tm pr ++ [TAttr (pcolor1 C)]). rewrite !vis_app, vis_tm. cbn. apply app_nil_r. }
    destruct E3 as [E3|E3]; [now left|]. destruct (cursor s2 =? zlen (cells s2)) eqn:Hce; [|destruct pr; [now left|discriminate]]. right.
    assert (zlen (cells s2) = zlen (line s)) by (rewrite <- L2; symmetry; apply zlen_map). rewrite F5 in Hce. cbn [cursor GotoHead emit] in Hce. split; [lia|].
    cbn [suffix GotoHead emit] in F3. split; [exists r; rewrite <- E1; symmetry; exact F3|].
    unfold ViewWidth in *. rewrite F6, F7 in E3. exact E3. }
  clear Hs3. destruct Hpr as (pred & tp & -> & Hvp & Hpred).
  assert (L3 : line (GotoHead (eraseline (emit s2 tp))) = line s) by exact F1.
  pose proof (paints_fields _ _ Hp) as (P1 & P2 & P3 & P4 & P5 & P6 & P7 & _).
  apply puts_S in H as (Em2 & B3 & B4 & Hfr); [|now apply (Room_same s)]. rewrite L3 in Em2, B4. cbn [view cursor GotoHead eraseline emit] in Em2, B3, B4. rewrite F4, F5 in Em2, B3. rewrite F5 in B4. cbn [view cursor GotoHead emit] in Em2, B3, B4.
  set (L := laid 0 (line s)) in *. assert (ZL : zlen L = zlen (line s)) by apply zlen_laid.
  assert (Em : emits s s' (([TGoto (topc s + 1)] ++ tm (part L (view s) e ++ pred) ++ [TErase]) ++ [TGoto (topc s + 1)] ++ tm (part L (view s) (cursor s)))).
  { unfold tm at 1. rewrite map_app. fold (tm (part L (view s) e)). fold (tm pred). rewrite <- !app_assoc. eapply emits_trans; [apply (emits_emit s [TGoto (topc s + 1)])|]. eapply emits_trans; [exact Em1|].
    apply (emits_trans _ (emit s2 tp)); [exists tp; split; [reflexivity|exact Hvp]|].
    change ([TErase] ++ [TGoto (topc s + 1)] ++ ?a) with ([TErase; TGoto (topc s + 1)] ++ a).
    eapply emits_trans; [|exact Em2]. exists [TErase; TGoto (topc s2 + 1)]. split; [cbn; now rewrite <- app_assoc|]. cbn. rewrite F7. reflexivity. }
  assert (PL : line s' = line s) by exact P1.
  split; [|split; [|exact Hfr]].
  2:{ split; [now apply (Room_same s)|]. rewrite P4, P5, PL. auto. }
  intros sc. apply (R_emits _ _ _ _ Em). rewrite D_app.
  destruct (screen_row E other (topc s) (part L (view s) e ++ pred) sc _ (oka _) (Z.le_refl _)) as (S1 & S2 & _). rewrite D_app, D_goto. set (sc1 := D (_ ++ _) sc) in *.
  destruct Hpred as [-> | (Hce & Hrest & Hwp)].
  - rewrite app_nil_r in S1. exists (Z.max e (cursor s)), []. rewrite P4, P5, P7, PL, app_nil_r. fold L. split; [lia|]. split; [now left|]. split.
    + apply over; try lia; [exact S1|reflexivity].
    + rewrite col_tm. reflexivity.
  - pose proof (Wp pred) as HWp. apply view_S in Hg as (d & n & Hd & He & Hn & Hw0 & Hg). assert (HV : 0 < ViewWidth s) by lia. destruct (Hg HV) as [Hw1 Hmax].
    assert (Hdl : zlen d = zlen (cells s) - view s).
    { apply slice_some in Hd as (X1 & X2 & ->). unfold zlen in *. rewrite firstn_length_le; [lia|]. rewrite skipn_length. lia. }
    destruct (Z_lt_dec e (zlen (line s))) as [Hlt|Hge].
    + destruct (Hrd Hce HV) as [Hf|(d' & Hd' & Hfit)].
      * assert (Hcov : W (part L (view s) e ++ pred) <= W (part L (view s) (cursor s))).
        { rewrite W_app. rewrite (slice_laid s _ _ Hf Hd) in Hw1. rewrite <- He in Hw1. fold L in Hw1.
          assert (ViewWidth s <= W (part L (view s) (e + 1))).
          { destruct (Z_lt_dec (W (part L (view s) (e + 1))) (ViewWidth s)) as [Hx|Hx]; [|lia]. exfalso.
            specialize (Hmax (Datatypes.S n)). rewrite (slice_laid s _ _ Hf Hd) in Hmax. fold L in Hmax. replace (view s + Z.of_nat (Datatypes.S n)) with (e + 1) in Hmax by lia.
            specialize (Hmax ltac:(unfold zlen in *; lia) Hx). lia. }
          pose proof (part_W L (view s) (e + 1) (cursor s) ltac:(lia) ltac:(lia) ltac:(lia)). lia. }
        exists (cursor s), []. rewrite P4, P5, P7, PL, app_nil_r. fold L. split; [lia|]. split; [now left|]. split.
        -- eapply full_cover; [exact S1|reflexivity|exact Hcov].
        -- rewrite col_tm. reflexivity.
      * exfalso. rewrite Hd in Hd'. injection Hd' as <-. specialize (Hmax (List.length d) (le_n _)). rewrite firstn_all in Hmax. specialize (Hmax Hfit). unfold zlen in *. lia.
    + assert (e = cursor s) by lia. exists (cursor s), pred. rewrite P3, P4, P5, P7, PL. fold L. split; [lia|]. split; [right; split; [exact Hce|exact Hrest]|]. split.
      * rewrite H in S1. apply (full_over E other (topc s) (part L (view s) (cursor s)) [] pred); [apply oka|exact S1|rewrite W_nil; cbn; lia].
      * rewrite col_tm. reflexivity.
Qed.
Lemma ready_suffix s x : ready s -> ready (set_suffix s x). Proof. exact (fun H => H). Qed.
Lemma repaint_S s s' : repaint C s = Some s' -> Room s' -> ready s -> Q0 s s'.
Proof.
  unfold repaint. destruct (updateSuffix_fields C s) as [x Hx]. rewrite Hx. intros H HR Hrd. pose proof (paints_fields _ _ (repaintW_paints C _ s' H)) as (P1 & _).
  apply (Q0_same s (set_suffix s x)); [reflexivity|]. apply repaintW_S; [exact H| |now apply ready_suffix]. apply (Room_same s'); [symmetry; exact P1|exact HR].
Qed.
(** When it is so. *)
Lemma ready_fresh s : fresh s -> ready s. Proof. intros H _ _. now left. Qed.
Lemma ready_fresh' s s0 : fresh s0 -> cells s = cells s0 -> ready s.
Proof. intros H Hc. apply ready_fresh. unfold fresh, line in *. now rewrite Hc. Qed.
Lemma fresh_prefix s0 n l : fresh s0 -> l = firstn n (cells s0) -> map c_moji l = laid 0 (emojis l).
Proof. intros H ->. unfold fresh in H. unfold emojis. rewrite <- !firstn_map, H, laid_firstn. reflexivity. Qed.
(** Deleting what is before the cursor. *)
Lemma ready_delete s pos n s1 w s2 : fresh s -> Delete C s pos n = Some (s1, w) -> cells s2 = cells s1 -> cursor s2 = pos -> ready s2.
Proof.
  intros Hf H Hc Hcu. unfold Delete in H. destruct ((n <=? 0) || (zlen (cells s) <? pos + n)) eqn:Hg; [injection H as <- _; now apply (ready_fresh' s2 s)|].
  opt H. injection H as <- _. cbn [cells push_undo set_undoes set_cells] in *. destruct (Z_le_dec 0 pos) as [H1|H1].
  - rewrite sliceDelete_firstn in Ev1 by lia. injection Ev1 as <-. intros He _. left.
    assert (Hz : zlen (line s2) = pos + zlen (skipn (Z.to_nat (pos + n)) (cells s))).
    { unfold line. rewrite zlen_map, Hc, zlen_app. f_equal. unfold zlen in *. rewrite firstn_length_le; lia. }
    assert (Hn : skipn (Z.to_nat (pos + n)) (cells s) = []) by (destruct (skipn (Z.to_nat (pos + n)) (cells s)); [reflexivity|]; rewrite zlen_cons in Hz; pose proof (zlen_nonneg l); lia).
    rewrite Hn, app_nil_r in Hc. unfold fresh, line. rewrite Hc. eapply fresh_prefix; [exact Hf|reflexivity].
  - intros He _. pose proof (zlen_nonneg (line s2)). lia.
Qed.
(** After ResetViewStart everything from ViewStart up to the end fits when the cursor is there. *)
Lemma rvs_shrink_S vw : 0 < vw -> forall seg l w vs, w = range_width C seg -> exists a b, seg = a ++ b /\ rvs_shrink C vw w vs (seg ++ l) = (range_width C b, vs + zlen a, b ++ l, false) /\ range_width C b < vw.
Proof.
  intros Hv. induction seg as [|c seg IH]; intros l w vs Hw.
  - exists [], []. cbn in Hw. subst w. split; [reflexivity|]. cbn [app range_width]. split; [|lia]. replace (vs + zlen []) with vs by (unfold zlen; cbn; lia). destruct l; cbn [rvs_shrink]; replace (vw <=? 0) with false by lia; reflexivity.
  - cbn [app rvs_shrink]. destruct (vw <=? w) eqn:Hx.
    + destruct (IH l (w - width E (c_moji c)) (vs + 1)) as (a & b & -> & Hr & Hb); [cbn [range_width] in Hw; lia|]. exists (c :: a), b. split; [reflexivity|]. split; [|exact Hb]. rewrite Hr, zlen_cons. do 3 f_equal. lia.
    + exists [], (c :: seg). subst w. split; [reflexivity|]. split; [|lia]. replace (vs + zlen []) with vs by (unfold zlen; cbn; lia). reflexivity.
Qed.
Lemma rvs_S vw cur : 0 < vw -> forall l i w vs seg pre, w = range_width C seg -> w < vw -> zlen pre = vs -> i + zlen l <= cur ->
  exists a b, pre ++ seg ++ l = a ++ b /\ zlen a = rvs_loop C vw cur i w vs (seg ++ l) l /\ range_width C b < vw.
Proof.
  intros Hv. induction l as [|c l IH]; intros i w vs seg pre Hw Hlt Hp Hi; cbn [rvs_loop].
  - exists pre, seg. rewrite app_nil_r. repeat split; auto. lia.
  - rewrite zlen_cons in Hi. pose proof (zlen_nonneg l). replace (i <=? cur) with true by lia.
    destruct (rvs_shrink_S vw Hv (seg ++ [c]) l (w + width E (c_moji c)) vs) as (a & b & He & Hr & Hb); [rewrite !range_W in *; rewrite map_app, W_app; cbn [map]; rewrite W_cons, W_nil; lia|].
    rewrite <- app_assoc in Hr. cbn [app] in Hr. rewrite Hr.
    destruct (IH (i + 1) (range_width C b) (vs + zlen a) b (pre ++ a)) as (x & y & H1 & H2 & H3); auto; [rewrite zlen_app; lia|lia|].
    exists x, y. split; [|auto]. rewrite <- H1, <- app_assoc. f_equal. change (seg ++ c :: l) with (seg ++ [c] ++ l). rewrite !app_assoc. now rewrite He.
Qed.
Lemma ready_reset s : ready (ResetViewStart C s).
Proof.
  intros He HV. right. assert (Hc : cursor s = zlen (cells s)) by (change (cursor s = zlen (emojis (cells s))) in He; rewrite He; apply zlen_map). change (ViewWidth (ResetViewStart C s)) with (ViewWidth s) in *.
  destruct (rvs_S (ViewWidth s) (cursor s) HV (cells s) 0 0 0 [] []) as (a & b & H1 & H2 & H3); auto; [cbn; lia|]. cbn [app] in H1, H2.
  exists b. split; [|exact H3]. cbn [cells view ResetViewStart set_view]. rewrite <- H2, H1. replace (zlen (a ++ b)) with (zlen a + zlen b) by (symmetry; apply zlen_app).
  pose proof (slice_app_mid a b []) as X. rewrite app_nil_r in X. exact X.
Qed.
Lemma repaint_line s s' : repaint C s = Some s' -> line s' = line s /\ termw s' = termw s /\ topc s' = topc s.
Proof. unfold repaint. destruct (updateSuffix_fields C s) as [x ->]. intros H. apply repaintW_paints, paints_fields in H as (H1 & _ & _ & _ & _ & H6 & H7 & _). auto. Qed.

(** ** The commands *)
Ltac fin H HR := eapply Q0_same; [|apply (repaint_S _ _ H); [exact HR|]]; [reflexivity|].
Ltac rdel Hf Ev := match type of Ev with Delete _ ?x ?p ?n = Some (?a, ?w) => assert (Rd : forall s2, cells s2 = cells a -> cursor s2 = p -> ready s2) by (intros s2; exact (ready_delete x p n a w s2 Hf Ev)) end.
Ltac cut H := match type of H with context [if ?b then _ else _] => destruct b end.
Lemma BeginningOfLine_S s s' : G s -> cmdBeginningOfLine C s = Some s' -> Room s' -> Q0 s s'.
Proof. intros ((HR & Hv & Hc) & Hfr) H HR'. unfold cmdBeginningOfLine in H. fin H HR'; (apply (ready_fresh' _ s Hfr); reflexivity). Qed.
Lemma BackwardChar_S s s' : G s -> cmdBackwardChar C s = Some s' -> Room s' -> Q s s'.
Proof.
  intros HG H HR'. pose proof HG as ((HR & Hv & Hc) & Hfr). unfold cmdBackwardChar in H. destruct (cursor s <=? 0) eqn:H0; [injection H as <-; now apply Q_refl|]. apply Q0_Q.
  cbn [cursor view set_cursor] in H. destruct (cursor s - 1 <? view s); fin H HR'; (apply (ready_fresh' _ s Hfr); reflexivity).
Qed.
Lemma BackwardDelete_S s s' : G s -> cmdBackwardDeleteChar C s = Some s' -> Room s' -> Q s s'.
Proof.
  intros HG H HR'. pose proof HG as ((HR & Hv & Hc) & Hfr). unfold cmdBackwardDeleteChar in H.
  destruct (0 <? cursor s) eqn:H0; [|injection H as <-; now apply Q_refl]. apply Q0_Q. opt H.
  rdel Hfr Ev. apply Delete_shape in Ev as (l & us & -> & _). cbn [cursor view set_cursor set_cells set_undoes] in *. cut H; fin H HR'; apply Rd; reflexivity.
Qed.
Lemma DeleteChar_S s s' : G s -> cmdDeleteChar C s = Some s' -> Room s' -> Q0 s s'.
Proof.
  intros HG H HR'. pose proof HG as ((HR & Hv & Hc) & Hfr). unfold cmdDeleteChar in H. opt H. rdel Hfr Ev. apply Delete_shape in Ev as (l & us & -> & _). fin H HR'; apply Rd; reflexivity.
Qed.
Lemma insert_cells s pos t s1 l : insertString C s pos t = Some (s1, l) -> cells s1 = firstn (Z.to_nat pos) (cells s) ++ l ++ skipn (Z.to_nat pos) (cells s).
Proof.
  intros H. pose proof (insert_shape C _ _ _ _ _ H) as (_ & _ & _ & Hp & _). rewrite (zlen_map c_emoji (cells s)) in Hp || (unfold line, emojis in Hp; rewrite zlen_map in Hp).
  unfold insertString, insert in H. opt H. injection H as <- <-. opt Ev. injection Ev as <-. cbn [cells push_undo set_undoes set_cells]. rewrite sliceInsert_firstn in Ev0 by lia. now injection Ev0 as <-.
Qed.
Lemma self_tail_S s k s' : G s -> self_insert_tail C s k = Some s' -> Room s' -> Q0 s s'.
Proof.
  intros HG H HR'. pose proof HG as ((HR & Hv & Hc) & Hfr). unfold self_insert_tail in H. opt H.
  pose proof (insert_cells _ _ _ _ _ Ev) as Hi. pose proof (insert_shape C s _ _ _ _ Ev) as (l0 & us & Hb & Hp & _). subst b. cbv zeta in H. destruct (ViewWidth _ <=? _) eqn:Hx; [fin H HR'; apply ready_reset|].
  fin H HR'. cbn [cells cursor view set_cells set_undoes set_cursor] in *. change (ViewWidth (set_cursor _ _)) with (ViewWidth s) in Hx. intros He _. right.
  change (cells (set_cursor _ _)) with l0. change (view (set_cursor _ _)) with (view s). change (ViewWidth (set_cursor _ _)) with (ViewWidth s).
  change (cursor s + zlen l = zlen (emojis l0)) in He. unfold emojis in He. rewrite zlen_map in He. unfold GetWidthBetween in Ev0. cbn [cells set_cells set_undoes] in Ev0.
  destruct (slice l0 (view s) (cursor s)) as [d|] eqn:Hd; [|discriminate]. injection Ev0 as <-.
  assert (Zc : zlen (line s) = zlen (cells s)) by apply zlen_map. assert (Hcl : cursor s = zlen (cells s)).
  { apply (f_equal zlen) in Hi. rewrite !zlen_app, zlen_firstn in Hi. assert (zlen (skipn (Z.to_nat (cursor s)) (cells s)) = zlen (cells s) - cursor s) by (unfold zlen in *; rewrite skipn_length; lia). lia. }
  rewrite Hcl in Hi. unfold zlen at 1 2 in Hi. rewrite Nat2Z.id, firstn_all, skipn_all, app_nil_r in Hi. subst l0.
  exists (d ++ l). split; [|rewrite !range_W in *; rewrite map_app, W_app; lia].
  apply slice_some in Hd as (D1 & D2 & ->). rewrite Hcl in *. destruct (split_at (cells s) (view s)) as (p0 & q & Hq & Hz); [lia|]. rewrite Hq, <- Hz, !zlen_app.
  replace (Z.to_nat (zlen p0 + zlen q - zlen p0)) with (List.length q) by (unfold zlen; lia). rewrite <- app_assoc. rewrite to_nat_zlen, skipn_app, skipn_all, Nat.sub_diag. cbn [app skipn].
  rewrite firstn_app, firstn_all, Nat.sub_diag. cbn [firstn]. rewrite app_nil_r. pose proof (slice_app_mid p0 (q ++ l) []) as X. rewrite app_nil_r, zlen_app, Z.add_assoc in X. exact X.
Qed.
Lemma Room_sub s s1 p d q : Room s -> line s = p ++ d ++ q -> line s1 = p ++ q -> Room s1.
Proof.
  intros (H1 & H3) HL HL1. unfold Room. rewrite HL1. rewrite HL in *. apply Forall_app in H1 as [U1 U2]. apply Forall_app in U2 as [_ U2].
  rewrite !W_app in *. pose proof (Wp d). split; [apply Forall_app; auto|lia].
Qed.
Lemma selfInsert_S k s s' : G s -> selfInsert C k s = Some s' -> Room s' -> Q s s'.
Proof.
  intros HG H HR'. unfold selfInsert in H. destruct (AreZeroWidthJoin E (altgr k) && (0 <? cursor s)).
  { opt H. exact (BackwardDelete_S (set_pending s _) s' HG H HR'). }
  destruct ((AreVariationSelectorLike E (altgr k) || AreEmojiModifier E (altgr k)) && (0 <? cursor s)).
  { opt H. assert (Hd : exists p d q, line s = p ++ d ++ q /\ line b = p ++ q).
    { apply cmdBackwardDeleteChar_ref in Ev0. apply aBackwardDelete_mid in Ev0. exact Ev0. }
    destruct Hd as (p & d & q & H1 & H2).
    assert (QB : Q s b) by (apply BackwardDelete_S; auto; eapply Room_sub; [apply HG|exact H1|exact H2]).
    eapply Q_trans; [exact QB|]. apply Q0_Q. eapply self_tail_S; [apply QB|exact H|auto]. }
  destruct (pending s).
  - apply Q0_Q. eapply self_tail_S; eauto.
  - apply Q0_Q. exact (self_tail_S (set_pending s []) _ s' HG H HR').
Qed.
Lemma Replace_S s pos t s' : ReplaceAndRepaint C s pos t = Some s' -> Room s' -> Q0 s s'.
Proof.
  intros H HR'. unfold ReplaceAndRepaint in H. opt H. apply Delete_shape in Ev as (l & us & -> & _).
  unfold InsertString in Ev0. opt Ev0. injection Ev0 as <- <-. pose proof (insert_shape C _ _ _ _ _ Ev) as (l1 & us1 & Hb & _). subst b.
  destruct (joinUndo_shape (set_cursor (set_undoes (set_cells (set_undoes (set_cells s l) us) l1) us1) (pos + zlen l0))) as [us2 Hj]. rewrite Hj in H. fin H HR'; apply ready_reset.
Qed.
Lemma WordRubout_S s s' : G s -> cmdUnixWordRubout C s = Some s' -> Room s' -> Q0 s s'.
Proof.
  intros HG H HR'. pose proof HG as ((HR & Hv & Hc) & Hfr). unfold cmdUnixWordRubout in H. opt H.
  match goal with H : context [clip_write ?x ?y] |- _ => destruct (clip_write_shape x y) as [cl Hcl]; rewrite Hcl in * end.
  rdel Hfr Ev2. apply Delete_shape in Ev2 as (l2 & us & -> & _). cbv zeta in H. cut H; fin H HR'; apply Rd; reflexivity.
Qed.
Lemma LineDiscard_S s s' : G s -> cmdUnixLineDiscard C s = Some s' -> Room s' -> Q0 s s'.
Proof.
  intros HG H HR'. pose proof HG as ((HR & Hv & Hc) & Hfr). unfold cmdUnixLineDiscard in H. opt H.
  match goal with H : context [clip_write ?x ?y] |- _ => destruct (clip_write_shape x y) as [cl Hcl]; rewrite Hcl in * end.
  rdel Hfr Ev0. apply Delete_shape in Ev0 as (l2 & us & -> & _). fin H HR'; apply Rd; reflexivity.
Qed.
Lemma RepaintAll_S s ts s' : G s -> RepaintAll C (emit s ts) = Some s' -> Room s' -> Q0 s s'.
Proof.
  intros HG H HR'. pose proof HG as ((HR & Hv & Hc) & Hfr). unfold RepaintAll in H. destruct (callPromptWriter E (prompt C)) as [t p] eqn:Hp.
  eapply (Q0_pre s _ s' (ts ++ [TFlush; TPrompt t])); [|apply (repaint_S _ _ H); [exact HR'|(apply (ready_fresh' _ s Hfr); reflexivity)]]. cbn. now rewrite app_assoc.
Qed.
Lemma BackwardWord_S s s' : G s -> cmdBackwardWord C s = Some s' -> Room s' -> Q0 s s'.
Proof.
  intros HG H HR'. pose proof HG as ((HR & Hv & Hc) & Hfr). unfold cmdBackwardWord in H. opt H. cbv zeta in H. cut H; fin H HR'; (apply (ready_fresh' _ s Hfr); reflexivity).
Qed.
Lemma Undo_S s s' : G s -> cmdUndo C s = Some s' -> Room s' -> Q s s'.
Proof.
  intros HG H HR'. pose proof HG as ((HR & Hv & Hc) & Hfr). unfold cmdUndo in H.
  destruct (undoes s) as [|u rest]; [injection H as <-; now apply Q_quiet|]. apply Q0_Q. opt H.
  assert (Hb : exists l2 c2, b = set_cursor (set_cells (GotoHead (set_undoes s rest)) l2) c2).
  { destruct (u_text u) as [|x t] eqn:Hut; [injection Ev0 as <-; eexists _, _; reflexivity|]. opt Ev0. injection Ev0 as <-. eexists _, _. reflexivity. }
  destruct Hb as (l2 & c2 & ->).
  eapply (Q0_pre s _ s' [TGoto (topc s + 1)]); [|apply (repaint_S _ _ H); [exact HR'|apply ready_reset]]. reflexivity.
Qed.

(** ** The commands that paint less *)
Lemma advance_S s p s1 : G0 s -> puts C s (cursor s) p = Some s1 ->
  R s (set_cursor s1 p) /\ G (set_cursor s1 p) /\ line s1 = line s /\ out (set_cursor s1 p) = out s1 /\ topc s1 = topc s /\ view s1 = view s.
Proof.
  intros HG H. pose proof HG as (HR & Hv & Hc).
  pose proof (paints_fields _ _ (puts_paints C _ _ _ _ H)) as (F1 & F2 & F3 & F4 & F5 & F6 & F7 & _).
  apply puts_S in H as (Em & Hb1 & Hb2 & Hfr); [|exact HR]. assert (FL : line s1 = line s) by exact F1.
  split; [|split; [|auto]].
  2:{ split; [|exact Hfr]. split; [now apply (Room_same s)|]. change (line (set_cursor s1 p)) with (line s1). cbn [view cursor set_cursor]. rewrite FL, F4. repeat split; auto; lia. }
  intros sc (k & pr & Hk & Hpr & Hrow & Hcol). apply (R_emits s (set_cursor s1 p) _ sc Em).
  set (L := laid 0 (line s)) in *. assert (ZL : zlen L = zlen (line s)) by apply zlen_laid.
  destruct Hpr as [-> | (Hce & Hrest)].
  2:{ assert (p = cursor s) by lia. subst p. rewrite part_nil. exists k, pr. change (line (set_cursor s1 (cursor s))) with (line s1). cbn [view cursor topc suffix set_cursor]. rewrite FL, F3, F4, F7. fold L. auto. }
  rewrite app_nil_r in Hrow. destruct (onward (topc s) L (view s) k (cursor s) p sc ltac:(lia) ltac:(lia) ltac:(lia) ltac:(lia) ltac:(lia) Hrow Hcol) as [O1 O2].
  exists (Z.max k p), []. change (line (set_cursor s1 p)) with (line s1). cbn [view cursor topc set_cursor]. rewrite FL, F4, F7, app_nil_r. fold L. split; [lia|]. split; [now left|]. split; [exact O1|exact O2].
Qed.
(** Head of the row, a part of the line, erase. *)
Lemma fresh_row s v p s1 s2 : Room s -> puts C (set_view (GotoHead s) v) v p = Some s1 ->
  line s2 = line s1 -> out s2 = out s1 ++ [TErase] -> view s2 = v -> cursor s2 = p -> topc s2 = topc s -> cells s2 = cells s1 -> Q0 s s2.
Proof.
  intros HR H Hl Ho Hv Hc Ht Hce.
  pose proof (paints_fields _ _ (puts_paints C _ _ _ _ H)) as (F1 & F2 & F3 & F4 & F5 & F6 & F7 & _).
  apply puts_S in H as (Em & Hb1 & Hb2 & Hfr); [|exact HR]. assert (FL : line s1 = line s) by exact F1. change (line (set_view (GotoHead s) v)) with (line s) in *.
  assert (L2 : line s2 = line s) by congruence.
  split.
  - intros sc. assert (Em2 : emits s s2 ([TGoto (topc s + 1)] ++ tm (part (laid 0 (line s)) v p) ++ [TErase])).
    { eapply emits_trans; [|eapply emits_trans; [exact Em|]].
      - exists [TGoto (topc s + 1)]. split; reflexivity.
      - exists [TErase]. split; [exact Ho|reflexivity]. }
    apply (R_emits _ _ _ _ Em2). destruct (screen_row E other (topc s) (part (laid 0 (line s)) v p) sc _ (oka _) (Z.le_refl _)) as (S1 & S2 & _).
    exists p, []. rewrite L2, Hv, Hc, Ht, app_nil_r. split; [lia|]. split; [now left|]. split; [exact S1|exact S2].
  - split.
    + split; [now apply (Room_same s)|]. rewrite Hv, Hc, L2. repeat split; lia || auto.
    + unfold fresh in *. rewrite Hce, Hl. exact Hfr.
Qed.
(** Erasing where the line ends. *)
Lemma erase_S s : G s -> cursor s = zlen (line s) -> Q s (eraseline s).
Proof.
  intros HG Hz. pose proof HG as ((HR & Hv & Hc) & Hfr). split; [|exact HG]. intros sc (k & pr & Hk & _ & Hrow & Hcol). exists [TErase]. split; [reflexivity|].
  assert (k = cursor s) by lia. subst k. set (l := part (laid 0 (line s)) (view s) (cursor s)) in *.
  assert (U : upto E (topc s) l sc) by (eapply full_upto; [apply oka|apply oka|exact Hrow|exact Hcol]).
  destruct (upto_erase E other _ _ _ (oka _) U) as [H1 H2]. exists (cursor s), []. split; [exact Hk|]. split; [now left|]. rewrite app_nil_r. split; [exact H1|exact H2].
Qed.
Lemma EndOfLine_S s s' : G0 s -> cmdEndOfLine C s = Some s' -> Q s s'.
Proof.
  intros HG H. pose proof HG as (HR & Hv & Hc). unfold cmdEndOfLine in H. destruct (GetWidthBetween C s (view s) (zlen (cells s))) as [w|] eqn:Hw; [|discriminate].
  destruct (w <? ViewWidth s).
  - opt H. injection H as <-. opt Ev. injection Ev as <-. destruct (advance_S s _ _ HG Ev0) as (A1 & A2 & A3 & _).
    eapply Q_trans; [split; [exact A1|exact A2]|]. apply erase_S; [exact A2|].
    change (line (set_cursor b0 (zlen (cells s)))) with (line b0). cbn [cursor set_cursor]. rewrite A3. symmetry. apply zlen_map.
  - opt H. injection H as <-. opt Ev. injection Ev as <-. apply Q0_Q.
    pose proof (paints_fields _ _ (puts_paints C _ _ _ _ Ev1)) as (F1 & F2 & F3 & F4 & F5 & F6 & F7 & _).
    eapply fresh_row; [exact HR|exact Ev1|..]; try reflexivity; [exact F4|exact F7].
Qed.
Lemma ForwardChar_S s s' : G s -> cmdForwardChar C s = Some s' -> Room s' -> Q s s'.
Proof.
  intros HG H HR'. pose proof HG as ((HR & Hv & Hc) & Hfr). unfold cmdForwardChar in H. destruct (zlen (cells s) <=? cursor s).
  { destruct (suffix s) as [[|m l]|]; [injection H as <-; now apply Q_refl| |injection H as <-; now apply Q_refl]. apply Q0_Q. eapply Replace_S; [exact H|exact HR']. }
  destruct (GetWidthBetween C s (view s) (cursor s + 1)) as [w|] eqn:Hw; [|discriminate]. destruct (w <? ViewWidth s).
  - opt H. injection H as <-. pose proof (paints_fields _ _ (puts_paints C _ _ _ _ Ev)) as (_ & _ & _ & _ & -> & _).
    destruct (advance_S s _ _ (proj1 HG) Ev) as (A1 & A2 & _). split; [exact A1|exact A2].
  - opt H. injection H as <-. opt Ev. injection Ev as <-. cbn [cells cursor view GotoHead emit] in *.
    set (v' := if width E (c_moji c0) <? width E (c_moji c) then view s + 1 + 1 else view s + 1).
    assert (Hs3 : set_view (if width E (c_moji c0) <? width E (c_moji c) then set_view (GotoHead s) (view s + 1) else GotoHead s)
       (view (if width E (c_moji c0) <? width E (c_moji c) then set_view (GotoHead s) (view s + 1) else GotoHead s) + 1) = set_view (GotoHead s) v') by (unfold v'; destruct (_ <? _); reflexivity).
    rewrite Hs3 in *. cbn [view cursor set_view GotoHead emit] in *. clear Hs3. clearbody v'.
    pose proof (paints_fields _ _ (puts_paints C _ _ _ _ Ev2)) as (F1 & F2 & F3 & F4 & F5 & F6 & F7 & _). cbn [view cursor topc suffix set_view GotoHead emit] in F3, F4, F5, F7.
    apply Q0_Q. eapply fresh_row; [exact HR|exact Ev2|..]; try reflexivity; cbn [view cursor topc set_cursor eraseline emit]; [exact F4|now rewrite F5|exact F7].
Qed.
Lemma ForwardWord_S s s' : G s -> cmdForwardWord C s = Some s' -> Room s' -> Q s s'.
Proof.
  intros HG H HR'. pose proof HG as ((HR & Hv & Hc) & Hfr). unfold cmdForwardWord in H. opt H. destruct (_ <? ViewWidth s).
  - opt H. injection H as <-. destruct (advance_S s _ _ (proj1 HG) Ev1) as (A1 & A2 & _). split; [exact A1|exact A2].
  - apply Q0_Q. fin H HR'; (apply (ready_fresh' _ s Hfr); reflexivity).
Qed.
Lemma part_firstn (l : list moji) v c k : 0 <= v <= k -> k <= c -> c <= zlen l -> part (firstn (Z.to_nat c) l) v k = part l v k.
Proof.
  intros H1 H2 H3. unfold part. rewrite skipn_firstn_comm, firstn_firstn. f_equal. lia.
Qed.
Lemma KillLine_S s s' : G s -> cmdKillLine s = Some s' -> Q s s'.
Proof.
  intros HG H. pose proof HG as ((HR & Hv & Hcu) & Hfr). unfold cmdKillLine in H. opt H. injection H as <-.
  match goal with H : context [clip_write ?x ?y] |- _ => destruct (clip_write_shape x y) as [cl Hcl]; rewrite Hcl in * end.
  cbn [cells cursor eraseline emit push_undo set_undoes set_clip] in Ev0.
  set (s' := set_cells (push_undo (eraseline (set_clip s cl)) _) l) in *.
  assert (Hx : line s' = firstn (Z.to_nat (cursor s)) (line s)).
  { assert (Hx : slice (line s) 0 (cursor s) = Some (line s')) by (change (line s) with (emojis (cells s)); rewrite slice_emojis, Ev0; reflexivity).
    apply part_of_slice in Hx as (Hx & _). rewrite Hx. apply part0. }
  set (L := laid 0 (line s)) in *. assert (HL : laid 0 (line s') = firstn (Z.to_nat (cursor s)) L) by (rewrite Hx; symmetry; apply laid_firstn).
  assert (Hz : zlen (line s') = cursor s) by (rewrite Hx, zlen_firstn; lia). assert (ZL : zlen L = zlen (line s)) by apply zlen_laid.
  split; [|split; [split|]].
  - intros sc (k & pr & Hk & _ & Hrow & Hcol). apply (R_emits s s' [TErase] sc); [exists [TErase]; split; reflexivity|]. fold L in Hrow, Hcol.
    rewrite (part_split L (view s) (cursor s) k), <- app_assoc in Hrow by lia.
    assert (U : upto E (topc s) (part L (view s) (cursor s)) sc) by (eapply full_upto; [apply oka|apply oka|exact Hrow|exact Hcol]).
    destruct (upto_erase E other _ _ _ (oka _) U) as [H1 H2]. exists (cursor s), []. change (cursor s') with (cursor s). change (view s') with (view s). change (topc s') with (topc s).
    rewrite HL, part_firstn, app_nil_r by lia. split; [lia|]. split; [now left|]. split; [exact H1|exact H2].
  - eapply Room_sub; [exact HR|rewrite <- (firstn_skipn (Z.to_nat (cursor s)) (line s)), <- (app_nil_r (skipn _ _)); reflexivity|]. rewrite app_nil_r. exact Hx.
  - change (cursor s') with (cursor s). change (view s') with (view s). rewrite Hz. repeat split; auto; lia.
  - unfold fresh in *. rewrite HL. fold L in Hfr. rewrite <- Hfr. change (cells s') with l. apply slice_some in Ev0 as (_ & _ & ->). rewrite Z.sub_0_r. cbn [Z.to_nat skipn]. symmetry. apply firstn_map.
Qed.
Lemma KillWhole_S s s' : G s -> cmdKillWholeLine s = Some s' -> Q0 s s' /\ line s' = [] /\ view s' = 0 /\ cursor s' = 0 /\
  forall sc, exists ts, out s' = out s ++ ts /\ (forall x, topc s' <= x -> row (D ts sc) x = image E (topc s') [] x) /\ col (D ts sc) = topc s'.
Proof.
  intros HG H. unfold cmdKillWholeLine in H. injection H as <-.
  assert (K : forall sc, exists ts, out s ++ [TGoto (topc s + 1)] ++ [TErase] = out s ++ ts /\ (forall x, topc s <= x -> row (D ts sc) x = image E (topc s) [] x) /\ col (D ts sc) = topc s).
  { intros sc. exists ([TGoto (topc s + 1)] ++ tm [] ++ [TErase]). split; [reflexivity|].
    destruct (screen_row E other (topc s) [] sc _ (Forall_nil _) (Z.le_refl _)) as (H1 & H2 & _). split; [exact H1|]. rewrite H2, W_nil. lia. }
  match goal with |- Q0 s ?x /\ _ => set (s' := x) end. assert (O : out s' = out s ++ [TGoto (topc s + 1)] ++ [TErase]) by (cbn; now rewrite <- app_assoc).
  split; [|split; [reflexivity|]; split; [reflexivity|]; split; [reflexivity|]; rewrite O; exact K].
  split.
  - intros sc. destruct (K sc) as (ts & K1 & K2 & K3). exists ts. split; [rewrite O; exact K1|]. exists 0, []. split; [cbn; unfold zlen; cbn; lia|]. split; [now left|]. split; [exact K2|]. rewrite K3. change (topc s = topc s + W []). rewrite W_nil. lia.
  - split; [|reflexivity]. split; [split; [constructor|cbn; lia]|]. cbn. unfold zlen. cbn. repeat split; auto; lia.
Qed.
Lemma show_S s s' : G s -> show_history C s = Some s' -> Room s' -> Q s s'.
Proof.
  intros HG H HR'. unfold show_history in H. destruct (cmdKillWholeLine s) as [s1|] eqn:Hk; [|discriminate].
  destruct (KillWhole_S s s1 HG Hk) as (HQ & L1 & V1 & C1 & K). opt H. destruct s0 as [|x t]; [injection H as <-; now apply Q0_Q|].
  opt H. unfold InsertString in Ev0. opt Ev0. injection Ev0 as <- <-. pose proof (insert_shape C _ _ _ _ _ Ev1) as (l0 & us & Hb & _). subst b0.
  set (s2 := set_cursor (set_view (set_undoes (set_cells s1 l0) us) 0) 0) in *.
  assert (HL : line s' = line s2).
  { apply cmdEndOfLine_ref in H. apply (f_equal aline) in H. exact H. }
  destruct HQ as (HR1 & ((HR2 & _) & _)).
  assert (HG2 : G0 s2).
  { split; [apply (Room_same s'); [now symmetry|exact HR']|]. change (view s2) with 0. change (cursor s2) with 0. split; [lia|apply zlen_nonneg]. }
  destruct (EndOfLine_S s2 s' HG2 H) as (HR3 & HG3). split; [|exact HG3]. intros sc _.
  destruct (K sc) as (ts & O & Hrow & Hcol). destruct (HR3 (D ts sc)) as (t2 & O2 & S2).
  - exists 0, []. change (view s2) with 0. change (cursor s2) with 0. change (topc s2) with (topc s1). split; [pose proof (zlen_nonneg (line s2)); lia|]. split; [now left|]. rewrite !part_nil. split; [exact Hrow|]. rewrite Hcol, W_nil. lia.
  - exists (ts ++ t2). split; [rewrite O2; change (out s2) with (out s1); rewrite O; now rewrite app_assoc|]. now rewrite D_app.
Qed.
Lemma history_S s s0 h s' : G s -> (s0 = s \/ s0 = set_hptr s h) ->
  (let* s1 := saveModifiedHistory C s0 in show_history C (set_hptr s1 (hptr s1 + 1))) = Some s' \/
  (let* s1 := saveModifiedHistory C s0 in show_history C (set_hptr s1 (hptr s1 - 1))) = Some s' -> Room s' -> Q s s'.
Proof.
  intros HG H0 H HF'. destruct (saveModifiedHistory C s0) as [s1|] eqn:Hsv; [|destruct H; discriminate].
  assert (Hs1 : exists m, s1 = set_modh s0 m).
  { unfold saveModifiedHistory in Hsv. assert (Hr : s0 = set_modh s0 (modh s0)) by (now destruct s0). destruct (hptr s0 <? zlen (hist C)).
    - opt Hsv. destruct (str_eqb s2 (buf_string s0)); injection Hsv as <-; eauto.
    - injection Hsv as <-. eauto. }
  destruct Hs1 as [md ->]. destruct H0 as [-> | ->]; destruct H as [H|H]; (apply show_S in H; [exact H|exact HG|exact HF']).
Qed.
Lemma PreviousHistory_S s s' : G s -> cmdPreviousHistory C s = Some s' -> Room s' -> Q s s'.
Proof.
  intros HG H HF'. unfold cmdPreviousHistory in H. destruct (zlen (hist C) <=? 0); [injection H as <-; now apply Q_refl|].
  destruct (hptr s <=? 0); [destruct (negb (cycling C)); [injection H as <-; now apply Q_refl|]|].
  - eapply history_S; [exact HG|right; reflexivity|right; exact H|exact HF'].
  - eapply (history_S s s 0); [exact HG|left; reflexivity|right; exact H|exact HF'].
Qed.
Lemma NextHistory_S s s' : G s -> cmdNextHistory C s = Some s' -> Room s' -> Q s s'.
Proof.
  intros HG H HF'. unfold cmdNextHistory in H. destruct (zlen (hist C) <=? 0); [injection H as <-; now apply Q_refl|].
  destruct (zlen (hist C) <? hptr s + 1); [injection H as <-; now apply Q_refl|].
  eapply (history_S s s 0); [exact HG|left; reflexivity|left; exact H|exact HF'].
Qed.

(** SWAPCHAR, when the two units are no tabs and stand in the row. *)
Lemma slice_fresh s a b d : fresh s -> slice (cells s) a b = Some d -> range_width C d = W (part (laid 0 (line s)) a b).
Proof.
  intros Hf H. apply slice_some in H as (_ & _ & ->). unfold fresh in Hf. rewrite <- Hf. unfold part. rewrite skipn_map, firstn_map.
  generalize (firstn (Z.to_nat (b - a)) (skipn (Z.to_nat a) (cells s))). induction l as [|c l IH]; [reflexivity|]. cbn [map]. rewrite W_cons, <- IH. reflexivity.
Qed.
Lemma part_app2 (p m q : list moji) v k : 0 <= v <= zlen p -> zlen p + zlen m <= k -> part (p ++ m ++ q) v k = part p v (zlen p) ++ m ++ firstn (Z.to_nat (k - zlen p - zlen m)) q.
Proof.
  intros H1 H2. unfold part. pose proof (zlen_nonneg m). rewrite skipn_app. replace (Z.to_nat v - List.length p)%nat with 0%nat by (unfold zlen in *; lia). cbn [skipn].
  rewrite !firstn_app, !skipn_length. rewrite (firstn_all2 (n := Z.to_nat (k - v))) by (rewrite skipn_length; unfold zlen in *; lia).
  rewrite (firstn_all2 (n := Z.to_nat (zlen p - v))) by (rewrite skipn_length; unfold zlen in *; lia). f_equal.
  rewrite (firstn_all2 (n := (Z.to_nat (k - v) - _)%nat)) by (unfold zlen in *; lia). f_equal. f_equal. unfold zlen in *. lia.
Qed.
Lemma swap_row s s2 s' p a b q : G s -> line s = p ++ [a; b] ++ q -> line s2 = p ++ [b; a] ++ q -> tabfree a = true -> tabfree b = true -> view s <= zlen p -> cursor s <= zlen p + 2 ->
  out s2 = out s ++ [TGoto (topc s + 1)] -> view s2 = view s -> cursor s2 = zlen p + 2 -> topc s2 = topc s -> suffix s2 = suffix s ->
  puts C s2 (view s2) (cursor s2) = Some s' -> Q s s'.
Proof.
  intros HG Hl Hl2 Ta Tb Hvp Hcp Ho Hv2 Hc2 Ht2 Hs2 H. pose proof HG as ((HR & Hv & Hcu) & _).
  assert (HR2 : Room s2).
  { destruct HR as (F1 & F2). unfold Room. rewrite Hl2. rewrite Hl in *. rewrite !W_app, !W_cons, W_nil in *. split; [|lia].
    apply Forall_app in F1 as [U1 U2]. apply Forall_app in U2 as [_ U2]. apply Forall_app. split; [exact U1|]. apply Forall_app. split; [|exact U2]. constructor; [now left|]. constructor; [now left|constructor]. }
  pose proof (paints_fields _ _ (puts_paints C _ _ _ _ H)) as (P1 & P2 & P3 & P4 & P5 & P6 & P7 & _). assert (PL : line s' = line s2) by exact P1.
  apply puts_S in H as (Em & _ & Hb & Hfr); [|exact HR2]. rewrite Hv2, Hc2 in Em.
  set (pw0 := W (laid 0 p)). pose proof (Wp (laid 0 p)) as Hpw. fold pw0 in Hpw. pose proof (width_any C HE a). pose proof (width_any C HE b).
  set (tl := laid (pw0 + width E a + width E b) q). set (pl := laid 0 p) in *. assert (Zp : zlen pl = zlen p) by apply zlen_laid.
  assert (L1 : laid 0 (line s) = pl ++ [a; b] ++ tl).
  { rewrite Hl, (laid_app C HE) by lia. rewrite Z.add_0_l. fold pl pw0. rewrite (laid_app C HE) by lia. rewrite (laid_two C) by (auto; lia). rewrite !W_cons, W_nil. unfold tl. do 3 f_equal. lia. }
  assert (L2 : laid 0 (line s2) = pl ++ [b; a] ++ tl).
  { rewrite Hl2, (laid_app C HE) by lia. rewrite Z.add_0_l. fold pl pw0. rewrite (laid_app C HE) by lia. rewrite (laid_two C) by (auto; lia). rewrite !W_cons, W_nil. unfold tl. do 3 f_equal. lia. }
  assert (ZT : zlen tl = zlen q) by apply zlen_laid.
  assert (Zs : zlen (line s) = zlen p + 2 + zlen q) by (rewrite Hl; unfold zlen; rewrite !app_length; cbn [List.length]; lia).
  assert (Zs2 : zlen (line s2) = zlen (line s)) by (rewrite Hl, Hl2; unfold zlen; rewrite !app_length; reflexivity).
  set (old := part pl (view s) (zlen p) ++ [a; b]). set (new := part pl (view s) (zlen p) ++ [b; a]).
  assert (X1 : forall j, zlen p + 2 <= j -> part (laid 0 (line s)) (view s) j = old ++ firstn (Z.to_nat (j - zlen p - 2)) tl).
  { intros j Hj. rewrite L1, part_app2 by (rewrite Zp; unfold zlen; cbn [List.length]; fold (zlen p); unfold zlen in *; lia). rewrite Zp. unfold old. rewrite <- app_assoc. reflexivity. }
  assert (X2 : forall j, zlen p + 2 <= j -> part (laid 0 (line s2)) (view s) j = new ++ firstn (Z.to_nat (j - zlen p - 2)) tl).
  { intros j Hj. rewrite L2, part_app2 by (rewrite Zp; unfold zlen; cbn [List.length]; fold (zlen p); unfold zlen in *; lia). rewrite Zp. unfold new. rewrite <- app_assoc. reflexivity. }
  assert (HWn : W new = W old) by (unfold new, old; rewrite !W_app, !W_cons, W_nil; lia).
  assert (X3 : part (laid 0 (line s2)) (view s) (zlen p + 2) = new) by (rewrite X2 by lia; replace (Z.to_nat _) with 0%nat by lia; apply app_nil_r).
  rewrite X3 in Em.
  split; [|split; [|exact Hfr]].
  - intros sc (k & pr & Hk & Hpr & Hrow & Hcol).
    assert (Em' : emits s s' ([TGoto (topc s + 1)] ++ tm new)).
    { eapply emits_trans; [|exact Em]. exists [TGoto (topc s + 1)]. split; [exact Ho|reflexivity]. }
    apply (R_emits s s' _ sc Em'). rewrite D_app. set (sc1 := D [TGoto (topc s + 1)] sc). assert (C1 : col sc1 = topc s) by (unfold sc1; cbn; lia).
    pose proof (zlen_nonneg q) as Hq.
    exists (Z.max k (zlen p + 2)), pr. rewrite P3, P4, P5, P7, PL, Hv2, Hc2, Ht2, Hs2, Zs2, X3. split; [lia|]. split; [destruct Hpr as [Hpr|[Hpr1 Hpr2]]; [now left|right; split; [lia|exact Hpr2]]|]. split; [|rewrite col_tm, C1; reflexivity].
    destruct (Z_le_dec (zlen p + 2) k) as [Hkp|Hkp].
    + rewrite Z.max_l by lia. rewrite X2, <- app_assoc by lia. apply (full_replace E other (topc s) old); [apply oka|apply oka|exact HWn| |exact C1]. rewrite X1, <- app_assoc in Hrow by lia. exact Hrow.
    + assert (pr = []) by (destruct Hpr as [Hpr|[Hpr1 _]]; [exact Hpr|lia]). subst pr. rewrite app_nil_r in *. rewrite Z.max_r by lia. rewrite X3. eapply full_cover; [exact Hrow|exact C1|]. rewrite HWn. transitivity (W (part (laid 0 (line s)) (view s) (zlen p + 2))).
      * apply part_W; try lia. rewrite (zlen_laid C). lia.
      * rewrite X1 by lia. replace (Z.to_nat _) with 0%nat by lia. cbn [firstn]. rewrite app_nil_r. lia.
  - split; [now apply (Room_same s2)|]. rewrite P4, P5, PL, Hv2, Hc2. pose proof (zlen_nonneg p). repeat split; auto; lia.
Qed.
Definition swappable (s : buf) : Prop :=
  Forall (fun m => tabfree m = true) (part (line s) (Z.max 0 (cursor s - 2)) (cursor s + 1)) /\ view s <= Z.max 0 (cursor s - 2) /\
  (cursor s = zlen (line s) \/ W (part (laid 0 (line s)) (view s) (cursor s + 1)) < ViewWidth s).
Lemma SwapChar_S s s' : G s -> swappable s -> cmdSwapChar C s = Some s' -> Q s s'.
Proof.
  intros HG (Hu & Hvv & Hww) H. pose proof HG as ((HR & Hv & Hcu) & Hfr). assert (Zc : zlen (line s) = zlen (cells s)) by apply zlen_map. unfold cmdSwapChar in H. destruct (zlen (cells s) =? cursor s) eqn:Hend.
  - destruct (cursor s <? 2) eqn:Hc2; [injection H as <-; now apply Q_refl|]. opt H. cbn [cells push_undo set_undoes] in Ev0.
    apply swap_ref in Ev0. change (emojis (cells s)) with (line s) in Ev0. replace (cursor s - 1) with (cursor s - 2 + 1) in Ev0 by lia. apply aswap_shape in Ev0 as (p & a & b & q & Hl & Hl' & Hz).
    rewrite Hl in Hu. apply part_two in Hu as [Ta Tb]; [|lia|lia].
    refine (swap_row s _ s' p a b q HG Hl _ Ta Tb _ _ _ _ _ _ _ H); [exact Hl'|lia|lia|..]; cbn [out view cursor topc termw suffix GotoHead emit set_cells push_undo set_undoes]; auto. lia.
  - destruct (cursor s <? 1) eqn:Hc2; [injection H as <-; now apply Q_refl|]. opt H. cbn [cells push_undo set_undoes] in Ev1.
    apply swap_ref in Ev1. change (emojis (cells s)) with (line s) in Ev1. replace (cursor s) with (cursor s - 1 + 1) in Ev1 at 2 by lia. apply aswap_shape in Ev1 as (p & a & b & q & Hl & Hl' & Hz).
    rewrite Hl in Hu. apply part_two in Hu as [Ta Tb]; [|lia|lia].
    assert (Hw : (ViewWidth s <=? z) = false).
    { unfold GetWidthBetween in Ev0. cbn [cells view push_undo set_undoes] in Ev0. destruct (slice (cells s) (view s) (cursor s + 1)) as [d|] eqn:Hd; [|discriminate]. injection Ev0 as <-. rewrite (slice_fresh s _ _ _ Hfr Hd). destruct Hww as [Hww|Hww]; lia. }
    cbv zeta in H. change (ViewWidth (GotoHead (set_cells (push_undo s (mkUndo (cursor s - 1) 2 s0)) l))) with (ViewWidth s) in H. rewrite Hw in H.
    refine (swap_row s _ s' p a b q HG Hl _ Ta Tb _ _ _ _ _ _ _ H); [exact Hl'|lia|lia|..]; cbn [out view cursor topc termw suffix GotoHead emit set_cells push_undo set_undoes set_cursor]; auto. lia.
Qed.

Lemma exec_S c s s' r : G s -> (forall f, c <> CUser f) -> c <> CInterrupt -> (c = CSwapChar -> swappable s) ->
  exec C c s = Some (s', r) -> Room s' -> Q s s'.
Proof.
  intros HG HU HI HS H HF. destruct c; cbn [exec] in H; try (exfalso; now apply HI); try (exfalso; now apply (HU f));
    try (unfold continue_ in H; match type of H with (match ?o with Some _ => _ | None => _ end) = _ => destruct o as [s1|] eqn:Ho; [|discriminate] end; injection H as <- <-).
  - injection H as <- <-. now apply Q_refl.
  - apply Q0_Q. eapply BeginningOfLine_S; eauto.
  - eapply BackwardChar_S; eauto.
  - eapply EndOfLine_S; [apply HG|exact Ho].
  - eapply ForwardChar_S; eauto.
  - eapply BackwardDelete_S; eauto.
  - apply Q0_Q. eapply DeleteChar_S; eauto.
  - unfold cmdDeleteOrAbort in H. destruct (0 <? zlen (cells s)).
    + opt H. injection H as <- <-. apply Q0_Q. eapply DeleteChar_S; eauto.
    + injection H as <- <-. now apply Q_refl.
  - eapply KillLine_S; eauto.
  - apply Q0_Q. now apply KillWhole_S.
  - apply Q0_Q. eapply WordRubout_S; eauto.
  - apply Q0_Q. eapply LineDiscard_S; eauto.
  - apply Q0_Q. eapply RepaintAll_S; eauto.
  - apply Q0_Q. eapply RepaintAll_S; eauto.
  - injection H as <- <-. now apply Q_refl.
  - unfold cmdYank in Ho. destruct (clip s); [|injection Ho as <-; now apply Q_refl]. apply Q0_Q. eapply Replace_S; eauto.
  - unfold cmdYankWithQuote in Ho. destruct (clip s); [|injection Ho as <-; now apply Q_refl]. apply Q0_Q. eapply Replace_S; eauto.
  - eapply SwapChar_S; eauto.
  - apply Q0_Q. eapply BackwardWord_S; eauto.
  - eapply ForwardWord_S; eauto.
  - eapply Undo_S; eauto.
  - eapply PreviousHistory_S; eauto.
  - eapply NextHistory_S; eauto.
  - injection H as <- <-. now apply Q_refl.
  - eapply selfInsert_S; eauto.
Qed.
End Screen.
