(** The bytes written show the line on a terminal when there are tabs and the line fits. *)
From Verif Require Import Base Utf8 Moji Color Prompt Buffer Commands KeyMap Session MojiFacts Spec SpecLib SpecTerm SpecScreen SpecVt SpecTabScreen SpecVtTabs
  Abs AbsRef AbsSess Plain Safe Reach SafetyFacts TokFacts SingleLine VtFacts.
From Verif Require EtiqFacts ScreenFacts TabScreen TabScreenSess TokTabs.
Ltac lia := unfold rune in *; Lia.lia.

Section Vt.
Variable V : vterm.
Variable S : scfg.
Notation C := (base S).
Notation E := (cE C).
Notation tw := (vt_width V).
Notation W := (total_width E).
Notation drawn := (TokTabs.drawn S).
Hypothesis HS : single_editor S.
Hypothesis CL : counts_like V E.
Hypothesis HP1 : ready_after V (fst (callPromptWriter E (prompt C))).
Hypothesis HP2 : ready_after V (last_line_prompt (prompt C)).
Lemma HW : sane_widths E. Proof. apply HS. Qed.

Lemma um_cases m : um S (erase m) -> pm S m \/ exists p, m = MTab p.
Proof.
  intros (r & H & Hj & Hv). destruct (Z.eq_dec r 9) as [->|Hr].
  - right. change (rune2moji E 9 0) with (MTab 0) in H. destruct m; cbn [erase] in H; try discriminate. now exists pos.
  - left. assert (K : pm S (erase m)) by (exists r; repeat split; auto). rewrite (pm_erase S (TokTabs.Hlow S HS) m K). exact K.
Qed.
Lemma pm_notab m p : pm S m -> m <> MTab p.
Proof. intros H ->. apply Plain.pm_notab in H. discriminate. Qed.
Lemma looks_unit c m g l gs : pm S m -> appears V m g -> looks V (c + vcolumns V g) l gs -> looks V c (m :: l) (g :: gs).
Proof. intros Hm Ha Hl. cbn [looks]. split; [|exact Hl]. destruct m; try exact Ha. now destruct (pm_notab _ pos Hm). Qed.

Hypothesis HPn : 0 <= pw S < 9223372036854775807.
Lemma laid_ok l : Forall (um S) (map erase l) -> forall c, 0 <= c -> Forall drawn (laid E c l) /\ looks V c l (look V (laid E c l)).
Proof.
  induction l as [|m l IH]; intros H c Hc; [split; [constructor|exact I]|]. cbn [map] in H. apply Forall_cons_iff in H as [Hm H]. apply um_cases in Hm as [Hm|(p & ->)].
  - assert (Hd : drawn m) by now left. destruct (drawn_good V S HW CL m Hd) as (G1 & G2 & G3 & _).
    assert (E1 : laid E c (m :: l) = m :: laid E (c + width E m) l) by (destruct m; try reflexivity; now destruct (pm_notab _ pos Hm)). rewrite E1.
    pose proof (W_nonneg V _ G1). destruct (IH H (c + width E m) ltac:(lia)) as [I1 I2]. split; [now constructor|].
    cbn [look map]. apply looks_unit; [exact Hm|now apply G3|]. rewrite G2. exact I2.
  - cbn [laid]. assert (Hr : Z.rem c 4 = c mod 4) by (apply Z.rem_mod_nonneg; lia). pose proof (Z.mod_pos_bound c 4 ltac:(lia)).
    assert (Hd : drawn (MTab c)) by (right; exists c; split; [reflexivity|lia]). destruct (drawn_good V S HW CL _ Hd) as (G1 & G2 & _ & _).
    pose proof (Z.div_mod c 4 ltac:(lia)). destruct (IH H (4 * (c / 4) + 4) ltac:(lia)) as [I1 I2]. split; [now constructor|].
    cbn [look map looks]. split; [cbn [glyphs]; now rewrite Hr|]. rewrite G2. cbn [width]. rewrite Hr. replace (c + (4 - c mod 4)) with (4 * (c / 4) + 4) by lia. exact I2.
Qed.
Lemma look_tab l : Forall drawn l -> Forall2 (appears_tab V) l (look V l).
Proof.
  induction 1 as [|m l [Hm|(p & -> & Hp)] _ IH]; cbn [look map]; constructor; try exact IH.
  - destruct (pm_good V S HW CL m Hm) as (_ & _ & G & _). specialize (G Hm). destruct m; try exact G. now destruct (pm_notab _ pos Hm).
  - cbn [appears_tab glyphs]. exists (Z.to_nat (4 - Z.rem p 4)). split; [|reflexivity]. pose proof (Z.rem_bound_abs p 4 ltac:(lia)). lia.
Qed.
Lemma look_firstn n l : firstn n (look V l) = look V (firstn n l).
Proof. unfold look. now rewrite <- firstn_map. Qed.
Lemma Forall_firstn {A} (P : A -> Prop) n l : Forall P l -> Forall P (firstn n l).
Proof. intros H. apply Forall_forall. intros x Hx. eapply Forall_forall; [exact H|]. now apply in_firstn in Hx. Qed.

Hypothesis HP0 : pcolor0 C = [].
Lemma HAt : pcolor0 C <> [] -> attribute_only V (pcolor0 C) /\ attribute_only V (pcolor1 C).
Proof. intros H. now rewrite HP0 in H. Qed.
Lemma vt_tabs_end default cur w cl es x : SpecVtTabs.single_text E default -> single_clip E cl -> Forall (single_event S) es ->
  pw S + 3 < w ->
  (forall x0, start S default cur w cl = Some x0 -> calm_tabs S es x0) ->
  readline S default cur w cl es = Some x ->
  forall lf v0, v_state v0 = Ground -> 0 <= v_col v0 ->
  vt_tabs_right V E x (vbytes V (out_bytes E lf (out (buf_of x))) v0).
Proof.
  intros Hd Hcl Hes Hw Hst H lf v0 Hv Hc0.
  pose proof (TokTabs.readline_GS S HS default cur w cl es x Hw Hd Hcl Hes H) as G.
  destruct x as [m s|s t e]; [|exact I]. destruct G as [(N & Ht & Hf) Hm]. cbn [buf_of].
  rewrite (vtoks_bytes V S HW CL lf HPn (conj HP1 HP2) HAt _ Hf).
  pose proof (sim_end V S HW CL lf HPn (conj HP1 HP2) HAt (out s) v0 Hv Hc0 Hf) as Q. set (v := vtoks V S lf (out s) v0) in *.
  destruct (TabScreenSess.readline_screen S HW HP0 (T V S lf (out s) v0) (proj1 HS) default cur w cl es (Running m s) (sc0 v0) Hst H) as [GG R]. cbn [buf_of] in GG, R.
  assert (Hsh : v_shown v = true).
  { unfold v. rewrite (shown_toks V S HW CL lf HPn (conj HP1 HP2) HAt _ Hf v0 Hv Hc0).
    assert (K : EtiqFacts.good S (Running m s)). { apply EtiqFacts.reached_good; [apply HS|]. now exists default, cur, w, cl, es. }
    destruct K as [_ ->]. reflexivity. }
  pose proof (si_state _ _ _ _ _ Q) as Q1. pose proof (si_col _ _ _ _ _ Q) as Q2. pose proof (si_row _ _ _ _ _ Q) as Q4. pose proof (si_part _ _ _ _ _ Q) as Q5.
  set (sc := display _ _ _ _) in *. destruct N as (N1 & _). change (Forall (um S) (line s)) in N1.
  assert (Rows : forall l, Forall drawn l -> (forall x, topc s <= x -> row sc x = image E (topc s) l x) -> vshows V s v (look V l)).
  { intros l Hl Hr x Hx. rewrite <- Q4 by lia. rewrite Hr by exact Hx. now apply (rend_image V S HW CL lf HPn (conj HP1 HP2)). }
  assert (Norm : shows_tabs E s sc -> v_state v = Ground /\ v_shown v = true /\ exists gs,
      looks V 0 (line s) gs /\ vshows V s v gs /\
      v_col v = topc s + vcolumns V (List.concat (firstn (Z.to_nat (cursor s)) gs)) /\
      vcolumns V (List.concat gs) < ViewWidth s).
  { intros (R1 & R2). split; [exact Q1|]. split; [exact Hsh|]. exists (look V (laid E 0 (line s))).
    assert (N2 : Forall (um S) (map erase (line s))).
    { apply Forall_map. eapply Forall_impl; [|exact N1]. cbn beta. intros y (r & -> & Hr). exists r. split; [|exact Hr].
      unfold rune2moji. repeat match goal with |- context [if ?b then _ else _] => destruct b end; reflexivity. }
    destruct (laid_ok (line s) N2 0 ltac:(lia)) as [L1 L2]. split; [exact L2|]. split; [now apply Rows|].
    destruct (look_ok V S HW CL HPn (conj HP1 HP2) _ L1) as (_ & W1 & _). split.
    - rewrite look_firstn. destruct (look_ok V S HW CL HPn (conj HP1 HP2) _ (Forall_firstn _ (Z.to_nat (cursor s)) _ L1)) as (_ & -> & _). rewrite <- Q2. exact R2.
    - rewrite W1. destruct GG as (GF & _). pose proof (TabScreen.laid_W C HW (line s) 0 ltac:(lia) (proj1 GF)). destruct (TabScreen.Fit_VW C HW s GF). lia. }
  destruct m as [| |ss]; [exact (Norm R)|exact (Norm R)|].
  cbn [vt_tabs_right]. split; [exact Q1|]. split; [exact Hsh|]. destruct R as (n & R1 & R2 & R3). exists n. set (l := firstn n _) in *.
  assert (K : Forall (um S) (map erase (StringToMoji E (search_text ss)))) by (rewrite StringToMoji_units; apply single_units, (TokTabs.single_search S HS ss Hm)).
  assert (Hl : Forall drawn l).
  { apply Forall_forall. intros y Hy. pose proof (in_firstn _ _ _ Hy) as Hy'. rewrite Forall_forall in K. specialize (K (erase y) (in_map _ _ _ Hy')).
    apply um_cases in K as [K|(p & ->)]; [now left|]. apply in_split in Hy as (l1 & l2 & El).
    pose proof (TabScreen.W_pos C HW l1). pose proof (TabScreen.rem4 p). assert (Hwd : 1 <= width E (MTab p)) by (cbn [width]; lia).
    eapply (Q5 (topc s + W l1) (MTab p) 0); [lia|]. rewrite R1 by lia. rewrite El, (ScreenFacts.image_at E) by (try apply (TabScreen.ok_any C HW); lia). f_equal. lia. }
  exists (look V l). destruct (look_ok V S HW CL HPn (conj HP1 HP2) _ Hl) as (_ & W1 & _). split; [now apply look_tab|]. split; [now apply Rows|]. split; [rewrite W1; exact R2|exact R3].
Qed.
End Vt.

Lemma vt_tabs_session : forall V S default cur w cl es x,
  single_editor S -> pcolor0 (base S) = [] -> SpecVtTabs.single_text (cE (base S)) default -> single_clip (cE (base S)) cl -> Forall (single_event S) es ->
  prompt_width (base S) + 3 < w < 9223372036854775808 ->
  (forall x0, start S default cur w cl = Some x0 -> calm_tabs S es x0) ->
  counts_like V (cE (base S)) ->
  ready_after V (fst (callPromptWriter (cE (base S)) (prompt (base S)))) -> ready_after V (last_line_prompt (prompt (base S))) ->
  readline S default cur w cl es = Some x ->
  forall lf v0, v_state v0 = Ground -> 0 <= v_col v0 ->
  vt_tabs_right V (cE (base S)) x (vbytes V (out_bytes (cE (base S)) lf (out (buf_of x))) v0).
Proof.
  intros V S default cur w cl es x HS HP0 Hd Hcl Hes Hw Hst CL H1 H2 H lf v0 Hv Hc.
  pose proof (pw_nn S (proj1 (proj2 HS))) as Hn. assert (Hpw : prompt_width (base S) = pw S) by (unfold prompt_width, pw in *; lia).
  apply (vt_tabs_end V S HS CL H1 H2 ltac:(lia) HP0 default cur w cl es x Hd Hcl Hes ltac:(lia) Hst H lf v0 Hv Hc).
Qed.
