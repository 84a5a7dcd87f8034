(** The bytes written show the line on a terminal when there are tabs and the line scrolls. *)
From Verif Require Import Base Utf8 Moji Color Prompt Buffer Commands KeyMap Session MojiFacts Spec SpecLib SpecTerm SpecScreen SpecVt SpecTabScreen SpecVtTabs
  SpecTabScroll SpecVtScroll Abs AbsRef AbsSess Plain Safe Reach SafetyFacts TokFacts SingleLine VtFacts VtTabs.
From Verif Require PredictFacts EtiqFacts ScreenFacts TabScreen TabScrollSess TokTabs.
Ltac lia := unfold rune in *; Lia.lia.

Section Vt.
Variable V : vterm.
Variable S : scfg.
Notation C := (base S).
Notation E := (cE C).
Notation tw := (vt_width V).
Notation W := (total_width E).
Notation drawn := (TokTabs.drawn S).
Hypothesis HS : single_editor S.
Hypothesis CL : counts_like V E.
Hypothesis HP1 : ready_after V (fst (callPromptWriter E (prompt C))).
Hypothesis HP2 : ready_after V (last_line_prompt (prompt C)).
Hypothesis HPn : 0 <= pw S < 9223372036854775807.
Let HW := VtTabs.HW S HS.
Hypothesis HAt : pcolor0 C <> [] -> attribute_only V (pcolor0 C) /\ attribute_only V (pcolor1 C).

Lemma look_stretch l a b : stretch (look V l) a b = look V (part l a b).
Proof. unfold stretch, part, look. now rewrite skipn_map, firstn_map. Qed.
Lemma Forall_part (P : moji -> Prop) l a b : Forall P l -> Forall P (part l a b).
Proof.
  intros H. unfold part. apply Forall_firstn. apply Forall_forall. intros x Hx. eapply Forall_forall; [exact H|].
  rewrite <- (firstn_skipn (Z.to_nat a) l). apply in_or_app. now right.
Qed.

Lemma vt_scroll_end default cur w cl es x : SpecVtTabs.single_text E default -> single_clip E cl -> Forall (single_event S) es ->
  pw S + 3 < w ->
  (forall x0, start S default cur w cl = Some x0 -> calm_scroll S es x0) ->
  readline S default cur w cl es = Some x ->
  forall lf v0, v_state v0 = Ground -> 0 <= v_col v0 ->
  vt_scrolled_right V E x (vbytes V (out_bytes E lf (out (buf_of x))) v0).
Proof.
  intros Hd Hcl Hes Hw Hst H lf v0 Hv Hc0.
  pose proof (TokTabs.readline_GS S HS default cur w cl es x Hw Hd Hcl Hes H) as G.
  destruct x as [m s|s t e]; [|exact I]. destruct G as [(N & Ht & Hf) Hm]. cbn [buf_of].
  rewrite (vtoks_bytes V S HW CL lf HPn (conj HP1 HP2) HAt _ Hf).
  pose proof (sim_end V S HW CL lf HPn (conj HP1 HP2) HAt (out s) v0 Hv Hc0 Hf) as Q. set (v := vtoks V S lf (out s) v0) in *.
  destruct (TabScrollSess.readline_screen S HW (T V S lf (out s) v0) (proj1 HS) default cur w cl es (Running m s) (sc0 v0) Hst H) as [_ R]. cbn [buf_of] in R.
  assert (Hsh : v_shown v = true).
  { unfold v. rewrite (shown_toks V S HW CL lf HPn (conj HP1 HP2) HAt _ Hf v0 Hv Hc0).
    assert (K : EtiqFacts.good S (Running m s)). { apply EtiqFacts.reached_good; [apply HS|]. now exists default, cur, w, cl, es. }
    destruct K as [_ ->]. reflexivity. }
  pose proof (si_state _ _ _ _ _ Q) as Q1. pose proof (si_col _ _ _ _ _ Q) as Q2. pose proof (si_row _ _ _ _ _ Q) as Q4. pose proof (si_part _ _ _ _ _ Q) as Q5.
  set (sc := display _ _ _ _) in *. destruct N as (N1 & _ & _ & _ & _ & N6). change (Forall (um S) (line s)) in N1.
  assert (Rows : forall l, Forall drawn l -> (forall x, topc s <= x -> row sc x = image E (topc s) l x) -> vshows V s v (look V l)).
  { intros l Hl Hr x Hx. rewrite <- Q4 by lia. rewrite Hr by exact Hx. now apply (rend_image V S HW CL lf HPn (conj HP1 HP2)). }
  assert (OnRow : forall a l c, Forall (um S) (map erase l) -> (forall x, topc s <= x -> row sc x = image E (topc s) (a ++ l ++ c) x) -> Forall drawn l).
  { intros a l c K R1. apply Forall_forall. intros y Hy. rewrite Forall_forall in K. specialize (K (erase y) (in_map _ _ _ Hy)).
    apply (um_cases S HS) in K as [K|(p & ->)]; [now left|]. apply in_split in Hy as (l1 & l2 & El).
    pose proof (TabScreen.W_pos C HW (a ++ l1)). pose proof (TabScreen.rem4 p). assert (Hwd : 1 <= width E (MTab p)) by (cbn [width]; lia).
    eapply (Q5 (topc s + W (a ++ l1)) (MTab p) 0); [lia|]. rewrite R1 by lia.
    assert (Ex : a ++ l ++ c = (a ++ l1) ++ MTab p :: l2 ++ c) by (rewrite El, <- !app_assoc; reflexivity). rewrite Ex.
    rewrite (ScreenFacts.image_at E) by (try apply (TabScreen.ok_any C HW); lia). f_equal. lia. }
  assert (Norm : shows_scrolled E s sc -> v_state v = Ground /\ v_shown v = true /\ exists gs k pred ps,
      looks V 0 (line s) gs /\ cursor s <= k <= zlen (line s) /\
      (pred = [] \/ cursor s = zlen (line s) /\ exists rest, suffix s = Some (pred ++ rest)) /\ Forall2 (appears_tab V) pred ps /\
      vshows V s v (stretch gs (view s) k ++ ps) /\
      v_col v = topc s + vcolumns V (List.concat (stretch gs (view s) (cursor s)))).
  { intros (k & pr & R0 & Rp & R1 & R2). split; [exact Q1|]. split; [exact Hsh|]. exists (look V (laid E 0 (line s))), k, pr, (look V pr).
    assert (N2 : Forall (um S) (map erase (line s))).
    { apply Forall_map. eapply Forall_impl; [|exact N1]. cbn beta. intros y (r & -> & Hr). exists r. split; [|exact Hr].
      unfold rune2moji. repeat match goal with |- context [if ?b then _ else _] => destruct b end; reflexivity. }
    assert (Hpr : Forall drawn pr).
    { apply (OnRow (part (laid E 0 (line s)) (view s) k) pr []); [|rewrite app_nil_r; exact R1].
      destruct Rp as [-> | (_ & rest & Rp)]; [constructor|]. cbn in N6. rewrite Rp in N6. cbn [suflist] in N6. rewrite map_app in N6. now apply Forall_app in N6. }
    destruct (laid_ok V S HS CL (line s) N2 0 ltac:(lia)) as [L1 L2]. split; [exact L2|]. split; [exact R0|]. split; [exact Rp|]. split; [now apply (look_tab V S HS CL)|].
    rewrite !look_stretch. split.
    - unfold look. rewrite <- map_app. apply Rows; [apply Forall_app; split; [now apply Forall_part|exact Hpr]|exact R1].
    - destruct (look_ok V S HW CL HPn (conj HP1 HP2) _ (Forall_part _ _ (view s) (cursor s) L1)) as (_ & -> & _). rewrite <- Q2. exact R2. }
  destruct m as [| |ss]; [exact (Norm R)|exact (Norm R)|].
  intros Hvw. specialize (R Hvw).
  cbn [vt_tabs_right]. split; [exact Q1|]. split; [exact Hsh|]. destruct R as (n & R1 & R2 & R3). exists n. set (l := firstn n _) in *.
  assert (K : Forall (um S) (map erase (StringToMoji E (search_text ss)))) by (rewrite StringToMoji_units; apply single_units, (TokTabs.single_search S HS ss Hm)).
  assert (Hl : Forall drawn l).
  { apply (OnRow [] l []); [|rewrite app_nil_r; exact R1]. apply Forall_forall. intros y Hy. apply in_map_iff in Hy as (y' & <- & Hy). apply in_firstn in Hy. rewrite Forall_forall in K. apply K. now apply in_map. }
  exists (look V l). destruct (look_ok V S HW CL HPn (conj HP1 HP2) _ Hl) as (_ & W1 & _). split; [now apply (look_tab V S HS CL)|]. split; [now apply Rows|]. split; [rewrite W1; exact R2|exact R3].
Qed.
End Vt.

Lemma vt_scroll_session : forall V S default cur w cl es x,
  single_editor S -> SpecVtTabs.single_text (cE (base S)) default -> single_clip (cE (base S)) cl -> Forall (single_event S) es ->
  prompt_width (base S) + 3 < w < 9223372036854775808 ->
  (forall x0, start S default cur w cl = Some x0 -> calm_scroll S es x0) ->
  counts_like V (cE (base S)) ->
  ready_after V (fst (callPromptWriter (cE (base S)) (prompt (base S)))) -> ready_after V (last_line_prompt (prompt (base S))) ->
  (pcolor0 (base S) <> [] -> attribute_only V (pcolor0 (base S)) /\ attribute_only V (pcolor1 (base S))) ->
  readline S default cur w cl es = Some x ->
  forall lf v0, v_state v0 = Ground -> 0 <= v_col v0 ->
  vt_scrolled_right V (cE (base S)) x (vbytes V (out_bytes (cE (base S)) lf (out (buf_of x))) v0).
Proof.
  intros V S default cur w cl es x HS Hd Hcl Hes Hw Hst CL H1 H2 HAt H lf v0 Hv Hc.
  pose proof (pw_nn S (proj1 (proj2 HS))) as Hn. assert (Hpw : prompt_width (base S) = pw S) by (unfold prompt_width, pw in *; lia).
  apply (vt_scroll_end V S HS CL H1 H2 ltac:(lia) HAt default cur w cl es x Hd Hcl Hes ltac:(lia) Hst H lf v0 Hv Hc).
Qed.
