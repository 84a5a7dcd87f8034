(** ReadLine's last repaint on an ordinary terminal. *)
From Verif Require Import Base Utf8 Moji Color Prompt Buffer Commands KeyMap Session MojiFacts Spec SpecLib SpecTerm SpecScreen SpecVt SpecTabScreen SpecVtTabs
  SpecTabScroll SpecVtScroll SpecLeave Abs AbsRef AbsSess Plain Safe Reach SafetyFacts TokFacts SingleLine VtFacts VtTabs.
From Verif Require PredictFacts EtiqFacts ScreenFacts TabScreen TabScrollSess TokTabs VtScroll LeaveFacts.
Ltac lia := unfold rune in *; Lia.lia.

Section Vt.
Variable V : vterm.
Variable S : scfg.
Notation C := (base S).
Notation E := (cE C).
Notation drawn := (TokTabs.drawn S).
Notation good := (TokTabs.good S).
Hypothesis HS : single_editor S.
Hypothesis CL : counts_like V E.
Hypothesis HP1 : ready_after V (fst (callPromptWriter E (prompt C))).
Hypothesis HP2 : ready_after V (last_line_prompt (prompt C)).
Hypothesis HPn : 0 <= pw S < 9223372036854775807.
Let HW := VtTabs.HW S HS.
Hypothesis HAt : pcolor0 C <> [] -> attribute_only V (pcolor0 C) /\ attribute_only V (pcolor1 C).

Lemma good_last s s1 : good s -> LeaveFacts.last_paint S s s1 -> good s1.
Proof.
  unfold LeaveFacts.last_paint. intros H Hp. destruct (suffix s); [|now injection Hp as <-]. eapply TokTabs.good_repaintW; [exact HS|exact Hp|]. now apply TokTabs.good_drop.
Qed.
Lemma good_emptied s : good s -> good (LeaveFacts.emptied s).
Proof. intros H. apply (TokTabs.good_exec S HS CInterrupt s _ INTR); [exact I|discriminate|reflexivity|exact H]. Qed.

Lemma leaves_vt default cur w cl es k s s' t r : SpecVtTabs.single_text E default -> single_clip E cl -> Forall (single_event S) es ->
  pw S + 3 < w ->
  (forall x0, start S default cur w cl = Some x0 -> calm_scroll S es x0) ->
  readline S default cur w cl es = Some (Running MNormal s) -> step S (EKey k) (Running MNormal s) = Some (Finished s' t r) ->
  forall lf v0, v_state v0 = Ground -> 0 <= v_col v0 ->
  exists ts, out s' = out s ++ ts ++ [TLineFeed (feed r); TFlush; TCursorOn; TFlush] /\
    let v := vbytes V (out_bytes E lf (out s ++ ts)) v0 in v_state v = Ground /\ leaves (vt_stands V s v) (vt_bare s v) s r.
Proof.
  intros Hd Hcl Hes Hw Hst H Hx lf v0 Hv Hc0.
  pose proof (TokTabs.readline_GS S HS default cur w cl es _ Hw Hd Hcl Hes H) as [G _].
  destruct (LeaveFacts.leaves_scroll S (proj1 HS) HW (mkTerminal (fun _ sc => sc) (fun _ _ _ => Blank)) default cur w cl es k s s' t r (sc0 v0) Hst H Hx) as (_ & ts & O & _).
  exists ts. split; [exact O|].
  assert (Hf : Forall (TokTabs.fineT S) (out s ++ ts)).
  { destruct (LeaveFacts.ends_shape S (proj1 HS) k s s' t r Hx) as (s0 & s1 & Hs0 & Hp & Hs' & _).
    assert (G0 : good s0) by (destruct Hs0 as [(_ & ->)|[(_ & ->)|(_ & -> & _)]]; try exact G; now apply good_emptied).
    assert (G1 : good s1). { eapply good_last; [|exact Hp]. apply TokTabs.good_emit; [exact G0|]. repeat constructor. }
    subst s'. cbn [out emit] in O. rewrite app_assoc in O. apply app_inv_tail in O. rewrite <- O. apply G1. }
  destruct (LeaveFacts.leaves_scroll S (proj1 HS) HW (T V S lf (out s ++ ts) v0) default cur w cl es k s s' t r (sc0 v0) Hst H Hx) as (_ & ts1 & O1 & R).
  assert (ts1 = ts) as -> by (rewrite O in O1; apply app_inv_head in O1; now apply app_inv_tail in O1). clear O1. cbv zeta.
  rewrite (vtoks_bytes V S HW CL lf HPn (conj HP1 HP2) HAt _ Hf).
  pose proof (sim_end V S HW CL lf HPn (conj HP1 HP2) HAt (out s ++ ts) v0 Hv Hc0 Hf) as Q. set (v := vtoks V S lf (out s ++ ts) v0) in *.
  pose proof (si_state _ _ _ _ _ Q) as Q1. pose proof (si_col _ _ _ _ _ Q) as Q2. pose proof (si_row _ _ _ _ _ Q) as Q4. pose proof (si_part _ _ _ _ _ Q) as Q5.
  set (sc := display _ _ _ _) in *. destruct G as (N & Ht & _). destruct N as (N1 & _ & _ & _ & _ & N6). change (Forall (um S) (line s)) in N1.
  assert (Rows : forall l, Forall drawn l -> (forall x, topc s <= x -> row sc x = image E (topc s) l x) -> vshows V s v (look V l)).
  { intros l Hl Hr x Hx0. rewrite <- Q4 by lia. rewrite Hr by exact Hx0. now apply (rend_image V S HW CL lf HPn (conj HP1 HP2)). }
  assert (Bare : bare s sc -> vt_bare s v).
  { intros [B1 B2]. split; [|now rewrite <- Q2]. intros x Hx0. rewrite <- Q4 by lia. now rewrite B1. }
  assert (Stand : stands_scrolled E s sc -> vt_stands V s v).
  { intros (n & R0 & R1 & R2). exists (look V (laid E 0 (line s))), n.
    assert (N2 : Forall (um S) (map erase (line s))).
    { apply Forall_map. eapply Forall_impl; [|exact N1]. cbn beta. intros y (r0 & -> & Hr). exists r0. split; [|exact Hr].
      unfold rune2moji. repeat match goal with |- context [if ?b then _ else _] => destruct b end; reflexivity. }
    destruct (laid_ok V S HS CL (line s) N2 0 ltac:(lia)) as [L1 L2]. split; [exact L2|]. split; [exact R0|].
    rewrite !(VtScroll.look_stretch V). split; [apply Rows; [now apply VtScroll.Forall_part|exact R1]|].
    destruct (look_ok V S HW CL HPn (conj HP1 HP2) _ (VtScroll.Forall_part _ _ (view s) (cursor s) L1)) as (_ & -> & _). rewrite <- Q2. exact R2. }
  split; [exact Q1|]. destruct r; cbn [leaves] in *; auto. destruct (suffix s); auto.
Qed.
End Vt.
Lemma leaves_bytes : forall V S default cur w cl es k s s' t r,
  single_editor S -> SpecVtTabs.single_text (cE (base S)) default -> single_clip (cE (base S)) cl -> Forall (single_event S) es ->
  prompt_width (base S) + 3 < w < 9223372036854775808 ->
  (forall x0, start S default cur w cl = Some x0 -> calm_scroll S es x0) ->
  counts_like V (cE (base S)) ->
  ready_after V (fst (callPromptWriter (cE (base S)) (prompt (base S)))) -> ready_after V (last_line_prompt (prompt (base S))) ->
  (pcolor0 (base S) <> [] -> attribute_only V (pcolor0 (base S)) /\ attribute_only V (pcolor1 (base S))) ->
  readline S default cur w cl es = Some (Running MNormal s) -> step S (EKey k) (Running MNormal s) = Some (Finished s' t r) ->
  forall lf v0, v_state v0 = Ground -> 0 <= v_col v0 ->
  exists ts, out s' = out s ++ ts ++ [TLineFeed (feed r); TFlush; TCursorOn; TFlush] /\
    let v := vbytes V (out_bytes (cE (base S)) lf (out s ++ ts)) v0 in v_state v = Ground /\ leaves (vt_stands V s v) (vt_bare s v) s r.
Proof.
  intros V S default cur w cl es k s s' t r HS Hd Hcl Hes Hw Hst CL H1 H2 HAt H Hx lf v0 Hv Hc.
  pose proof (pw_nn S (proj1 (proj2 HS))) as Hn. assert (Hpw : prompt_width (base S) = pw S) by (unfold prompt_width, pw in *; lia).
  apply (leaves_vt V S HS CL H1 H2 ltac:(lia) HAt default cur w cl es k s s' t r Hd Hcl Hes ltac:(lia) Hst H Hx lf v0 Hv Hc).
Qed.
