(** The prediction on an ordinary terminal. *)
From Verif Require Import Base Utf8 Moji Color Prompt Buffer Commands KeyMap Session MojiFacts Spec SpecLib SpecTerm SpecScreen SpecVt
  Abs AbsRef AbsSess Plain Safe Reach SafetyFacts ColorFacts TermFacts ScreenSimple TokFacts VtFacts SpecPredShown.
From Verif Require ScreenFacts ScreenProps EtiqFacts TokTabs PredShown.
Ltac lia := unfold rune in *; Lia.lia.

Lemma vt_prediction V S default cur w cl es e x s : simple_editor S -> simple_text (cE (base S)) default -> simple_clip (cE (base S)) cl ->
  Forall (simple_event S) (es ++ [e]) -> 0 <= cur -> prompt_width (base S) + 11 < w < 9223372036854775808 ->
  (forall r, 0 <= r < 128 -> joins (cE (base S)) r = false) ->
  (forall x0, start S default cur w cl = Some x0 -> steady_run S (es ++ [e]) x0) ->
  counts_like V (cE (base S)) ->
  ready_after V (fst (callPromptWriter (cE (base S)) (prompt (base S)))) -> ready_after V (last_line_prompt (prompt (base S))) ->
  attribute_only V (pcolor0 (base S)) -> attribute_only V (pcolor1 (base S)) ->
  readline S default cur w cl es = Some x -> step S e x = Some (Running MNormal s) -> predicts_anew S e x ->
  pcolor0 (base S) <> [] -> cursor s = zlen (line s) -> line s <> [] ->
  forall lf v0, v_state v0 = Ground -> 0 <= v_col v0 ->
  vt_shows_prediction V (base S) s (vbytes V (out_bytes (cE (base S)) lf (out s)) v0).
Proof.
  intros HS Hd Hcl Hes Hc Hw Hlow Hst CL HP1 HP2 HA1 HA2 Hx He Hpa Hpc Hcu Hne lf v0 Hv Hc0. pose proof (proj1 (proj2 HS)) as HW. pose proof (pw_nn S HW) as Hpn.
  assert (HAt : pcolor0 (base S) <> [] -> attribute_only V (pcolor0 (base S)) /\ attribute_only V (pcolor1 (base S))) by auto.
  assert (Hpw : pw S + 11 < w) by (unfold prompt_width in Hw; unfold pw in *; lia).
  assert (HPn : 0 <= pw S < 9223372036854775807) by lia.
  assert (H : readline S default cur w cl (es ++ [e]) = Some (Running MNormal s)).
  { unfold readline in *. destruct (start S default cur w cl) as [x0|]; [|discriminate]. cbn in *. revert Hx. generalize x0. clear - He. induction es as [|a es IH]; intros x0 H; cbn [run app] in *; [injection H as ->; now rewrite He|].
    destruct (step S a x0); [|discriminate]. now apply IH. }
  pose proof (TokFacts.readline_GS S HS Hlow default cur w cl (es ++ [e]) _ Hpw Hd Hcl Hes H) as G.
  destruct G as [(N & Ht & Hf0) Hm].
  assert (Hf : Forall (TokTabs.fineT S) (out s)) by (eapply Forall_impl; [|exact Hf0]; apply TokTabs.fine_fineT).
  assert (Dr : forall l, Forall (pm S) l -> Forall (TokTabs.drawn S) l) by (intros l Hl; eapply Forall_impl; [|exact Hl]; intros; now left).
  rewrite (vtoks_bytes V S HW CL lf HPn (conj HP1 HP2) HAt _ Hf).
  pose proof (sim_end V S HW CL lf HPn (conj HP1 HP2) HAt (out s) v0 Hv Hc0 Hf) as Q. set (v := vtoks V S lf (out s) v0) in *.
  pose proof (PredShown.shown_simple S default cur w cl es e x s HS Hd Hcl Hes Hc ltac:(lia) Hst Hx He Hpa Hpc Hcu Hne (T V S lf (out s) v0) (sc0 v0)) as R.
  pose proof (si_col _ _ _ _ _ Q) as Q2. pose proof (si_row _ _ _ _ _ Q) as Q4.
  set (sc := display _ _ _ _) in *. destruct N as (N1 & _ & _ & _ & _ & N6). change (Forall (pm S) (line s)) in N1.
  assert (Rows : forall l, Forall (pm S) l -> (forall x, topc s <= x -> row sc x = image (cE (base S)) (topc s) l x) -> vshows V s v (look V l)).
  { intros l Hl Hr y Hy. rewrite <- Q4 by lia. rewrite Hr by exact Hy. now apply rend_image, Dr. }
  destruct R as (pred & rest & R0 & (R1 & R2 & R3 & R4 & R5 & R6) & R7).
  assert (Hpred : Forall (pm S) pred).
  { destruct R2 as [->|(_ & _ & rest' & R2)]; [constructor|]. cbn in N6. rewrite R2 in N6. cbn [suflist] in N6. rewrite map_app in N6. apply Forall_app in N6 as [N6 _].
    apply Forall_forall. intros y Hy. rewrite Forall_forall in N6. rewrite (pm_erase S Hlow y); apply N6; now apply in_map. }
  rewrite Hcu in R4. set (a := part (line s) (view s) (zlen (line s))) in *.
  assert (Ha : Forall (pm S) a) by now apply Forall_part.
  destruct (look_ok V S HW CL HPn (conj HP1 HP2) a (Dr _ Ha)) as (A1 & A2 & A3). destruct (look_ok V S HW CL HPn (conj HP1 HP2) pred (Dr _ Hpred)) as (B1 & B2 & B3).
  assert (Hab : Forall (pm S) (a ++ pred)) by now apply Forall_app. destruct (look_ok V S HW CL HPn (conj HP1 HP2) _ (Dr _ Hab)) as (C1 & C2 & _).
  exists pred, rest, (look V a), (look V pred). split; [exact R0|]. split; [exact (A3 Ha)|]. split; [exact (B3 Hpred)|].
  assert (La : look V a ++ look V pred = look V (a ++ pred)) by (unfold look; now rewrite map_app). rewrite La.
  split; [now apply Rows|]. split; [rewrite A2, <- Q2; exact R4|]. split; [rewrite C2; exact R5|].
  destruct R7 as [R7|(m & rest' & -> & R7)]; [now left|right]. exists m, rest'. split; [reflexivity|]. rewrite C2. rewrite !ScreenFacts.W_app, ScreenFacts.W_cons, ScreenFacts.W_nil in R7.
  rewrite ScreenFacts.W_app. lia.
Qed.
