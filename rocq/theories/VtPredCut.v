(** As much of the prediction as fits, beside tabs, on an ordinary terminal. *)
From Verif Require Import Base Utf8 Moji Color Prompt Buffer Commands KeyMap Session MojiFacts Spec SpecLib SpecTerm SpecScreen SpecVt SpecTabScreen SpecVtTabs
  SpecTabScroll SpecVtScroll Abs AbsRef AbsSess Plain Safe Reach SafetyFacts TokFacts SingleLine VtFacts VtTabs SpecPredShown SpecUndo.
From Verif Require PredictFacts EtiqFacts ScreenFacts TabScreen TabScrollSess TokTabs VtScroll PredTabs PredCut PredExact.
Ltac lia := unfold rune in *; Lia.lia.

Section Vt.
Variable V : vterm.
Variable S : scfg.
Notation C := (base S).
Notation E := (cE C).
Notation W := (total_width E).
Notation drawn := (TokTabs.drawn S).
Hypothesis HS : single_editor S.
Hypothesis CL : counts_like V E.
Hypothesis HP1 : ready_after V (fst (callPromptWriter E (prompt C))).
Hypothesis HP2 : ready_after V (last_line_prompt (prompt C)).
Hypothesis HPn : 0 <= pw S < 9223372036854775807.
Let HW := VtTabs.HW S HS.
Hypothesis HAt : pcolor0 C <> [] -> attribute_only V (pcolor0 C) /\ attribute_only V (pcolor1 C).

Lemma vt_cut_at default cur w cl es s : SpecVtTabs.single_text E default -> single_clip E cl -> Forall (single_event S) es ->
  pw S + 3 < w ->
  readline S default cur w cl es = Some (Running MNormal s) -> pcolor0 C <> [] -> (forall other sc, shows_cut_prediction C s (display E other (out s) sc)) ->
  forall lf v0, v_state v0 = Ground -> 0 <= v_col v0 ->
  vt_shows_cut_prediction V C s (vbytes V (out_bytes E lf (out s)) v0).
Proof.
  intros Hd Hcl Hes Hw H Hpc Hcut lf v0 Hv Hc0.
  pose proof (TokTabs.readline_GS S HS default cur w cl _ _ Hw Hd Hcl Hes H) as [(N & Ht & Hf) _].
  rewrite (vtoks_bytes V S HW CL lf HPn (conj HP1 HP2) HAt _ Hf).
  pose proof (sim_end V S HW CL lf HPn (conj HP1 HP2) HAt (out s) v0 Hv Hc0 Hf) as Q. set (v := vtoks V S lf (out s) v0) in *.
  pose proof (Hcut (T V S lf (out s) v0) (sc0 v0)) as (pr & rest & Hsp & R1 & R2 & R3 & R4).
  pose proof (si_col _ _ _ _ _ Q) as Q2. pose proof (si_row _ _ _ _ _ Q) as Q4. pose proof (si_part _ _ _ _ _ Q) as Q5.
  set (sc := display _ _ _ _) in *. destruct N as (N1 & _ & _ & _ & _ & N6). change (Forall (um S) (line s)) in N1.
  set (a := part (laid E 0 (line s)) (view s) (zlen (line s))) in *.
  assert (N2 : Forall (um S) (map erase (line s))).
  { apply Forall_map. eapply Forall_impl; [|exact N1]. cbn beta. intros y (r & -> & Hr). exists r. split; [|exact Hr].
    unfold rune2moji. repeat match goal with |- context [if ?b then _ else _] => destruct b end; reflexivity. }
  assert (K : Forall (um S) (map erase pr)).
  { assert (K0 : Forall (um S) (map erase (pr ++ rest))). { rewrite <- Hsp. rewrite StringToMoji_units. apply single_units. destruct (TokTabs.Hpred S HS) as [Hp|Hp]; [contradiction|apply Hp]. }
    rewrite map_app in K0. now apply Forall_app in K0 as [K0 _]. }
  assert (Hpr : Forall drawn pr).
  { apply Forall_forall. intros y Hy. rewrite Forall_forall in K. specialize (K (erase y) (in_map _ _ _ Hy)).
    apply (um_cases S HS) in K as [K|(p & ->)]; [now left|]. apply in_split in Hy as (l1 & l2 & El).
    pose proof (TabScreen.W_pos C HW (a ++ l1)). pose proof (TabScreen.rem4 p). assert (Hwd : 1 <= width E (MTab p)) by (cbn [width]; lia).
    eapply (Q5 (topc s + W (a ++ l1)) (MTab p) 0); [lia|]. rewrite R1 by lia.
    assert (Ex : a ++ pr = (a ++ l1) ++ MTab p :: l2) by (rewrite El, <- !app_assoc; reflexivity). rewrite Ex.
    rewrite (ScreenFacts.image_at E) by (try apply (TabScreen.ok_any C HW); lia). f_equal. lia. }
  destruct (laid_ok V S HS CL (line s) N2 0 ltac:(lia)) as [L1 L2].
  exists pr, rest, (look V (laid E 0 (line s))), (look V pr). split; [exact Hsp|]. split; [exact L2|]. split; [now apply (look_tab V S HS CL)|].
  rewrite !VtScroll.look_stretch. fold a. assert (La : Forall drawn a) by now apply VtScroll.Forall_part. split; [|split; [|split; assumption]].
  - unfold look. rewrite <- map_app. intros y Hy. rewrite <- Q4 by lia. rewrite R1 by exact Hy. apply (rend_image V S HW CL lf HPn (conj HP1 HP2)). now apply Forall_app.
  - destruct (look_ok V S HW CL HPn (conj HP1 HP2) _ La) as (_ & -> & _). rewrite <- Q2. exact R2.
Qed.
Lemma vt_cut default cur w cl es e x s : SpecVtTabs.single_text E default -> single_clip E cl -> Forall (single_event S) (es ++ [e]) ->
  pw S + 3 < w ->
  (forall x0, start S default cur w cl = Some x0 -> calm_scroll S (es ++ [e]) x0) ->
  readline S default cur w cl es = Some x -> step S e x = Some (Running MNormal s) -> predicts_anew S e x ->
  pcolor0 C <> [] -> cursor s = zlen (line s) -> line s <> [] -> room_for_line C s ->
  forall lf v0, v_state v0 = Ground -> 0 <= v_col v0 ->
  vt_shows_cut_prediction V C s (vbytes V (out_bytes E lf (out s)) v0).
Proof.
  intros Hd Hcl Hes Hw Hst Hx He Hpa Hpc Hcu Hne Hroom lf v0 Hv Hc0.
  assert (H : readline S default cur w cl (es ++ [e]) = Some (Running MNormal s)).
  { unfold readline in *. destruct (start S default cur w cl) as [x0|]; [|discriminate]. cbn in *. revert Hx. generalize x0. clear - He. induction es as [|a es IH]; intros x0 H; cbn [run app] in *; [injection H as ->; now rewrite He|].
    destruct (step S a x0); [|discriminate]. now apply IH. }
  refine (vt_cut_at default cur w cl _ s Hd Hcl Hes Hw H Hpc _ lf v0 Hv Hc0).
  exact (PredCut.cut_session S HW (proj1 HS) default cur w cl es e x s Hst Hx He Hpa Hpc Hcu Hne Hroom).
Qed.
Lemma vt_counted default cur w cl es e x s : SpecVtTabs.single_text E default -> single_clip E cl -> Forall (single_event S) (es ++ [e]) ->
  pw S + 3 < w ->
  (forall x0, start S default cur w cl = Some x0 -> calm_scroll S (es ++ [e]) x0) ->
  readline S default cur w cl es = Some x -> step S e x = Some (Running MNormal s) -> predicts_anew S e x -> single_piece S e ->
  pcolor0 C <> [] -> cursor s = zlen (line s) -> line s <> [] -> counted_fits C (brought S e x) s ->
  forall lf v0, v_state v0 = Ground -> 0 <= v_col v0 ->
  vt_shows_prediction_counted V C (brought S e x) s (vbytes V (out_bytes E lf (out s)) v0).
Proof.
  intros Hd Hcl Hes Hw Hst Hx He Hpa Hbt Hpc Hcu Hne Hroom lf v0 Hv Hc0.
  assert (H : readline S default cur w cl (es ++ [e]) = Some (Running MNormal s)).
  { unfold readline in *. destruct (start S default cur w cl) as [x0|]; [|discriminate]. cbn in *. revert Hx. generalize x0. clear - He. induction es as [|a es IH]; intros x0 H; cbn [run app] in *; [injection H as ->; now rewrite He|].
    destruct (step S a x0); [|discriminate]. now apply IH. }
  pose proof (TokTabs.readline_GS S HS default cur w cl _ _ Hw Hd Hcl Hes H) as [(N & Ht & Hf) _].
  rewrite (vtoks_bytes V S HW CL lf HPn (conj HP1 HP2) HAt _ Hf).
  pose proof (sim_end V S HW CL lf HPn (conj HP1 HP2) HAt (out s) v0 Hv Hc0 Hf) as Q. set (v := vtoks V S lf (out s) v0) in *.
  pose proof (PredExact.counted_session S HW (proj1 HS) default cur w cl es e x s Hst Hx He Hpa Hbt Hpc Hcu Hne Hroom (T V S lf (out s) v0) (sc0 v0)) as (pr & rest & Hsp & R1 & R2 & R3 & R4).
  pose proof (si_col _ _ _ _ _ Q) as Q2. pose proof (si_row _ _ _ _ _ Q) as Q4. pose proof (si_part _ _ _ _ _ Q) as Q5.
  set (sc := display _ _ _ _) in *. destruct N as (N1 & _ & _ & _ & _ & N6). change (Forall (um S) (line s)) in N1.
  set (a := part (laid E 0 (line s)) (view s) (zlen (line s))) in *.
  assert (N2 : Forall (um S) (map erase (line s))).
  { apply Forall_map. eapply Forall_impl; [|exact N1]. cbn beta. intros y (r & -> & Hr). exists r. split; [|exact Hr].
    unfold rune2moji. repeat match goal with |- context [if ?b then _ else _] => destruct b end; reflexivity. }
  assert (K : Forall (um S) (map erase pr)).
  { assert (K0 : Forall (um S) (map erase (pr ++ rest))). { rewrite <- Hsp. rewrite StringToMoji_units. apply single_units. destruct (TokTabs.Hpred S HS) as [Hp|Hp]; [contradiction|apply Hp]. }
    rewrite map_app in K0. now apply Forall_app in K0 as [K0 _]. }
  assert (Hpr : Forall drawn pr).
  { apply Forall_forall. intros y Hy. rewrite Forall_forall in K. specialize (K (erase y) (in_map _ _ _ Hy)).
    apply (um_cases S HS) in K as [K|(p & ->)]; [now left|]. apply in_split in Hy as (l1 & l2 & El).
    pose proof (TabScreen.W_pos C HW (a ++ l1)). pose proof (TabScreen.rem4 p). assert (Hwd : 1 <= width E (MTab p)) by (cbn [width]; lia).
    eapply (Q5 (topc s + W (a ++ l1)) (MTab p) 0); [lia|]. rewrite R1 by lia.
    assert (Ex : a ++ pr = (a ++ l1) ++ MTab p :: l2) by (rewrite El, <- !app_assoc; reflexivity). rewrite Ex.
    rewrite (ScreenFacts.image_at E) by (try apply (TabScreen.ok_any C HW); lia). f_equal. lia. }
  destruct (laid_ok V S HS CL (line s) N2 0 ltac:(lia)) as [L1 L2].
  exists pr, rest, (look V (laid E 0 (line s))), (look V pr). split; [exact Hsp|]. split; [exact L2|]. split; [now apply (look_tab V S HS CL)|].
  rewrite !VtScroll.look_stretch. fold a. assert (La : Forall drawn a) by now apply VtScroll.Forall_part. split; [|split; [|split; assumption]].
  - unfold look. rewrite <- map_app. intros y Hy. rewrite <- Q4 by lia. rewrite R1 by exact Hy. apply (rend_image V S HW CL lf HPn (conj HP1 HP2)). now apply Forall_app.
  - destruct (look_ok V S HW CL HPn (conj HP1 HP2) _ La) as (_ & -> & _). rewrite <- Q2. exact R2.
Qed.
Lemma vt_exact default cur w cl es e x s : SpecVtTabs.single_text E default -> single_clip E cl -> Forall (single_event S) (es ++ [e]) ->
  pw S + 3 < w ->
  (forall x0, start S default cur w cl = Some x0 -> calm_scroll S (es ++ [e]) x0) ->
  readline S default cur w cl es = Some x -> step S e x = Some (Running MNormal s) -> predicts_anew S e x -> brings_no_tab S e x ->
  pcolor0 C <> [] -> cursor s = zlen (line s) -> line s <> [] -> line_fits C s ->
  forall lf v0, v_state v0 = Ground -> 0 <= v_col v0 ->
  vt_shows_prediction_exactly V C s (vbytes V (out_bytes E lf (out s)) v0).
Proof.
  intros Hd Hcl Hes Hw Hst Hx He Hpa Hbt Hpc Hcu Hne Hroom.
  pose proof (PredExact.counted_laid S HW (proj1 HS) default cur w cl es e x s Hst Hx He Hpa Hbt Hcu Hne) as K.
  pose proof (vt_counted default cur w cl es e x s Hd Hcl Hes Hw Hst Hx He Hpa (proj2 Hbt) Hpc Hcu Hne) as G.
  unfold counted_fits, vt_shows_prediction_counted in G. rewrite K in G. exact (G Hroom).
Qed.
End Vt.
Lemma vt_cut_session V S default cur w cl es e x s : single_editor S -> SpecVtTabs.single_text (cE (base S)) default -> single_clip (cE (base S)) cl ->
  Forall (single_event S) (es ++ [e]) -> prompt_width (base S) + 3 < w < 9223372036854775808 ->
  (forall x0, start S default cur w cl = Some x0 -> calm_scroll S (es ++ [e]) x0) ->
  counts_like V (cE (base S)) ->
  ready_after V (fst (callPromptWriter (cE (base S)) (prompt (base S)))) -> ready_after V (last_line_prompt (prompt (base S))) ->
  attribute_only V (pcolor0 (base S)) -> attribute_only V (pcolor1 (base S)) ->
  readline S default cur w cl es = Some x -> step S e x = Some (Running MNormal s) -> predicts_anew S e x ->
  pcolor0 (base S) <> [] -> cursor s = zlen (line s) -> line s <> [] -> room_for_line (base S) s ->
  forall lf v0, v_state v0 = Ground -> 0 <= v_col v0 ->
  vt_shows_cut_prediction V (base S) s (vbytes V (out_bytes (cE (base S)) lf (out s)) v0).
Proof.
  intros HS Hd Hcl Hes Hw Hst CL H1 H2 HA1 HA2. pose proof (pw_nn S (proj1 (proj2 HS))) as Hn. assert (Hpw : prompt_width (base S) = pw S) by (unfold prompt_width, pw in *; lia).
  apply (vt_cut V S HS CL H1 H2 ltac:(lia)); auto. lia.
Qed.
Lemma vt_exact_session V S default cur w cl es e x s : single_editor S -> SpecVtTabs.single_text (cE (base S)) default -> single_clip (cE (base S)) cl ->
  Forall (single_event S) (es ++ [e]) -> prompt_width (base S) + 3 < w < 9223372036854775808 ->
  (forall x0, start S default cur w cl = Some x0 -> calm_scroll S (es ++ [e]) x0) ->
  counts_like V (cE (base S)) ->
  ready_after V (fst (callPromptWriter (cE (base S)) (prompt (base S)))) -> ready_after V (last_line_prompt (prompt (base S))) ->
  attribute_only V (pcolor0 (base S)) -> attribute_only V (pcolor1 (base S)) ->
  readline S default cur w cl es = Some x -> step S e x = Some (Running MNormal s) -> predicts_anew S e x -> brings_no_tab S e x ->
  pcolor0 (base S) <> [] -> cursor s = zlen (line s) -> line s <> [] -> line_fits (base S) s ->
  forall lf v0, v_state v0 = Ground -> 0 <= v_col v0 ->
  vt_shows_prediction_exactly V (base S) s (vbytes V (out_bytes (cE (base S)) lf (out s)) v0).
Proof.
  intros HS Hd Hcl Hes Hw Hst CL H1 H2 HA1 HA2. pose proof (pw_nn S (proj1 (proj2 HS))) as Hn. assert (Hpw : prompt_width (base S) = pw S) by (unfold prompt_width, pw in *; lia).
  apply (vt_exact V S HS CL H1 H2 ltac:(lia)); auto. lia.
Qed.
Lemma vt_counted_session V S default cur w cl es e x s : single_editor S -> SpecVtTabs.single_text (cE (base S)) default -> single_clip (cE (base S)) cl ->
  Forall (single_event S) (es ++ [e]) -> prompt_width (base S) + 3 < w < 9223372036854775808 ->
  (forall x0, start S default cur w cl = Some x0 -> calm_scroll S (es ++ [e]) x0) ->
  counts_like V (cE (base S)) ->
  ready_after V (fst (callPromptWriter (cE (base S)) (prompt (base S)))) -> ready_after V (last_line_prompt (prompt (base S))) ->
  attribute_only V (pcolor0 (base S)) -> attribute_only V (pcolor1 (base S)) ->
  readline S default cur w cl es = Some x -> step S e x = Some (Running MNormal s) -> predicts_anew S e x -> single_piece S e ->
  pcolor0 (base S) <> [] -> cursor s = zlen (line s) -> line s <> [] -> counted_fits (base S) (brought S e x) s ->
  forall lf v0, v_state v0 = Ground -> 0 <= v_col v0 ->
  vt_shows_prediction_counted V (base S) (brought S e x) s (vbytes V (out_bytes (cE (base S)) lf (out s)) v0).
Proof.
  intros HS Hd Hcl Hes Hw Hst CL H1 H2 HA1 HA2. pose proof (pw_nn S (proj1 (proj2 HS))) as Hn. assert (Hpw : prompt_width (base S) = pw S) by (unfold prompt_width, pw in *; lia).
  apply (vt_counted V S HS CL H1 H2 ltac:(lia)); auto. lia.
Qed.
Lemma vt_cut_start V S default cur w cl s : single_editor S -> SpecVtTabs.single_text (cE (base S)) default -> single_clip (cE (base S)) cl ->
  prompt_width (base S) + 3 < w < 9223372036854775808 -> start S default cur w cl = Some (Running MNormal s) -> tabs_apart S (Running MNormal s) ->
  counts_like V (cE (base S)) ->
  ready_after V (fst (callPromptWriter (cE (base S)) (prompt (base S)))) -> ready_after V (last_line_prompt (prompt (base S))) ->
  attribute_only V (pcolor0 (base S)) -> attribute_only V (pcolor1 (base S)) ->
  pcolor0 (base S) <> [] -> cursor s = zlen (line s) -> line s <> [] -> room_for_line (base S) s ->
  forall lf v0, v_state v0 = Ground -> 0 <= v_col v0 ->
  vt_shows_cut_prediction V (base S) s (vbytes V (out_bytes (cE (base S)) lf (out s)) v0).
Proof.
  intros HS Hd Hcl Hw Hs Hap CL H1 H2 HA1 HA2 Hpc Hcu Hne Hroom. pose proof (pw_nn S (proj1 (proj2 HS))) as Hn. assert (Hpw : prompt_width (base S) = pw S) by (unfold prompt_width, pw in *; lia).
  refine (vt_cut_at V S HS CL H1 H2 ltac:(lia) (fun _ => conj HA1 HA2) default cur w cl [] s Hd Hcl (Forall_nil _) ltac:(lia) _ Hpc _).
  - unfold readline. now rewrite Hs.
  - exact (PredExact.cut_start S (VtTabs.HW S HS) default cur w cl s Hs Hap Hpc Hcu Hne Hroom).
Qed.
