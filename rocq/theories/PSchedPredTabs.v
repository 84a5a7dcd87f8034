(** C78: the prediction beside tabs while the window is resized. *)
From Verif Require Import Base Utf8 Moji Color Prompt Buffer Commands KeyMap Session Spec Sample SpecLib SpecTerm SpecScreen SpecVt SpecTabScreen SpecVtTabs SpecTabScroll
  Sched SpecSched SchedFacts SpecPredShown SpecSchedPred VtSample VtTabsSample PPredShown.
From Verif Require SchedPredTabs PWhole TabScrollCheck.

(** C78 under every schedule: keys that edit the text, sizes at any moments.  At every wait with
    the cursor at the end of the line, what the terminal has been sent shows the line and after it the
    prediction for it, all or as many units as fit.  Missing as in C78_tabs_cut_bytes_partial. *)
Theorem C78_tabs_schedules_partial : forall S I, implements S I -> forall default cur w cl s0 ls c,
  start S default cur w cl = Some (Running MNormal s0) ->
  exec_to I (ready s0) ls (Some c) -> lp c = LRead -> ~ in_callback (sz c) ->
  forall V, single_editor S -> SpecVtTabs.single_text (cE (base S)) default -> single_clip (cE (base S)) cl ->
  prompt_width (base S) + 3 < w < 9223372036854775808 -> counts_like V (cE (base S)) ->
  ready_after V (fst (callPromptWriter (cE (base S)) (prompt (base S)))) -> ready_after V (last_line_prompt (prompt (base S))) ->
  attribute_only V (pcolor0 (base S)) -> attribute_only V (pcolor1 (base S)) -> pcolor0 (base S) <> [] ->
  Forall (single_event S) (typed ls) -> Forall (edits_text S) (typed ls) ->
  (forall es, within ls es -> calm_scroll S es (Running MNormal s0)) ->
  cursor (shared c) = zlen (line (shared c)) -> line (shared c) <> [] -> room_for_line (base S) (shared c) ->
  forall lf v0, v_state v0 = Ground -> 0 <= v_col v0 ->
  vt_shows_cut_prediction V (base S) (shared c) (vbytes V (out_bytes (cE (base S)) lf (out (shared c))) v0).
Proof. exact SchedPredTabs.schedule_cut. Qed.
Print Assumptions C78_tabs_schedules_partial.

(** The line begins as make and a tab; the size comes while the command of i runs. *)
Definition spt_s0 : buf := PWhole.get (start S_vtcut (s2l "make" ++ [9]) 5 80 None).
Definition spt_s1 : buf := PWhole.get (step S_vtcut (EKey [105]) (Running MNormal spt_s0)).
Definition spt_s2 : buf := PWhole.get (step S_vtcut (EResize 20) (Running MNormal spt_s1)).
Definition spt_labels : list label :=
  [Internal; Key [105]; Internal; Size 20; Internal; Internal; Internal; Internal; Internal; Internal; Internal; Internal].
Lemma spt_within es : within spt_labels es -> In es [[]; [EKey [105]]; [EResize 20]; [EKey [105]; EResize 20]; [EResize 20; EKey [105]]].
Proof.
  assert (N : forall es, inputs es = [] -> resizes es = [] -> es = []) by (intros [|[] l]; cbn; [reflexivity|discriminate..]).
  assert (K : forall es ks, inputs es ++ ks = [] -> inputs es = []) by (intros l ks H; now apply app_eq_nil in H).
  assert (W : forall es ws, resizes es ++ ws = [] -> resizes es = []) by (intros l ws H; now apply app_eq_nil in H).
  intros [[ks Hk] [ws Hw]]. cbn [typed sizes flat_map app spt_labels] in Hk, Hw.
  destruct es as [|e es]; [now left|]. destruct e; cbn in Hk, Hw; try discriminate.
  - injection Hk as <- Hk. symmetry in Hk. apply K in Hk. destruct es as [|e es]; [right; now left|].
    destruct e; cbn in Hk, Hw; try discriminate. injection Hw as <- Hw. symmetry in Hw. apply W in Hw. rewrite (N es Hk Hw). right; right; right; now left.
  - injection Hw as <- Hw. symmetry in Hw. apply W in Hw. destruct es as [|e es]; [right; right; now left|].
    destruct e; cbn in Hk, Hw; try discriminate. injection Hk as <- Hk. symmetry in Hk. apply K in Hk. rewrite (N es Hk Hw). right; right; right; right; now left.
Qed.
Example C78_tabs_schedules_case : forall torn other, let V := V_with torn other in
  implements S_vtcut (by_lines S_vtcut) /\ single_editor S_vtcut /\ SpecVtTabs.single_text E_vt (s2l "make" ++ [9]) /\ prompt_width (base S_vtcut) + 3 < 80 /\
  start S_vtcut (s2l "make" ++ [9]) 5 80 None = Some (Running MNormal spt_s0) /\
  counts_like V E_vt /\ ready_after V (fst (callPromptWriter E_vt (prompt (base S_vtcut)))) /\ ready_after V (last_line_prompt (prompt (base S_vtcut))) /\
  attribute_only V (pcolor0 (base S_vtcut)) /\ attribute_only V (pcolor1 (base S_vtcut)) /\ pcolor0 (base S_vtcut) <> [] /\
  Forall (single_event S_vtcut) (typed spt_labels) /\ Forall (edits_text S_vtcut) (typed spt_labels) /\
  (forall es, within spt_labels es -> calm_scroll S_vtcut es (Running MNormal spt_s0)) /\
  exec_to (by_lines S_vtcut) (ready spt_s0) spt_labels (Some (mkConf spt_s2 None LRead ZIdle)) /\
  cursor spt_s2 = zlen (line spt_s2) /\ line spt_s2 <> [] /\ room_for_line (base S_vtcut) spt_s2 /\
  let v := vbytes V_vt (out_bytes E_vt (fun _ => [10]) (out spt_s2)) (mkVt Ground 5 (fun _ => Char 120 0) 0 false) in
  (map (fun i => v_row v (Z.of_nat i)) (seq 2 17), v_col v) = (map (fun r => Char r 0) (s2l "make    instal") ++ repeat Empty 3, 11).
Proof.
  intros torn other V. split; [exact (SchedFacts.by_lines_ok S_vtcut)|]. split; [exact single_vtcut|]. split; [now apply single_textb_ok|]. split; [vm_compute; reflexivity|]. split; [vm_compute; reflexivity|].
  split; [apply vt_counts|]. split; [now apply quiet_ready|]. split; [now apply quiet_ready|].
  split; [exact (sgr_attribute V (s2l "3;22;34") eq_refl)|]. split; [exact (sgr_attribute V (s2l "23;39") eq_refl)|]. split; [discriminate|].
  split; [now apply single_eventb_ok|]. split; [constructor; [exact Logic.I|constructor]|]. split.
  { intros es He. apply TabScrollCheck.calm_scrollb_ok. apply spt_within in He. repeat (destruct He as [<-|He]; [vm_compute; reflexivity|]). destruct He. }
  split.
  { unfold ready, spt_labels.
    eapply X_cons; [apply S_flush|]. eapply X_cons; [apply S_key|]. eapply X_cons; [apply S_lock|].
    eapply X_cons; [apply S_size|].
    eapply X_cons; [apply (S_body _ _ _ _ spt_s1 (Ret (Wait MNormal))); vm_compute; reflexivity|].
    eapply X_cons; [apply S_unlock|]. eapply X_cons; [apply S_flush|].
    eapply X_cons; [apply S_size_lock|].
    eapply X_cons; [apply S_size_body; reflexivity|].
    eapply X_cons; [apply S_size_body; reflexivity|].
    eapply X_cons; [apply (S_size_body _ _ _ _ _ spt_s2 (Ret tt)); vm_compute; reflexivity|].
    eapply X_cons; [apply S_size_unlock|]. constructor. }
  split; [vm_compute; reflexivity|]. split; [vm_compute; discriminate|]. split; vm_compute; reflexivity.
Qed.
