(** C70: the prediction on the screen while the window is resized. *)
From Verif Require Import Base Utf8 Moji Color Prompt Buffer Commands KeyMap Session Spec Sample SpecLib SpecTerm SpecScreen SpecVt
  Sched SpecSched SchedFacts SpecRepl SpecTty SpecPredShown VtSample.
From Verif Require SchedPred TtyFacts PWhole.

(** The user types the characters [l] and Enter while sizes come at any moments.  At every wait
    where the line is not empty, what the terminal has been sent shows the end of the line and
    after it the prediction for the line, as far as it fits. *)
Theorem C70_prediction : forall V S I l cur w cl s0 ls, implements S I ->
  simple_editor S -> simple_clip (cE (base S)) cl -> Forall (typed_char (fun _ => S) (cE (base S))) l -> bound S [13] CAcceptLine ->
  (forall r, 0 <= r < 128 -> joins (cE (base S)) r = false) -> 0 <= cur -> prompt_width (base S) + 11 < w < 9223372036854775808 ->
  start S [] cur w cl = Some (Running MNormal s0) ->
  Forall (fun w => prompt_width (base S) + 11 < w) (sizes ls) -> (exists rest, map EKey (map encode_rune l ++ [[13]]) = typed ls ++ rest) ->
  forall c, exec_to I (ready s0) ls (Some c) -> counts_like V (cE (base S)) ->
  ready_after V (fst (callPromptWriter (cE (base S)) (prompt (base S)))) -> ready_after V (last_line_prompt (prompt (base S))) ->
  attribute_only V (pcolor0 (base S)) -> attribute_only V (pcolor1 (base S)) -> pcolor0 (base S) <> [] ->
  lp c = LRead -> ~ in_callback (sz c) -> line (shared c) <> [] -> forall lf v0, v_state v0 = Ground -> 0 <= v_col v0 ->
  vt_shows_prediction V (base S) (shared c) (vbytes V (out_bytes (cE (base S)) lf (out (shared c))) v0).
Proof. exact SchedPred.typing_prediction. Qed.
Print Assumptions C70_prediction.

(** A character, and a size that comes in the middle of its command and has to wait. *)
Definition pred_s0 : buf := PWhole.get (start S_vt [] 0 80 None).
Definition pred_s1 : buf := PWhole.get (step S_vt (EKey (encode [99])) (Running MNormal pred_s0)).
Definition pred_s2 : buf := PWhole.get (step S_vt (EResize 15) (Running MNormal pred_s1)).
Definition pred_labels : list label :=
  [Internal; Key (encode [99]); Internal; Size 15; Internal; Internal; Internal; Internal; Internal; Internal; Internal; Internal].
Example C70_prediction_case : forall torn other, let V := V_with torn other in
  implements S_vt (by_lines S_vt) /\ simple_editor S_vt /\ Forall (typed_char (fun _ => S_vt) E_vt) [99] /\ bound S_vt [13] CAcceptLine /\
  (forall r, 0 <= r < 128 -> joins E_vt r = false) /\ prompt_width (base S_vt) + 11 < 15 /\ start S_vt [] 0 80 None = Some (Running MNormal pred_s0) /\
  (exists rest, map EKey (map encode_rune [99] ++ [[13]]) = typed pred_labels ++ rest) /\ sizes pred_labels = [15] /\
  counts_like V E_vt /\ ready_after V (fst (callPromptWriter E_vt (prompt (base S_vt)))) /\ ready_after V (last_line_prompt (prompt (base S_vt))) /\
  attribute_only V (pcolor0 (base S_vt)) /\ attribute_only V (pcolor1 (base S_vt)) /\ pcolor0 (base S_vt) <> [] /\
  exec_to (by_lines S_vt) (ready pred_s0) pred_labels (Some (mkConf pred_s2 None LRead ZIdle)) /\ line pred_s2 <> [] /\
  let v := vbytes V_vt (out_bytes E_vt (fun _ => [10]) (out pred_s2)) (mkVt Ground 5 (fun _ => Char 120 0) 0 false) in
  (map (fun i => v_row v (Z.of_nat i)) (seq 0 14), v_col v) = (map (fun r => Char r 0) (s2l "$ cat readm") ++ repeat Empty 3, 3).
Proof.
  intros torn other V. split; [exact (SchedFacts.by_lines_ok S_vt)|]. split; [exact simple_vt|]. split.
  { constructor; [|constructor]. apply TtyFacts.printable; try reflexivity; try lia. intros h. split; [constructor|exact TtyFacts.global_control]. }
  split; [reflexivity|]. split; [exact low_vt|]. split; [vm_compute; reflexivity|]. split; [vm_compute; reflexivity|].
  split; [eexists; reflexivity|]. split; [reflexivity|]. split; [apply vt_counts|]. split; [now apply quiet_ready|]. split; [now apply quiet_ready|].
  split; [exact (sgr_attribute V (s2l "3;22;34") eq_refl)|]. split; [exact (sgr_attribute V (s2l "23;39") eq_refl)|]. split; [discriminate|]. split.
  { unfold ready, pred_labels.
    eapply X_cons; [apply S_flush|]. eapply X_cons; [apply S_key|]. eapply X_cons; [apply S_lock|].
    eapply X_cons; [apply S_size|].
    eapply X_cons; [apply (S_body _ _ _ _ pred_s1 (Ret (Wait MNormal))); vm_compute; reflexivity|].
    eapply X_cons; [apply S_unlock|]. eapply X_cons; [apply S_flush|].
    eapply X_cons; [apply S_size_lock|].
    eapply X_cons; [apply S_size_body; reflexivity|].
    eapply X_cons; [apply S_size_body; reflexivity|].
    eapply X_cons; [apply (S_size_body _ _ _ _ _ pred_s2 (Ret tt)); vm_compute; reflexivity|].
    eapply X_cons; [apply S_size_unlock|]. constructor. }
  split; [vm_compute; discriminate|]. vm_compute. reflexivity.
Qed.
