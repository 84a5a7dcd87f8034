(** C70, and C58 for schedules: typing and resizing at the same time, on a terminal that
    reads bytes. *)
From Verif Require Import Base Utf8 Moji Color Prompt Buffer Commands KeyMap Session Spec SpecTerm SpecScreen SpecVt Sched SpecSched SpecRepl SpecTty Sample VtSample.
From Verif Require Import SchedFacts.
From Verif Require WholeFacts TtyFacts.

(** C58 whatever the order in which the goroutines of ReadLine run: at every wait for a key,
    with no resize half done, the bytes written so far show the line; also while a command
    waits for a key of its own.  [within]: some first keys and some first sizes, in any order. *)
Theorem C58_schedules_partial : forall V S I default cur w cl s0 ls c m, implements S I ->
  simple_editor S -> simple_text (cE (base S)) default -> simple_clip (cE (base S)) cl -> 0 <= cur ->
  prompt_width (base S) + 11 < w < 9223372036854775808 ->
  (forall r, 0 <= r < 128 -> joins (cE (base S)) r = false) -> counts_like V (cE (base S)) ->
  ready_after V (fst (callPromptWriter (cE (base S)) (prompt (base S)))) -> ready_after V (last_line_prompt (prompt (base S))) ->
  (pcolor0 (base S) <> [] -> attribute_only V (pcolor0 (base S)) /\ attribute_only V (pcolor1 (base S))) ->
  start S default cur w cl = Some (Running MNormal s0) -> Forall (simple_label S) ls ->
  (forall es, within ls es -> steady_run S es (Running MNormal s0)) ->
  exec_to I (ready s0) ls (Some c) -> lp c = LRead /\ m = MNormal /\ ~ in_callback (sz c) \/ lp c = LInner m ->
  forall lf v0, v_state v0 = Ground -> 0 <= v_col v0 ->
  vt_right V (cE (base S)) (Running m (shared c)) (vbytes V (out_bytes (cE (base S)) lf (out (shared c))) v0).
Proof. exact WholeFacts.schedule_screen. Qed.
Print Assumptions C58_schedules_partial.

(** The user types the characters [l] and Enter; sizes come at any moments.  In every
    schedule, whatever steps commands and the callback are made of: nothing crashes; *)
Theorem C70_no_crash : forall S I l cur w cl s0 ls, implements S I ->
  simple_editor S -> simple_clip (cE (base S)) cl -> Forall (typed_char (fun _ => S) (cE (base S))) l -> bound S [13] CAcceptLine ->
  (forall r, 0 <= r < 128 -> joins (cE (base S)) r = false) -> 0 <= cur -> prompt_width (base S) + 11 < w < 9223372036854775808 ->
  start S [] cur w cl = Some (Running MNormal s0) ->
  Forall (fun w => prompt_width (base S) + 11 < w) (sizes ls) -> (exists rest, map EKey (map encode_rune l ++ [[13]]) = typed ls ++ rest) ->
  ~ exec_to I (ready s0) ls None.
Proof. exact WholeFacts.typing_no_crash. Qed.
Print Assumptions C70_no_crash.
(** at every wait for a key the line is what has been typed so far, with the cursor at its end; *)
Theorem C70_line : forall S I l cur w cl s0 ls, implements S I ->
  Forall (typed_char (fun _ => S) (cE (base S))) l -> bound S [13] CAcceptLine -> 0 <= cur ->
  start S [] cur w cl = Some (Running MNormal s0) -> (exists rest, map EKey (map encode_rune l ++ [[13]]) = typed ls ++ rest) ->
  forall c, exec_to I (ready s0) ls (Some c) -> lp c = LRead -> ~ in_callback (sz c) ->
  exists done todo, l = done ++ todo /\ typed ls = map (fun r => EKey (encode_rune r)) done /\
    written (line (shared c)) = encode done /\ cursor (shared c) = zlen (line (shared c)).
Proof. exact WholeFacts.typing_line. Qed.
Print Assumptions C70_line.
(** the bytes written so far show that line on the terminal; *)
Theorem C70_screen : forall V S I l cur w cl s0 ls, implements S I ->
  simple_editor S -> simple_clip (cE (base S)) cl -> Forall (typed_char (fun _ => S) (cE (base S))) l -> bound S [13] CAcceptLine ->
  (forall r, 0 <= r < 128 -> joins (cE (base S)) r = false) -> 0 <= cur -> prompt_width (base S) + 11 < w < 9223372036854775808 ->
  start S [] cur w cl = Some (Running MNormal s0) ->
  Forall (fun w => prompt_width (base S) + 11 < w) (sizes ls) -> (exists rest, map EKey (map encode_rune l ++ [[13]]) = typed ls ++ rest) ->
  forall c, exec_to I (ready s0) ls (Some c) -> counts_like V (cE (base S)) ->
  ready_after V (fst (callPromptWriter (cE (base S)) (prompt (base S)))) -> ready_after V (last_line_prompt (prompt (base S))) ->
  (pcolor0 (base S) <> [] -> attribute_only V (pcolor0 (base S)) /\ attribute_only V (pcolor1 (base S))) ->
  lp c = LRead -> ~ in_callback (sz c) -> forall lf v0, v_state v0 = Ground -> 0 <= v_col v0 ->
  vt_right V (cE (base S)) (Running MNormal (shared c)) (vbytes V (out_bytes (cE (base S)) lf (out (shared c))) v0).
Proof. exact WholeFacts.typing_screen. Qed.
Print Assumptions C70_screen.
(** and ReadLine returns the whole line, without an error. *)
Theorem C70_result : forall S I l cur w cl s0 ls, implements S I ->
  Forall (typed_char (fun _ => S) (cE (base S))) l -> bound S [13] CAcceptLine -> 0 <= cur ->
  start S [] cur w cl = Some (Running MNormal s0) -> (exists rest, map EKey (map encode_rune l ++ [[13]]) = typed ls ++ rest) ->
  forall c, exec_to I (ready s0) ls (Some c) -> forall t e, lp c = LEnd t e -> t = encode l /\ e = RNil.
Proof. exact WholeFacts.typing_result. Qed.
Print Assumptions C70_result.

(** The terminal of C58, a Japanese letter, a size that comes in the middle of its command
    and has to wait, and Enter. *)
Definition get (x : option sess) : buf := match x with Some (Running _ s) | Some (Finished s _ _) => s | _ => new_buffer S_vt 0 None end.
Definition C70_s0 : buf := get (start S_vt [] 0 80 None).
Definition C70_s1 : buf := get (step S_vt (EKey (encode [12354])) (Running MNormal C70_s0)).
Definition C70_s2 : buf := get (step S_vt (EResize 40) (Running MNormal C70_s1)).
Definition C70_s3 : buf := get (step S_vt (key 13) (Running MNormal C70_s2)).
Definition C70_labels : list label :=
  [Internal; Key (encode [12354]); Internal; Size 40; Internal; Internal; Internal; Internal; Internal; Internal; Internal; Internal].
Example C70_case : forall torn other, let V := V_with torn other in
  implements S_vt (by_lines S_vt) /\ simple_editor S_vt /\ Forall (typed_char (fun _ => S_vt) E_vt) [12354] /\ bound S_vt [13] CAcceptLine /\
  (forall r, 0 <= r < 128 -> joins E_vt r = false) /\ prompt_width (base S_vt) + 11 < 40 /\ start S_vt [] 0 80 None = Some (Running MNormal C70_s0) /\
  (exists rest, map EKey (map encode_rune [12354] ++ [[13]]) = typed C70_labels ++ rest) /\ sizes C70_labels = [40] /\
  counts_like V E_vt /\ ready_after V (fst (callPromptWriter E_vt (prompt (base S_vt)))) /\ ready_after V (last_line_prompt (prompt (base S_vt))) /\
  attribute_only V (pcolor0 (base S_vt)) /\ attribute_only V (pcolor1 (base S_vt)) /\
  exec_to (by_lines S_vt) (ready C70_s0) C70_labels (Some (mkConf C70_s2 None LRead ZIdle)) /\
  written (line C70_s2) = encode [12354] /\
  exec_to (by_lines S_vt) (ready C70_s0) (C70_labels ++ [Key [13]; Internal; Internal; Internal]) (Some (mkConf C70_s3 None (LEnd (encode [12354]) RNil) ZIdle)).
Proof.
  intros torn other V. split; [exact (SchedFacts.by_lines_ok S_vt)|]. split; [exact simple_vt|]. split.
  { constructor; [|constructor]. apply TtyFacts.printable; try reflexivity; try lia. intros h. split; [constructor|exact TtyFacts.global_control]. }
  split; [reflexivity|]. split; [exact low_vt|]. split; [vm_compute; reflexivity|]. split; [vm_compute; reflexivity|].
  split; [eexists; reflexivity|]. split; [reflexivity|]. split; [apply vt_counts|]. split; [now apply quiet_ready|]. split; [now apply quiet_ready|].
  split; [exact (sgr_attribute V (s2l "3;22;34") eq_refl)|]. split; [exact (sgr_attribute V (s2l "23;39") eq_refl)|].
  assert (G : forall more o, exec_to (by_lines S_vt) (mkConf C70_s2 None LRead ZIdle) more o -> exec_to (by_lines S_vt) (ready C70_s0) (C70_labels ++ more) o).
  { intros more o H. unfold ready, C70_labels. cbn [app].
    eapply X_cons; [apply S_flush|]. eapply X_cons; [apply S_key|]. eapply X_cons; [apply S_lock|].
    eapply X_cons; [apply S_size|].
    eapply X_cons; [apply (S_body _ _ _ _ C70_s1 (Ret (Wait MNormal))); vm_compute; reflexivity|].
    eapply X_cons; [apply S_unlock|]. eapply X_cons; [apply S_flush|].
    eapply X_cons; [apply S_size_lock|].
    eapply X_cons; [apply S_size_body; reflexivity|].
    eapply X_cons; [apply S_size_body; reflexivity|].
    eapply X_cons; [apply (S_size_body _ _ _ _ _ C70_s2 (Ret tt)); vm_compute; reflexivity|].
    eapply X_cons; [apply S_size_unlock|]. exact H. }
  split; [|split; [vm_compute; reflexivity|]].
  - rewrite <- (app_nil_r C70_labels). apply G. constructor.
  - apply G. eapply X_cons; [apply S_key|]. eapply X_cons; [apply S_lock|].
    eapply X_cons; [apply (S_body _ _ _ _ C70_s3 (Ret (Return (encode [12354]) RNil))); vm_compute; reflexivity|].
    apply X_last. apply S_return.
Qed.
