(** C69 for lines with tabs that scroll, beside predictions, whatever the order in which the
    goroutines of ReadLine run. *)
From Verif Require Import Base Utf8 Moji Color Prompt Buffer Commands KeyMap Session Spec SpecLib SpecTerm SpecScreen SpecPaint SpecInk SpecVt SpecVtInk SpecTabScreen SpecVtTabs SpecTabScroll SpecVtScrollInk
  Sched SpecSched Sample VtSample VtInkSample VtTabsSample.
From Verif Require Import SchedFacts.
From Verif Require SchedScrollInk PSchedScreen PWhole TabScrollCheck.

(** C69_tabs_scroll at every wait for a key with no resize half done, and while a command waits
    for a key of its own. *)
Theorem C69_tabs_scroll_schedules_partial : forall S I, implements S I -> forall default cur w cl s0 ls c m,
  start S default cur w cl = Some (Running MNormal s0) ->
  exec_to I (ready s0) ls (Some c) -> lp c = LRead /\ m = MNormal /\ ~ in_callback (sz c) \/ lp c = LInner m ->
  forall V worn, single_editor S -> single_text (cE (base S)) default -> single_clip (cE (base S)) cl ->
  prompt_width (base S) + 3 < w < 9223372036854775808 ->
  blind (ccol (base S)) -> true_colours (ccol (base S)) -> counts_like V (cE (base S)) ->
  ready_after V (fst (callPromptWriter (cE (base S)) (prompt (base S)))) -> ready_after V (last_line_prompt (prompt (base S))) ->
  (pcolor0 (base S) <> [] -> colours_only V worn (pcolor0 (base S)) /\ colours_only V worn (pcolor1 (base S))) ->
  Forall (single_event S) (typed ls) ->
  (forall es, within ls es -> calm_scroll S es (Running MNormal s0) /\ heard_run S es (Running MNormal s0)) ->
  forall lf c0, v_state (c_vt c0) = Ground -> 0 <= v_col (c_vt c0) ->
  vt_scroll_colours V worn (base S) (Running m (shared c)) (cbytes V worn (out_bytes (cE (base S)) lf (out (shared c))) c0).
Proof. exact SchedScrollInk.schedule_scroll_ink. Qed.
Print Assumptions C69_tabs_scroll_schedules_partial.
(** With the colouring that comes with the library. *)
Theorem C69_tabs_scroll_vimbatch_schedules_partial : forall S I, implements S I -> forall default cur w cl s0 ls c m,
  start S default cur w cl = Some (Running MNormal s0) ->
  exec_to I (ready s0) ls (Some c) -> lp c = LRead /\ m = MNormal /\ ~ in_callback (sz c) \/ lp c = LInner m ->
  forall V worn, single_editor S -> single_text (cE (base S)) default -> single_clip (cE (base S)) cl ->
  prompt_width (base S) + 3 < w < 9223372036854775808 ->
  ccol (base S) = VimBatch -> counts_like V (cE (base S)) ->
  ready_after V (fst (callPromptWriter (cE (base S)) (prompt (base S)))) -> ready_after V (last_line_prompt (prompt (base S))) ->
  (pcolor0 (base S) <> [] -> colours_only V worn (pcolor0 (base S)) /\ colours_only V worn (pcolor1 (base S))) ->
  Forall (single_event S) (typed ls) ->
  (forall es, within ls es -> calm_scroll S es (Running MNormal s0)) ->
  forall lf c0, v_state (c_vt c0) = Ground -> 0 <= v_col (c_vt c0) ->
  vim_scroll_on_screen V worn (base S) (Running m (shared c)) (cbytes V worn (out_bytes (cE (base S)) lf (out (shared c))) c0).
Proof. exact SchedScrollInk.schedule_scroll_vim. Qed.
Print Assumptions C69_tabs_scroll_vimbatch_schedules_partial.

(** With predictions: the line begins as a, a tab and b; the size comes while the command of
    Ctrl-A runs. *)
Definition si_s0 : buf := PWhole.get (start S_vttp (s2l "a" ++ [9] ++ s2l "b") 3 80 None).
Definition si_s1 : buf := PWhole.get (step S_vttp (key 1) (Running MNormal si_s0)).
Definition si_s2 : buf := PWhole.get (step S_vttp (EResize 40) (Running MNormal si_s1)).
Example C69_tabs_scroll_schedules_case :
  single_editor S_vttp /\ single_text E_vt (s2l "a" ++ [9] ++ s2l "b") /\ prompt_width (base S_vttp) + 3 < 80 /\ ccol (base S_vttp) = VimBatch /\
  start S_vttp (s2l "a" ++ [9] ++ s2l "b") 3 80 None = Some (Running MNormal si_s0) /\
  Forall (single_event S_vttp) (typed PSchedScreen.tab_labels) /\
  (forall es, within PSchedScreen.tab_labels es -> calm_scroll S_vttp es (Running MNormal si_s0)) /\
  exec_to (by_lines S_vttp) (ready si_s0) PSchedScreen.tab_labels (Some (mkConf si_s2 None LRead ZIdle)) /\ cursor si_s2 = 0 /\ termw si_s2 = 40 /\
  implements S_vttp (by_lines S_vttp).
Proof.
  split; [exact single_vttp|]. split; [now apply single_textb_ok|]. split; [vm_compute; reflexivity|]. split; [reflexivity|]. split; [vm_compute; reflexivity|].
  split; [now apply single_eventb_ok|]. split.
  { intros es He. apply TabScrollCheck.calm_scrollb_ok. apply PSchedScreen.tab_within in He. repeat (destruct He as [<-|He]; [vm_compute; reflexivity|]). destruct He. }
  split; [|split; [vm_compute; reflexivity|split; [vm_compute; reflexivity|exact (SchedFacts.by_lines_ok S_vttp)]]].
  unfold ready, PSchedScreen.tab_labels.
  eapply X_cons; [apply S_flush|]. eapply X_cons; [apply S_key|]. eapply X_cons; [apply S_lock|].
  eapply X_cons; [apply S_size|].
  eapply X_cons; [apply (S_body _ _ _ _ si_s1 (Ret (Wait MNormal))); vm_compute; reflexivity|].
  eapply X_cons; [apply S_unlock|]. eapply X_cons; [apply S_flush|].
  eapply X_cons; [apply S_size_lock|].
  eapply X_cons; [apply S_size_body; reflexivity|].
  eapply X_cons; [apply S_size_body; reflexivity|].
  eapply X_cons; [apply (S_size_body _ _ _ _ _ si_s2 (Ret tt)); vm_compute; reflexivity|].
  eapply X_cons; [apply S_size_unlock|]. constructor.
Qed.
