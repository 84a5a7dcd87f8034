(** C58 with tabs, C69, C70 and C73 whatever the order in which the goroutines of ReadLine
    run.  As in PWhole.v: at every wait for a key with no resize half done, and while a
    command waits for a key of its own. *)
From Verif Require Import Base Utf8 Moji Color Prompt Buffer Commands KeyMap Session Spec SpecLib SpecTerm SpecScreen SpecPaint SpecInk SpecVt SpecVtInk SpecTabScreen SpecVtTabs SpecTabScroll SpecVtScroll SpecPromptRow
  Sched SpecSched SpecRepl SpecTty Sample VtSample VtInkSample VtTabsSample TabScreenCheck.
From Verif Require Import SchedFacts.
From Verif Require SchedScreen InkProps PWhole PPromptRow TabScrollCheck.

(** C58 with tabs. *)
Theorem C58_tabs_schedules_partial : forall S I, implements S I -> forall default cur w cl s0 ls c m,
  start S default cur w cl = Some (Running MNormal s0) ->
  exec_to I (ready s0) ls (Some c) -> lp c = LRead /\ m = MNormal /\ ~ in_callback (sz c) \/ lp c = LInner m ->
  forall V, single_editor S -> pcolor0 (base S) = [] -> single_text (cE (base S)) default -> single_clip (cE (base S)) cl ->
  prompt_width (base S) + 3 < w < 9223372036854775808 -> counts_like V (cE (base S)) ->
  ready_after V (fst (callPromptWriter (cE (base S)) (prompt (base S)))) -> ready_after V (last_line_prompt (prompt (base S))) ->
  Forall (single_event S) (typed ls) -> (forall es, within ls es -> calm_tabs S es (Running MNormal s0)) ->
  forall lf v0, v_state v0 = Ground -> 0 <= v_col v0 ->
  vt_tabs_right V (cE (base S)) (Running m (shared c)) (vbytes V (out_bytes (cE (base S)) lf (out (shared c))) v0).
Proof. exact SchedScreen.schedule_tabs. Qed.
Print Assumptions C58_tabs_schedules_partial.
(** Lines that scroll, and predictions. *)
Theorem C58_tabs_scroll_schedules_partial : forall S I, implements S I -> forall default cur w cl s0 ls c m,
  start S default cur w cl = Some (Running MNormal s0) ->
  exec_to I (ready s0) ls (Some c) -> lp c = LRead /\ m = MNormal /\ ~ in_callback (sz c) \/ lp c = LInner m ->
  forall V, single_editor S -> single_text (cE (base S)) default -> single_clip (cE (base S)) cl ->
  prompt_width (base S) + 3 < w < 9223372036854775808 -> counts_like V (cE (base S)) ->
  ready_after V (fst (callPromptWriter (cE (base S)) (prompt (base S)))) -> ready_after V (last_line_prompt (prompt (base S))) ->
  (pcolor0 (base S) <> [] -> attribute_only V (pcolor0 (base S)) /\ attribute_only V (pcolor1 (base S))) ->
  Forall (single_event S) (typed ls) -> (forall es, within ls es -> calm_scroll S es (Running MNormal s0)) ->
  forall lf v0, v_state v0 = Ground -> 0 <= v_col v0 ->
  vt_scrolled_right V (cE (base S)) (Running m (shared c)) (vbytes V (out_bytes (cE (base S)) lf (out (shared c))) v0).
Proof. exact SchedScreen.schedule_tabs_scroll. Qed.
Print Assumptions C58_tabs_scroll_schedules_partial.

(** C69: the colours. *)
Theorem C69_schedules_partial : forall S I, implements S I -> forall default cur w cl s0 ls c m,
  start S default cur w cl = Some (Running MNormal s0) ->
  exec_to I (ready s0) ls (Some c) -> lp c = LRead /\ m = MNormal /\ ~ in_callback (sz c) \/ lp c = LInner m ->
  forall V worn, simple_editor S -> simple_text (cE (base S)) default -> simple_clip (cE (base S)) cl -> 0 <= cur ->
  prompt_width (base S) + 11 < w < 9223372036854775808 ->
  (forall r, 0 <= r < 128 -> joins (cE (base S)) r = false) -> blind (ccol (base S)) -> true_colours (ccol (base S)) ->
  counts_like V (cE (base S)) ->
  ready_after V (fst (callPromptWriter (cE (base S)) (prompt (base S)))) -> ready_after V (last_line_prompt (prompt (base S))) ->
  (pcolor0 (base S) <> [] -> colours_only V worn (pcolor0 (base S)) /\ colours_only V worn (pcolor1 (base S))) ->
  Forall (simple_label S) ls -> (forall es, within ls es -> steady_run S es (Running MNormal s0)) ->
  forall lf c0, v_state (c_vt c0) = Ground -> 0 <= v_col (c_vt c0) ->
  vt_colours V worn (base S) (Running m (shared c)) (cbytes V worn (out_bytes (cE (base S)) lf (out (shared c))) c0).
Proof. exact SchedScreen.schedule_colours. Qed.
Print Assumptions C69_schedules_partial.

(** C73: the prompt, without tabs and with them. *)
Theorem C73_schedules_partial : forall S I, implements S I -> forall default cur w cl s0 ls c m,
  start S default cur w cl = Some (Running MNormal s0) ->
  exec_to I (ready s0) ls (Some c) -> lp c = LRead /\ m = MNormal /\ ~ in_callback (sz c) \/ lp c = LInner m ->
  forall V ps, simple_editor S -> simple_text (cE (base S)) default -> simple_clip (cE (base S)) cl ->
  prompt_width (base S) + 11 < w < 9223372036854775808 ->
  (forall r, 0 <= r < 128 -> joins (cE (base S)) r = false) -> counts_like V (cE (base S)) -> returns V ->
  prompt_is S ps -> Forall (showable V) ps -> vcolumns V (visible ps) = prompt_width (base S) ->
  (pcolor0 (base S) <> [] -> attribute_only V (pcolor0 (base S)) /\ attribute_only V (pcolor1 (base S))) ->
  Forall (simple_label S) ls -> forall lf v0, v_state v0 = Ground -> 0 <= v_col v0 -> begins ps v0 ->
  prompt_on_row V ps (Running m (shared c)) (vbytes V (out_bytes (cE (base S)) lf (out (shared c))) v0).
Proof. exact SchedScreen.schedule_prompt. Qed.
Print Assumptions C73_schedules_partial.
Theorem C73_tabs_schedules_partial : forall S I, implements S I -> forall default cur w cl s0 ls c m,
  start S default cur w cl = Some (Running MNormal s0) ->
  exec_to I (ready s0) ls (Some c) -> lp c = LRead /\ m = MNormal /\ ~ in_callback (sz c) \/ lp c = LInner m ->
  forall V ps, single_editor S -> single_text (cE (base S)) default -> single_clip (cE (base S)) cl ->
  prompt_width (base S) + 3 < w < 9223372036854775808 -> counts_like V (cE (base S)) -> returns V ->
  prompt_is S ps -> Forall (showable V) ps -> vcolumns V (visible ps) = prompt_width (base S) ->
  (pcolor0 (base S) <> [] -> attribute_only V (pcolor0 (base S)) /\ attribute_only V (pcolor1 (base S))) ->
  Forall (single_event S) (typed ls) -> forall lf v0, v_state v0 = Ground -> 0 <= v_col v0 -> begins ps v0 ->
  prompt_on_row V ps (Running m (shared c)) (vbytes V (out_bytes (cE (base S)) lf (out (shared c))) v0).
Proof. exact SchedScreen.schedule_prompt_tabs. Qed.
Print Assumptions C73_tabs_schedules_partial.

(** C70: the user types the characters [l] and Enter while sizes come at any moments.  At
    every wait the row begins with the prompt; *)
Theorem C70_prompt : forall V S I l cur w cl s0 ls, implements S I ->
  simple_editor S -> simple_clip (cE (base S)) cl -> Forall (typed_char (fun _ => S) (cE (base S))) l -> bound S [13] CAcceptLine ->
  (forall r, 0 <= r < 128 -> joins (cE (base S)) r = false) -> prompt_width (base S) + 11 < w < 9223372036854775808 ->
  start S [] cur w cl = Some (Running MNormal s0) ->
  Forall (fun w => prompt_width (base S) + 11 < w) (sizes ls) -> (exists rest, map EKey (map encode_rune l ++ [[13]]) = typed ls ++ rest) ->
  forall c, exec_to I (ready s0) ls (Some c) ->
  forall ps, counts_like V (cE (base S)) -> returns V ->
  prompt_is S ps -> Forall (showable V) ps -> vcolumns V (visible ps) = prompt_width (base S) ->
  (pcolor0 (base S) <> [] -> attribute_only V (pcolor0 (base S)) /\ attribute_only V (pcolor1 (base S))) ->
  lp c = LRead -> ~ in_callback (sz c) -> forall lf v0, v_state v0 = Ground -> 0 <= v_col v0 -> begins ps v0 ->
  prompt_on_row V ps (Running MNormal (shared c)) (vbytes V (out_bytes (cE (base S)) lf (out (shared c))) v0).
Proof. exact SchedScreen.typing_prompt. Qed.
Print Assumptions C70_prompt.
(** with the colouring of the library, the line is in the colours of the table of C40. *)
Theorem C70_colours : forall V S I l cur w cl s0 ls, implements S I ->
  simple_editor S -> simple_clip (cE (base S)) cl -> Forall (typed_char (fun _ => S) (cE (base S))) l -> bound S [13] CAcceptLine ->
  (forall r, 0 <= r < 128 -> joins (cE (base S)) r = false) -> 0 <= cur -> prompt_width (base S) + 11 < w < 9223372036854775808 ->
  start S [] cur w cl = Some (Running MNormal s0) ->
  Forall (fun w => prompt_width (base S) + 11 < w) (sizes ls) -> (exists rest, map EKey (map encode_rune l ++ [[13]]) = typed ls ++ rest) ->
  forall c, exec_to I (ready s0) ls (Some c) ->
  forall worn, ccol (base S) = VimBatch -> counts_like V (cE (base S)) ->
  ready_after V (fst (callPromptWriter (cE (base S)) (prompt (base S)))) -> ready_after V (last_line_prompt (prompt (base S))) ->
  (pcolor0 (base S) <> [] -> colours_only V worn (pcolor0 (base S)) /\ colours_only V worn (pcolor1 (base S))) ->
  lp c = LRead -> ~ in_callback (sz c) -> forall lf c0, v_state (c_vt c0) = Ground -> 0 <= v_col (c_vt c0) ->
  vim_on_screen V (base S) (Running MNormal (shared c)) (cbytes V worn (out_bytes (cE (base S)) lf (out (shared c))) c0).
Proof. exact SchedScreen.typing_colours. Qed.
Print Assumptions C70_colours.

(** The schedule of C70_case (PWhole.v), with the prompt and the terminal of C73_case, meets
    the conditions of C69, C70 and C73 together. *)
Example C73_schedules_case : forall torn other worn, let V := V_with torn (PPromptRow.lines_then other) in
  Forall (simple_label S_vt) PWhole.C70_labels /\ (forall es, within PWhole.C70_labels es -> steady_run S_vt es (Running MNormal PWhole.C70_s0)) /\
  exec_to (by_lines S_vt) (ready PWhole.C70_s0) PWhole.C70_labels (Some (mkConf PWhole.C70_s2 None LRead ZIdle)) /\
  start S_vt [] 0 80 None = Some (Running MNormal PWhole.C70_s0) /\ ccol (base S_vt) = VimBatch /\ blind VimBatch /\ true_colours VimBatch /\
  counts_like V E_vt /\ returns V /\ prompt_is S_vt PPromptRow.C73_prompt /\ Forall (showable V) PPromptRow.C73_prompt /\
  vcolumns V (visible PPromptRow.C73_prompt) = prompt_width (base S_vt) /\
  ready_after V (fst (callPromptWriter E_vt (prompt (base S_vt)))) /\ ready_after V (last_line_prompt (prompt (base S_vt))) /\
  (colours_only V worn (pcolor0 (base S_vt)) /\ colours_only V worn (pcolor1 (base S_vt))).
Proof.
  intros torn other worn V. destruct (PWhole.C70_case torn other) as (HI & HE & Hl & Hb & Hj & Hw & Hs & Hk & Hz & _ & _ & _ & _ & _ & Hx & _).
  assert (Hz' : Forall (fun w => prompt_width (base S_vt) + 11 < w) (sizes PWhole.C70_labels)) by (rewrite Hz; constructor; [exact Hw|constructor]).
  split; [eapply (SchedScreen.labels S_vt [12354] 80); eassumption|]. split; [eapply SchedScreen.steady; try eassumption; lia|]. split; [exact Hx|]. split; [exact Hs|].
  split; [reflexivity|]. split; [exact InkProps.vim_blind|]. split; [exact InkProps.vim_true|]. split; [apply vt_counts|]. split; [apply PPromptRow.lines_return|].
  split; [reflexivity|]. split; [apply PPromptRow.C73_showable|]. split; [reflexivity|]. split; [now apply quiet_ready|]. split; [now apply quiet_ready|].
  split; [exact (sgr_colours V worn (s2l "3;22;34") eq_refl)|exact (sgr_colours V worn (s2l "23;39") eq_refl)].
Qed.

(** With tabs: the line begins as a, a tab and b; the size comes while the command of Ctrl-A runs. *)
Definition tab_s0 : buf := PWhole.get (start S_vtt (s2l "a" ++ [9] ++ s2l "b") 3 80 None).
Definition tab_s1 : buf := PWhole.get (step S_vtt (key 1) (Running MNormal tab_s0)).
Definition tab_s2 : buf := PWhole.get (step S_vtt (EResize 40) (Running MNormal tab_s1)).
Definition tab_labels : list label :=
  [Internal; Key [1]; Internal; Size 40; Internal; Internal; Internal; Internal; Internal; Internal; Internal; Internal].
Lemma tab_within es : within tab_labels es -> In es [[]; [key 1]; [EResize 40]; [key 1; EResize 40]; [EResize 40; key 1]].
Proof.
  assert (N : forall es, inputs es = [] -> resizes es = [] -> es = []) by (intros [|[] l]; cbn; [reflexivity|discriminate..]).
  assert (K : forall es ks, inputs es ++ ks = [] -> inputs es = []) by (intros l ks H; now apply app_eq_nil in H).
  assert (W : forall es ws, resizes es ++ ws = [] -> resizes es = []) by (intros l ws H; now apply app_eq_nil in H).
  intros [[ks Hk] [ws Hw]]. cbn [typed sizes flat_map app tab_labels] in Hk, Hw.
  destruct es as [|e es]; [now left|]. destruct e; cbn in Hk, Hw; try discriminate.
  - injection Hk as <- Hk. symmetry in Hk. apply K in Hk. destruct es as [|e es]; [right; now left|].
    destruct e; cbn in Hk, Hw; try discriminate. injection Hw as <- Hw. symmetry in Hw. apply W in Hw. rewrite (N es Hk Hw). right; right; right; now left.
  - injection Hw as <- Hw. symmetry in Hw. apply W in Hw. destruct es as [|e es]; [right; right; now left|].
    destruct e; cbn in Hk, Hw; try discriminate. injection Hk as <- Hk. symmetry in Hk. apply K in Hk. rewrite (N es Hk Hw). right; right; right; right; now left.
Qed.
Example C58_tabs_schedules_case : forall torn other, let V := V_with torn other in
  single_editor S_vtt /\ single_text E_vt (s2l "a" ++ [9] ++ s2l "b") /\ prompt_width (base S_vtt) + 3 < 80 /\
  start S_vtt (s2l "a" ++ [9] ++ s2l "b") 3 80 None = Some (Running MNormal tab_s0) /\
  Forall (single_event S_vtt) (typed tab_labels) /\ (forall es, within tab_labels es -> calm_tabs S_vtt es (Running MNormal tab_s0)) /\
  (forall es, within tab_labels es -> calm_scroll S_vtt es (Running MNormal tab_s0)) /\
  exec_to (by_lines S_vtt) (ready tab_s0) tab_labels (Some (mkConf tab_s2 None LRead ZIdle)) /\ cursor tab_s2 = 0 /\ termw tab_s2 = 40 /\ implements S_vtt (by_lines S_vtt).
Proof.
  intros torn other V. split; [exact single_vtt|]. split; [now apply single_textb_ok|]. split; [vm_compute; reflexivity|]. split; [vm_compute; reflexivity|].
  split; [now apply single_eventb_ok|]. split.
  { intros es He. apply calm_tabsb_ok. apply tab_within in He. repeat (destruct He as [<-|He]; [vm_compute; reflexivity|]). destruct He. }
  split.
  { intros es He. apply TabScrollCheck.calm_scrollb_ok. apply tab_within in He. repeat (destruct He as [<-|He]; [vm_compute; reflexivity|]). destruct He. }
  split; [|split; [vm_compute; reflexivity|split; [vm_compute; reflexivity|exact (SchedFacts.by_lines_ok S_vtt)]]].
  unfold ready, tab_labels.
  eapply X_cons; [apply S_flush|]. eapply X_cons; [apply S_key|]. eapply X_cons; [apply S_lock|].
  eapply X_cons; [apply S_size|].
  eapply X_cons; [apply (S_body _ _ _ _ tab_s1 (Ret (Wait MNormal))); vm_compute; reflexivity|].
  eapply X_cons; [apply S_unlock|]. eapply X_cons; [apply S_flush|].
  eapply X_cons; [apply S_size_lock|].
  eapply X_cons; [apply S_size_body; reflexivity|].
  eapply X_cons; [apply S_size_body; reflexivity|].
  eapply X_cons; [apply (S_size_body _ _ _ _ _ tab_s2 (Ret tt)); vm_compute; reflexivity|].
  eapply X_cons; [apply S_size_unlock|]. constructor.
Qed.
