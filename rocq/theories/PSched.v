(** C35: resizes at any moment. *)
From Verif Require Import Base Utf8 Moji Color Prompt Buffer Commands KeyMap Session Spec Sample Reach
  SpecTabs TabsSample Sched SpecSched SchedFacts SchedTabs.

(** A run of the two goroutines from the first wait for a key.  [implements S I] says that
    [I] is some way of cutting the commands and the callback into atomic steps; the
    theorems hold for every one.  At every wait of the loop for a key, with no callback
    half done, the buffer is what the keys read so far, with whole resizes between them,
    make of it in that order.  Partial: the time before the first wait is left out, see
    C35_start_refuted. *)
Theorem C35_atomic_partial : forall S I, implements S I -> forall s0 ls c, exec_to I (ready s0) ls (Some c) ->
  lp c = LRead -> ~ in_callback (sz c) ->
  exists es, run S es (Running MNormal s0) = Some (Running MNormal (shared c)) /\
    inputs es = typed ls /\ sizes ls = resizes es ++ waiting (sz c).
Proof. exact atomic_wait. Qed.
Print Assumptions C35_atomic_partial.
(** The same where a command waits for a key of its own (quoted insert, search); *)
Theorem C35_atomic_inner_partial : forall S I, implements S I -> forall s0 ls c m, exec_to I (ready s0) ls (Some c) ->
  lp c = LInner m ->
  exists es, run S es (Running MNormal s0) = Some (Running m (shared c)) /\
    inputs es = typed ls /\ sizes ls = resizes es ++ waiting (sz c).
Proof. exact atomic_inner. Qed.
Print Assumptions C35_atomic_inner_partial.
(** and when ReadLine returns, with the text and the error it returns. *)
Theorem C35_atomic_end_partial : forall S I, implements S I -> forall s0 ls c t e, exec_to I (ready s0) ls (Some c) ->
  lp c = LEnd t e ->
  exists es s, run S es (Running MNormal s0) = Some (Finished s t e) /\
    inputs es = typed ls /\ exists rest, sizes ls = resizes es ++ rest.
Proof. exact atomic_end. Qed.
Print Assumptions C35_atomic_end_partial.

(** Without a prediction the line, the cursor and the result are those of the keys alone. *)
Theorem C35_same_line_partial : forall S, only_builtin S -> pcolor0 (base S) = [] -> forall I, implements S I ->
  forall s0 ls c y, exec_to I (ready s0) ls (Some c) -> lp c = LRead -> ~ in_callback (sz c) ->
  run S (typed ls) (Running MNormal s0) = Some y ->
  exists s, y = Running MNormal s /\ line s = line (shared c) /\ cursor s = cursor (shared c).
Proof. intros S HB. exact (indep_wait S (only_builtin_keys S HB)). Qed.
Print Assumptions C35_same_line_partial.
Theorem C35_same_result_partial : forall S, only_builtin S -> pcolor0 (base S) = [] -> forall I, implements S I ->
  forall s0 ls c t e y, exec_to I (ready s0) ls (Some c) -> lp c = LEnd t e ->
  run S (typed ls) (Running MNormal s0) = Some y -> exists s, y = Finished s t e.
Proof. intros S HB. exact (indep_end S (only_builtin_keys S HB)). Qed.
Print Assumptions C35_same_result_partial.

(** A command and the callback never run at the same time; *)
Theorem C35_exclusive : forall S I, implements S I -> forall s0 ls c, exec_to I (ready s0) ls (Some c) ->
  in_command (lp c) -> ~ in_callback (sz c).
Proof. exact exclusive. Qed.
Print Assumptions C35_exclusive.
(** either the loop waits for a key or has returned, or some goroutine can go on; *)
Theorem C35_no_deadlock : forall S I, implements S I -> forall s0 ls c, exec_to I (ready s0) ls (Some c) ->
  (lp c = LRead \/ (exists m, lp c = LInner m) \/ exists t e, lp c = LEnd t e) \/ exists o, cstep I c Internal o.
Proof. exact progress. Qed.
Print Assumptions C35_no_deadlock.
(** and no schedule crashes, under the conditions of C04_no_crash_simple_partial. *)
Theorem C35_no_crash_partial : forall S I, implements S I -> forall default cur w cl s0 ls,
  simple_editor S -> simple_text (cE (base S)) default -> simple_clip (cE (base S)) cl -> 0 <= cur ->
  prompt_width (base S) + 11 < w -> start S default cur w cl = Some (Running MNormal s0) ->
  Forall (simple_label S) ls -> ~ exec_to I (ready s0) ls None.
Proof. exact no_crash. Qed.
Print Assumptions C35_no_crash_partial.
(** More generally, a crash of a schedule before ReadLine has returned is the crash of a
    session without goroutines, with the same keys and the same sizes in the same order: *)
Theorem C35_crash_partial : forall S I, implements S I -> forall s0 ls c l, exec_to I (ready s0) ls (Some c) ->
  (forall t e, lp c <> LEnd t e) -> cstep I c l None ->
  exists es, within ls es /\ run S es (Running MNormal s0) = None.
Proof. exact crash_within. Qed.
Print Assumptions C35_crash_partial.
(** so none crashes under the conditions of C04_no_crash_tabs_partial either. *)
Theorem C35_no_crash_tabs_partial : forall S I, implements S I -> forall default cur w cl s0 ls c l,
  ordinary_editor S -> ordinary_text (cE (base S)) default -> ordinary_clip (cE (base S)) cl -> 0 <= cur ->
  prompt_width (base S) + 11 < w -> start S default cur w cl = Some (Running MNormal s0) -> Forall (ordinary_label S) ls ->
  (forall es e x, within ls (es ++ [e]) -> readline S default cur w cl es = Some x -> short_line x /\ no_swap_at_end S e x) ->
  exec_to I (ready s0) ls (Some c) -> (forall t e, lp c <> LEnd t e) -> ~ cstep I c l None.
Proof. exact no_crash_tabs. Qed.
Print Assumptions C35_no_crash_tabs_partial.

(** The hypotheses can be met: a key, a resize that has to wait for the command to end. *)
Definition C35_get (x : option sess) : buf := match x with Some (Running _ s) => s | _ => new_buffer S_off 0 None end.
Definition C35_s0 : buf := C35_get (start S_off (s2l "abc") 3 80 None).
Definition C35_s1 : buf := C35_get (step S_off (EKey (s2l "d")) (Running MNormal C35_s0)).
Definition C35_s2 : buf := C35_get (step S_off (EResize 40) (Running MNormal C35_s1)).
Example C35_case : implements S_off (by_lines S_off) /\
  start S_off (s2l "abc") 3 80 None = Some (Running MNormal C35_s0) /\
  exec_to (by_lines S_off) (ready C35_s0)
    [Internal; Key (s2l "d"); Internal; Size 40; Internal; Internal; Internal; Internal; Internal; Internal; Internal; Internal]
    (Some (mkConf C35_s2 None LRead ZIdle)) /\
  buf_string C35_s2 = s2l "abcd" /\ termw C35_s2 = 40.
Proof.
  split; [exact (by_lines_ok S_off)|]. split; [vm_compute; reflexivity|]. split; [|split; vm_compute; reflexivity].
  unfold ready. eapply X_cons; [apply S_flush|]. eapply X_cons; [apply S_key|]. eapply X_cons; [apply S_lock|].
  eapply X_cons; [apply S_size|].
  eapply X_cons; [apply (S_body _ _ _ _ C35_s1 (Ret (Wait MNormal))); vm_compute; reflexivity|].
  eapply X_cons; [apply S_unlock|]. eapply X_cons; [apply S_flush|].
  eapply X_cons; [apply S_size_lock|].
  eapply X_cons; [apply S_size_body; reflexivity|].
  eapply X_cons; [apply S_size_body; reflexivity|].
  eapply X_cons; [apply (S_size_body _ _ _ _ _ C35_s2 (Ret tt)); vm_compute; reflexivity|].
  apply X_last. apply S_size_unlock.
Qed.
(** A schedule that crashes (the crash is C04_swap_undo_refuted). *)
Definition C35_t0 : buf := C35_get (start S_off (s2l "ab") 2 80 None).
Definition C35_t1 : buf := C35_get (step S_off (key 20) (Running MNormal C35_t0)).
Example C35_crash_case : start S_off (s2l "ab") 2 80 None = Some (Running MNormal C35_t0) /\
  exists c, exec_to (by_lines S_off) (ready C35_t0)
    [Internal; Key [20]; Internal; Internal; Internal; Internal; Key [26]; Internal] (Some c) /\
  (forall t e, lp c <> LEnd t e) /\ cstep (by_lines S_off) c Internal None.
Proof.
  split; [vm_compute; reflexivity|]. exists (mkConf C35_t1 (Some Loop) (LBody (on_key (by_lines S_off) MNormal [26])) ZIdle).
  split; [|split; [|apply S_body_crash; vm_compute; reflexivity]].
  - unfold ready. eapply X_cons; [apply S_flush|]. eapply X_cons; [apply S_key|]. eapply X_cons; [apply S_lock|].
    eapply X_cons; [apply (S_body _ _ _ _ C35_t1 (Ret (Wait MNormal))); vm_compute; reflexivity|].
    eapply X_cons; [apply S_unlock|]. eapply X_cons; [apply S_flush|]. eapply X_cons; [apply S_key|].
    apply X_last. apply S_lock.
  - discriminate.
Qed.
(** Schedules of one key and one size, in a line with a tab, meet the conditions. *)
Example C35_tabs_case : ordinary_editor S_off /\ ordinary_text E_off (s2l "a" ++ [9]) /\ prompt_width (base S_off) + 11 < 80 /\
  (exists s0, start S_off (s2l "a" ++ [9]) 1 80 (Some []) = Some (Running MNormal s0)) /\
  let ls := [Internal; Key [9]; Size 15] in Forall (ordinary_label S_off) ls /\
  forall es e x, within ls (es ++ [e]) -> readline S_off (s2l "a" ++ [9]) 1 80 (Some []) es = Some x -> short_line x /\ no_swap_at_end S_off e x.
Proof.
  split; [exact ordinary_off|]. split; [now apply ordinary_textb_ok|]. split; [vm_compute; reflexivity|].
  split; [vm_compute; eexists; reflexivity|]. split.
  - assert (H : Forall (ordinary_event S_off) [EKey [9]; EResize 15]) by now apply ordinary_eventb_ok.
    inversion_clear H as [|? ? H1 H2]. inversion_clear H2 as [|? ? H3 H4]. apply Forall_cons; [exact Logic.I|]. apply Forall_cons; [exact H1|]. apply Forall_cons; [exact H3|]. constructor.
  - intros es e x Hw Hx. assert (Hr := fun H => along_read_ok S_off (s2l "a" ++ [9]) 1 80 (Some []) (es ++ [e]) H es e [] x eq_refl Hx).
    destruct (two_orders [Internal; Key [9]; Size 15] (EKey [9]) 15 _ eq_refl eq_refl Hw) as [H|[H|[H|[H|H]]]]; [now destruct es| | | |]; rewrite H in Hr; apply Hr; vm_compute; reflexivity.
Qed.
(** [opened] and [start] are the same code (main.go:188-210). *)
Theorem C35_opened : forall S default cur w cl,
  option_map (fun p => Running MNormal (fst p)) (alone (start_code S default w) (new_buffer S cur cl)) = start S default cur w cl.
Proof. exact start_code_ok. Qed.
Print Assumptions C35_opened.

(** Between Tty.Open and the first wait the mutex is not taken: a resize that comes then
    finds Editor.Cursor beyond the empty buffer and crashes, though the same call without
    the resize does not. *)
Theorem C35_start_refuted :
  exec_to (by_lines S_off) (opened S_off (s2l "abc") 3 80 None) [Size 80; Internal; Internal; Internal; Internal] None /\
  start S_off (s2l "abc") 3 80 None <> None.
Proof.
  split; [|vm_compute; discriminate].
  unfold opened. eapply X_cons; [apply S_size|]. eapply X_cons; [apply S_size_lock|].
  eapply X_cons; [apply S_size_body; reflexivity|].
  eapply X_cons; [apply S_size_body; reflexivity|].
  apply X_last. apply S_size_crash. vm_compute. reflexivity.
Qed.
Print Assumptions C35_start_refuted.
(** With a prediction a resize changes what the keys after it do: ESC leaves the old
    prediction behind (C20_refuted) and the resize takes it away. *)
Theorem C35_prediction_refuted :
  text_of (readline S_pred [] 0 80 None (keys "cat" ++ [key 27; key 6])) = Some (s2l " readme") /\
  text_of (readline S_pred [] 0 80 None (keys "cat" ++ [key 27; EResize 80; key 6])) = Some [].
Proof. split; vm_compute; reflexivity. Qed.
Print Assumptions C35_prediction_refuted.
(** The loop flushes the output buffer without the mutex: it can do so while the callback
    writes to it. *)
Theorem C35_flush_refuted : forall I s, exists c, exec_to I (ready s) [Size 80; Internal] (Some c) /\
  lp c = LFlush /\ in_callback (sz c).
Proof.
  intros I s. eexists. split; [|split].
  - eapply X_cons; [apply S_size|]. apply X_last, S_size_lock.
  - reflexivity.
  - exact Logic.I.
Qed.
Print Assumptions C35_flush_refuted.
