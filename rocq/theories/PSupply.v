(** C75: every character of the line was supplied. *)
From Verif Require Import Base Utf8 Moji Color Prompt Buffer Commands KeyMap Session Spec Script SpecSupply Sched SpecSched Sample.
From Verif Require SupplyFacts SupplySample PWhole.
From Verif Require Import SchedFacts.
From Verif Require Import Session.

(** Every character of the text ReadLine returns, and of the clipboard when it returns, was
    in the default text, the history, the clipboard, a prediction or a key that inserts. *)
Theorem C75_returned : forall S A default cur w cl es s t r,
  supplied S A default cl es -> readline S default cur w cl es = Some (Finished s t r) ->
  made_of A t /\ forall u, clip s = Some u -> made_of A u.
Proof. exact SupplyFacts.supplied_finished. Qed.
Print Assumptions C75_returned.
(** The same for the line whenever ReadLine waits for a key ... *)
Theorem C75_waiting : forall S A default cur w cl es m s,
  supplied S A default cl es -> readline S default cur w cl es = Some (Running m s) ->
  made_of A (buf_string s) /\ forall u, clip s = Some u -> made_of A u.
Proof. exact SupplyFacts.supplied_running. Qed.
Print Assumptions C75_waiting.
(** ... and in every schedule with resizes in it. *)
Theorem C75_schedule : forall S I A default cur w cl s0 ls c m,
  implements S I -> supplied S A default cl (typed ls) ->
  start S default cur w cl = Some (Running MNormal s0) -> exec_to I (ready s0) ls (Some c) ->
  lp c = LRead /\ m = MNormal /\ ~ in_callback (sz c) \/ lp c = LInner m ->
  made_of A (buf_string (shared c)) /\ forall u, clip (shared c) = Some u -> made_of A u.
Proof. exact SupplyFacts.supplied_schedule. Qed.
Print Assumptions C75_schedule.
(** The exceptions are real.  A joiner at the end of the default text is given U+FFFD ... *)
Theorem C75_end_refuted : exists S default s t, only_builtin S /\ valid_utf8 default /\
  readline S default 0 40 None [key 13] = Some (Finished s t RNil) /\
  exists r, In r (runes t) /\ ~ In r (runes default) /\ Forall (fun h => ~ In r (runes h)) (hist (base S)).
Proof. exact SupplySample.end_joiner. Qed.
Print Assumptions C75_end_refuted.
(** ... U+200C becomes U+200D ... *)
Theorem C75_non_joiner_refuted : exists S default s t, only_builtin S /\ valid_utf8 default /\
  readline S default 0 40 None [key 13] = Some (Finished s t RNil) /\
  In 8204 (runes default) /\ ~ In 8204 (runes t) /\ ~ In 8205 (runes default) /\ In 8205 (runes t).
Proof. exact SupplySample.non_joiner. Qed.
Print Assumptions C75_non_joiner_refuted.
(** ... and two keys that are not UTF-8 may join to a character of neither. *)
Theorem C75_keys_refuted : exists S k1 k2 s t, only_builtin S /\
  readline S [] 0 40 None [key 97; EKey k1; EKey k2; key 13] = Some (Finished s t RNil) /\
  In 12354 (runes t) /\ ~ In 12354 (runes k1) /\ ~ In 12354 (runes k2) /\ Forall (fun h => ~ In 12354 (runes h)) (hist (base S)).
Proof. exact SupplySample.two_keys. Qed.
Print Assumptions C75_keys_refuted.

(** An external editor that changes case (examples/example4.go), typing and pasting with
    quotes: nobody supplies a control character and the line has none, although the keys
    that call the editor and the paste are control characters. *)
Example C75_case : supplied SupplySample.S_edit SupplySample.printable (s2l "ls") (Some (s2l "x y")) SupplySample.session /\
  text_of (readline SupplySample.S_edit (s2l "ls") 2 40 (Some (s2l "x y")) SupplySample.session) = Some (s2l "LS -L" ++ [34] ++ s2l "x y" ++ [34]).
Proof. split; [exact SupplySample.session_ok|]. vm_compute. reflexivity. Qed.
(** The external editor is called and the terminal is resized meanwhile. *)
Definition C75_s0 : buf := PWhole.get (start SupplySample.S_edit (s2l "ls") 2 40 (Some (s2l "x y"))).
Definition C75_s1 : buf := PWhole.get (step SupplySample.S_edit (key 24) (Running MNormal C75_s0)).
Definition C75_s2 : buf := PWhole.get (step SupplySample.S_edit (EResize 30) (Running MNormal C75_s1)).
Definition C75_labels : list label :=
  [Internal; Key [24]; Internal; Size 30; Internal; Internal; Internal; Internal; Internal; Internal; Internal; Internal].
Example C75_schedule_case : implements SupplySample.S_edit (by_lines SupplySample.S_edit) /\
  supplied SupplySample.S_edit SupplySample.printable (s2l "ls") (Some (s2l "x y")) (typed C75_labels) /\
  start SupplySample.S_edit (s2l "ls") 2 40 (Some (s2l "x y")) = Some (Running MNormal C75_s0) /\
  exec_to (by_lines SupplySample.S_edit) (ready C75_s0) C75_labels (Some (mkConf C75_s2 None LRead ZIdle)) /\
  buf_string C75_s2 = s2l "LS" /\ termw C75_s2 = 30.
Proof.
  split; [exact (SchedFacts.by_lines_ok SupplySample.S_edit)|]. split; [exact SupplySample.schedule_ok|].
  split; [vm_compute; reflexivity|]. split; [|split; vm_compute; reflexivity]. unfold ready, C75_labels.
  eapply X_cons; [apply S_flush|]. eapply X_cons; [apply S_key|]. eapply X_cons; [apply S_lock|].
  eapply X_cons; [apply S_size|].
  eapply X_cons; [apply (S_body _ _ _ _ C75_s1 (Ret (Wait MNormal))); vm_compute; reflexivity|].
  eapply X_cons; [apply S_unlock|]. eapply X_cons; [apply S_flush|].
  eapply X_cons; [apply S_size_lock|].
  eapply X_cons; [apply S_size_body; reflexivity|].
  eapply X_cons; [apply S_size_body; reflexivity|].
  eapply X_cons; [apply (S_size_body _ _ _ _ _ C75_s2 (Ret tt)); vm_compute; reflexivity|].
  eapply X_cons; [apply S_size_unlock|]. constructor.
Qed.
