(** C74: texts do not control the terminal. *)
From Verif Require Import Base Utf8 Moji Color Prompt Buffer Commands KeyMap Session Spec SpecTerm SpecVt Script SpecInject Sched SpecSched Sample TermSample.
From Verif Require InjectFacts InjectSched InjectSample PWhole.
From Verif Require Import SchedFacts.
From Verif Require Import Session Spec.

(** Where no character joins another: whatever is typed, pasted, remembered, predicted,
    searched for or given as the default text, everything the terminal is sent is a sequence
    of the editor itself, a text of its settings, or characters of which none is a control
    character. *)
Theorem C74_safe : forall S lf d cur w cl es x,
  silent_user S -> (forall r, 127 <= r <= 159 -> rw (cE (base S)) r = 0) -> (forall r, joins (cE (base S)) r = false) ->
  readline S d cur w cl es = Some x ->
  exists ps, out_bytes (cE (base S)) lf (out (buf_of x)) = List.concat ps /\ Forall (fun b => own S lf b \/ harmless b) ps.
Proof. intros S lf d cur w cl es x H1 H2. exact (InjectFacts.sent_safe S lf H2 H1 d cur w cl es x). Qed.
Print Assumptions C74_safe.
(** The same whatever the order in which the goroutines of ReadLine run. *)
Theorem C74_schedules : forall S I lf d cur w cl s0 ls c m,
  implements S I -> silent_user S -> (forall r, 127 <= r <= 159 -> rw (cE (base S)) r = 0) -> (forall r, joins (cE (base S)) r = false) ->
  start S d cur w cl = Some (Running MNormal s0) -> exec_to I (ready s0) ls (Some c) ->
  lp c = LRead /\ m = MNormal /\ ~ in_callback (sz c) \/ lp c = LInner m ->
  exists ps, out_bytes (cE (base S)) lf (out (shared c)) = List.concat ps /\ Forall (fun b => own S lf b \/ harmless b) ps.
Proof. exact InjectSched.schedule_safe. Qed.
Print Assumptions C74_schedules.
(** Where characters join, a piece with such a character in it is the only other thing. *)
Theorem C74_joined_partial : forall S lf d cur w cl es x,
  silent_user S -> (forall r, 127 <= r <= 159 -> rw (cE (base S)) r = 0) ->
  readline S d cur w cl es = Some x ->
  exists ps, out_bytes (cE (base S)) lf (out (buf_of x)) = List.concat ps /\
    Forall (fun b => own S lf b \/ harmless b \/ attached (cE (base S)) b) ps.
Proof. intros S lf d cur w cl es x H1 H2. exact (InjectFacts.sent S lf H2 H1 d cur w cl es x). Qed.
Print Assumptions C74_joined_partial.
(** With a zero width joiner a pasted control character does get through ... *)
Theorem C74_refuted : exists S lf cl w es x, silent_user S /\ (forall r, 127 <= r <= 159 -> rw (cE (base S)) r = 0) /\
  readline S [] 0 w cl es = Some x /\
  ~ exists ps, out_bytes (cE (base S)) lf (out (buf_of x)) = List.concat ps /\ Forall (fun b => own S lf b \/ harmless b) ps.
Proof. exact InjectSample.not_safe. Qed.
Print Assumptions C74_refuted.
(** ... and so does a whole sequence: the text that is pasted clears the screen. *)
Theorem C74_clear_refuted : exists S lf cl w es x, only_builtin S /\ (forall r, 127 <= r <= 159 -> rw (cE (base S)) r = 0) /\
  readline S [] 0 w cl es = Some x /\ ~ In TClear (out (buf_of x)) /\
  exists a b, out_bytes (cE (base S)) lf (out (buf_of x)) = a ++ [27; 91; 50; 74] ++ b.
Proof. exact InjectSample.clears. Qed.
Print Assumptions C74_clear_refuted.

(** An editor with a user command whose answer contains an escape sequence, which is shown
    as text. *)
Example C74_case : let S := InjectSample.S_quiet (27 :: s2l "[2J") in
  silent_user S /\ (forall r, 127 <= r <= 159 -> rw (cE (base S)) r = 0) /\ (forall r, joins (cE (base S)) r = false) /\
  text_of (readline S (s2l "ab") 2 40 None [key 24]) = Some (27 :: s2l "[2J") /\
  match readline S (s2l "ab") 2 40 None [key 24] with
  | Some x => InjectSample.has (s2l "^[[2J") (out_bytes (cE (base S)) (fun _ => [10]) (out (buf_of x))) = true
  | None => False
  end.
Proof.
  split; [apply InjectSample.silent_quiet|]. split; [apply InjectSample.quiet_widths|]. split; [apply InjectSample.quiet_joins|].
  split; vm_compute; reflexivity.
Qed.
(** The same command, and a resize while it runs. *)
Definition C74_S : scfg := InjectSample.S_quiet (27 :: s2l "[2J").
Definition C74_s0 : buf := PWhole.get (start C74_S (s2l "ab") 2 40 None).
Definition C74_s1 : buf := PWhole.get (step C74_S (key 24) (Running MNormal C74_s0)).
Definition C74_s2 : buf := PWhole.get (step C74_S (EResize 30) (Running MNormal C74_s1)).
Example C74_schedules_case : implements C74_S (by_lines C74_S) /\ start C74_S (s2l "ab") 2 40 None = Some (Running MNormal C74_s0) /\
  exec_to (by_lines C74_S) (ready C74_s0)
    [Internal; Key [24]; Internal; Size 30; Internal; Internal; Internal; Internal; Internal; Internal; Internal; Internal]
    (Some (mkConf C74_s2 None LRead ZIdle)) /\
  buf_string C74_s2 = 27 :: s2l "[2J" /\ termw C74_s2 = 30.
Proof.
  split; [exact (SchedFacts.by_lines_ok C74_S)|]. split; [vm_compute; reflexivity|]. split; [|split; vm_compute; reflexivity]. unfold ready.
  eapply X_cons; [apply S_flush|]. eapply X_cons; [apply S_key|]. eapply X_cons; [apply S_lock|].
  eapply X_cons; [apply S_size|].
  eapply X_cons; [apply (S_body _ _ _ _ C74_s1 (Ret (Wait MNormal))); vm_compute; reflexivity|].
  eapply X_cons; [apply S_unlock|]. eapply X_cons; [apply S_flush|].
  eapply X_cons; [apply S_size_lock|].
  eapply X_cons; [apply S_size_body; reflexivity|].
  eapply X_cons; [apply S_size_body; reflexivity|].
  eapply X_cons; [apply (S_size_body _ _ _ _ _ C74_s2 (Ret tt)); vm_compute; reflexivity|].
  eapply X_cons; [apply S_size_unlock|]. constructor.
Qed.
