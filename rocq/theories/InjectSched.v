(** C74 for schedules. *)
From Verif Require Import Base Utf8 Moji Color Prompt Buffer Commands KeyMap Session Spec SpecTerm SpecVt Script SpecInject Sched SpecSched.
From Verif Require InjectFacts SchedScreen.
From Verif Require Import Session Spec.

Lemma schedule_safe S I lf d cur w cl s0 ls c m :
  implements S I -> silent_user S -> (forall r, 127 <= r <= 159 -> rw (cE (base S)) r = 0) -> (forall r, joins (cE (base S)) r = false) ->
  start S d cur w cl = Some (Running MNormal s0) -> exec_to I (ready s0) ls (Some c) ->
  lp c = LRead /\ m = MNormal /\ ~ in_callback (sz c) \/ lp c = LInner m ->
  exists ps, out_bytes (cE (base S)) lf (out (shared c)) = List.concat ps /\ Forall (fun b => own S lf b \/ harmless b) ps.
Proof.
  intros HI H1 H2 H3 H0 Hx Hl. destruct (SchedScreen.as_session S I HI d cur w cl s0 ls c m H0 Hx Hl) as (es & _ & _ & Hr).
  exact (InjectFacts.sent_safe S lf H2 H1 d cur w cl es _ H3 Hr).
Qed.
