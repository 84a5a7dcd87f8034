(** What the theorems about browsing across calls of ReadLine say. *)
From Verif Require Import Base Moji Buffer Commands KeyMap Session Spec Repl.

(** The two browsing keys, and the position they lead to among [n] entries and, below
    them, the line being typed (position [n]). *)
Inductive move := Older | Newer.
Definition move_cmd (m : move) : cmd := match m with Older => CPreviousHistory | Newer => CNextHistory end.
Definition moves_to (cycle : bool) (n p : nat) (m : move) : nat :=
  match m with
  | Older => match p with O => if cycle then n else O | Datatypes.S p' => p' end
  | Newer => Nat.min n (p + 1)
  end.
Definition walk (cycle : bool) (n : nat) (ms : list move) (p : nat) : nat := fold_left (moves_to cycle n) ms p.

(** [ks] are keys bound to the moves [ms]. *)
Definition browsing_keys (S : scfg) (ks : list str) (ms : list move) : Prop :=
  Forall2 (fun k m => bound S k (move_cmd m)) ks ms.
(** None of the events is one of those keys. *)
Definition no_browsing (S : scfg) (es : list event) : Prop :=
  Forall (fun e => forall k m, e = EKey k -> ~ bound S k (move_cmd m)) es.

(** An editor whose history is the container, read by its Len and At: nothing else about it need stay the same but
    how text is split into units (the terminal and the package's switches). *)
Record over_container (S : container -> scfg) (E : env) : Prop := {
  oc_len : forall h, container_len h = zlen (hist (base (S h)));
  oc_at : forall h n, container_at h n = index (hist (base (S h))) n;
  oc_env : forall h, cE (base (S h)) = E;
  oc_builtin : forall h, only_builtin (S h)
}.
