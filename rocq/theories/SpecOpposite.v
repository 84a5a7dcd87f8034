(** Keys that take each other back (C76). *)
From Verif Require Import Base Utf8 Moji Color Prompt Buffer Commands KeyMap Session Spec.

(** Line, cursor, clipboard and history are as before. *)
Definition as_before (s s' : buf) : Prop :=
  line s' = line s /\ cursor s' = cursor s /\ clip s' = clip s /\ history_untouched s s'.
(** The key [k], [n] times. *)
Definition presses (k : str) (n : nat) : list event := repeat (EKey k) n.
