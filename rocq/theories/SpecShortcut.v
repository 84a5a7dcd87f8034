(** Two ways to the same line (C77). *)
From Verif Require Import Base Utf8 Moji Color Prompt Buffer Commands KeyMap Session Spec SpecOpposite.

(** Line, cursor and history are the same; [with_clip]: the clipboard too. *)
Definition same_line (s s' : buf) : Prop := line s' = line s /\ cursor s' = cursor s /\ history_untouched s s'.
Definition with_clip (s s' : buf) : Prop := same_line s s' /\ clip s' = clip s.
(** The keys [es] and the keys [es'], pressed in the state [s], come to results in relation [R]. *)
Definition equal_ways (S : scfg) (R : buf -> buf -> Prop) (s : buf) (es es' : list event) : Prop :=
  forall x x', run S es (Running MNormal s) = Some x -> run S es' (Running MNormal s) = Some x' ->
  exists t t', x = Running MNormal t /\ x' = Running MNormal t' /\ R t t'.
(** The cursor is inside the line. *)
Definition inside (s : buf) : Prop := 0 <= cursor s <= zlen (cells s).
