(** UNDO and crashes: vocabulary of PUndoOnly.v. *)
From Verif Require Import Base Utf8 Moji Prompt Buffer Commands KeyMap Session Spec.

(** The session crashes at a key that runs UNDO, pressed at a normal wait: the events before
    it go through, it does not. *)
Definition crashes_in_undo (S : scfg) (default : str) (cur w : Z) (cl : option str) (es : list event) : Prop :=
  exists before k after s, es = before ++ EKey k :: after /\ LookupCommand (kmap S) (gmap S) k = CUndo /\
    readline S default cur w cl before = Some (Running MNormal s) /\ step S (EKey k) (Running MNormal s) = None.
