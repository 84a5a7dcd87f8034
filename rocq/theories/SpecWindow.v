(** Specification: the width of the window an editor has been told. *)
From Verif Require Import Base Utf8 Moji Color Prompt Buffer Commands KeyMap Session.

(** The width after the events [es] from [x], when it is [w] before: a new width counts from the
    moment it is delivered, which is while the editor waits for the key of a command (a change
    that comes earlier is delivered later, main.go:175-181). *)
Fixpoint told (S : scfg) (es : list event) (x : sess) (w : Z) : Z :=
  match es with
  | [] => w
  | e :: es' =>
    match step S e x with
    | Some x' => told S es' x' (match e, x with EResize w', Running MNormal _ => w' | _, _ => w end)
    | None => w
    end
  end.
(** The width of the window after a call of ReadLine in a window [w] columns wide and the events [es]. *)
Definition window (S : scfg) (default : str) (cur w : Z) (cl : option str) (es : list event) : Z :=
  match start S default cur w cl with
  | Some x => told S es x w
  | None => w
  end.
