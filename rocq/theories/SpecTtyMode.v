(** Specification for C62. *)
From Verif Require Import Base Utf8 KeyInput TtyMode.

(** What the user typed. *)
Definition typed_of (l : list act) : str := flat_map (fun a => match a with Typed b => [b] | Go _ _ => [] end) l.
(** What has been read or can be read, and has not been returned. *)
Definition rest10 (s : state10) : str :=
  match at10 s with
  | Outside b => b
  | Leaving _ (Some b) => b
  | _ => []
  end ++ queue (drv s).

(** Everything was typed in raw mode. *)
Definition typed_raw (cook : Z -> str) (l : list act) (s : state10) : Prop :=
  forall l1 b l2, l = l1 ++ Typed b :: l2 -> raw (drv (acts10 cook l1 s)) = true.
