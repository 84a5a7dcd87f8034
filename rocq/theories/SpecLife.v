(** Vocabulary of the properties about the life cycle of the terminal. *)
From Verif Require Import Base Utf8 Moji Color Prompt Buffer Commands KeyMap Session Life.

(** The protocol of a terminal: opened once, then used, then closed once.  [None]: the
    call is not allowed there.  Writing to Out is allowed at any time. *)
Inductive phase := NotOpen | IsOpen | IsClosed.
Definition call (p : phase) (a : act) : option phase :=
  match a, p with
  | AOut _, _ => Some p
  | AOpen true, NotOpen => Some IsOpen
  | AOpen false, NotOpen => Some NotOpen
  | ASize _, IsOpen => Some IsOpen
  | AGetKey, IsOpen => Some IsOpen
  | AClose, IsOpen => Some IsClosed
  | _, _ => None
  end.
Fixpoint calls (p : phase) (tr : list act) : option phase :=
  match tr with
  | [] => Some p
  | a :: tr' => let* p' := call p a in calls p' tr'
  end.

(** What a trace wrote to Out. *)
Definition outputs (tr : list act) : list tok := flat_map (fun a => match a with AOut t => [t] | _ => [] end) tr.
