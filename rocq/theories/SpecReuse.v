(** Specification for C63. *)
From Verif Require Import Base Utf8 Moji Color Prompt Buffer Commands KeyMap Session Reuse.

(** The call made on an Editor of its own (Session.v has no mutex). *)
Definition fresh (c : call1) : option sess := readline (c_set c) (c_default c) (c_cursor c) (c_width c) (c_clip c) (c_events c).
(** The call returns. *)
Definition returns (c : call1) : Prop := exists s t e, fresh c = Some (Finished s t e).
(** What the calls would give on Editors of their own. *)
Definition gives (c : call1) : result1 := match fresh c with Some (Finished _ t e) => Gives t e | Some (Running _ _) => Waits | None => Panics end.
(** A call that serves no key: it waits for the mutex or for a key, crashes before the first
    key, or gives the error of the terminal. *)
Definition no_line (r : result1) : Prop := r = Stuck \/ r = Panics \/ r = Waits \/ exists t, r = Gives t RKeyError.
