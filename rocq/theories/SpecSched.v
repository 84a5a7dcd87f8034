(** Vocabulary of the properties about schedules. *)
From Verif Require Import Base Utf8 Moji Color Prompt Buffer Commands KeyMap Session Spec SpecTabs Sched.

(** A list of events without its resizes, and the resizes of a list of events. *)
Definition is_resize (e : event) : bool := match e with EResize _ => true | _ => false end.
Definition inputs (es : list event) : list event := filter (fun e => negb (is_resize e)) es.
Definition resizes (es : list event) : list Z := flat_map (fun e => match e with EResize w => [w] | _ => [] end) es.

(** The same for the labels of a schedule, in the order in which they happened. *)
Definition typed (ls : list label) : list event :=
  flat_map (fun l => match l with Key k => [EKey k] | KeyErr => [EKeyErr] | _ => [] end) ls.
Definition sizes (ls : list label) : list Z := flat_map (fun l => match l with Size w => [w] | _ => [] end) ls.

(** A command is running (or waiting for a key of its own); the callback is running. *)
Definition in_command (l : loop) : Prop := match l with LBody _ | LInner _ => True | _ => False end.
Definition in_callback (z : sizer) : Prop := match z with ZBody _ => True | _ => False end.
(** A callback waits for the mutex. *)
Definition waiting (z : sizer) : list Z := match z with ZLock w => [w] | _ => [] end.

(** Keys and sizes as in C04. *)
Definition simple_label (S : scfg) (l : label) : Prop :=
  match l with
  | Key k => simple_event S (EKey k)
  | Size w => simple_event S (EResize w)
  | _ => True
  end.
Definition key_waiting (S : scfg) (c : config) : Prop :=
  match lp c with LLock k => simple_event S (EKey k) | _ => True end.
(** Keys and sizes as in C04 with tabs. *)
Definition ordinary_label (S : scfg) (l : label) : Prop :=
  match l with
  | Key k => ordinary_event S (EKey k)
  | Size w => ordinary_event S (EResize w)
  | _ => True
  end.

(** [es] is an order of some first keys and some first sizes of the schedule. *)
Definition within (ls : list label) (es : list event) : Prop :=
  (exists ks, typed ls = inputs es ++ ks) /\ exists ws, sizes ls = resizes es ++ ws.
