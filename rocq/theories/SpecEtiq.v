(** What the theorems about the state the terminal is left in say. *)
From Verif Require Import Base Utf8 Moji Color Buffer Commands Session.

(** The value the last of some tokens carried. *)
Definition last_of {A : Type} (f : tok -> option A) (ts : list tok) : option A :=
  fold_left (fun a t => match f t with Some x => Some x | None => a end) ts None.
(** Whether the text cursor was last switched on (true) or off. *)
Definition cursor_shown (ts : list tok) : option bool :=
  last_of (fun t => match t with TCursorOn => Some true | TCursorOff => Some false | _ => None end) ts.
(** The colour last chosen. *)
Definition colour_chosen (ts : list tok) : option Z := last_of (fun t => match t with TColor c => Some c | _ => None end) ts.
(** The text last written to switch the look of predictions on or off. *)
Definition attribute_chosen (ts : list tok) : option str := last_of (fun t => match t with TAttr s => Some s | _ => None end) ts.
(** The results for which a line feed was asked. *)
Definition line_feeds (ts : list tok) : list Z := flat_map (fun t => match t with TLineFeed rc => [rc] | _ => [] end) ts.

(** Cursor on, the colouring's default colour (the code takes -1 for a colour not yet
    chosen), the look of predictions off. *)
Record tidy (C : cfg) (ts : list tok) : Prop := {
  td_cursor : cursor_shown ts = Some true;
  td_colour : colour_chosen ts = Some (c_init (ccol C)) \/ (c_init (ccol C) = -1 /\ colour_chosen ts = None);
  td_attribute : attribute_chosen ts = None \/ attribute_chosen ts = Some (pcolor1 C)
}.
(** The line feed that belongs to the way ReadLine ended: ENTER is 1, INTR 3, ABORT 2
    (main.go:20-29); none after a read error. *)
Definition line_feed_for (e : rerr) : list Z :=
  match e with
  | RNil => [1]
  | RCtrlC => [3]
  | REOF => [2]
  | RKeyError => []
  end.
