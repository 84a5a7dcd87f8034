(** What is left on the row when a key has ended ReadLine, just before the line feed. *)
From Verif Require Import Base Utf8 Moji Color Prompt Buffer Commands KeyMap Session Spec SpecScreen SpecTabScreen SpecTabScroll SpecVt SpecVtTabs SpecVtScroll.

(** Nothing after the prompt. *)
Definition bare (s : buf) (sc : screen) : Prop := (forall x, topc s <= x -> row sc x = Blank) /\ col sc = topc s.
(** The line, and no prediction: in the columns there are, *)
Definition stands (E : env) (s : buf) (sc : screen) : Prop := exists k, shows E s sc k [].
(** and on a row as long as need be, with tabs. *)
Definition stands_scrolled (E : env) (s : buf) (sc : screen) : Prop :=
  let l := laid E 0 (line s) in
  exists k, cursor s <= k <= zlen (line s) /\
    (forall x, topc s <= x -> row sc x = image E (topc s) (part l (view s) k) x) /\
    col sc = topc s + total_width E (part l (view s) (cursor s)).
(** After Enter it is the line; at the end of input nothing; after Ctrl-C the line as it was, or
    nothing if a prediction had been asked for. *)
Definition leaves (line_stands empty : Prop) (s : buf) (r : rerr) : Prop :=
  match r with
  | RNil => line_stands
  | REOF => empty
  | RCtrlC => match suffix s with None => line_stands | Some _ => empty end
  | RKeyError => True
  end.
(** What ReadLine returns with it, and the number its LineFeedWriter is given. *)
Definition returns (s : buf) (r : rerr) : str := match r with RNil => written (line s) | _ => [] end.
Definition feed (r : rerr) : Z := match r with RNil => 1 | REOF => 2 | RCtrlC => 3 | RKeyError => 0 end.

(** The same on an ordinary terminal. *)
Definition vt_bare (s : buf) (v : vt) : Prop := (forall x, topc s <= x -> v_row v x = Empty) /\ v_col v = topc s.
Definition vt_stands (V : vterm) (s : buf) (v : vt) : Prop :=
  exists gs k, looks V 0 (line s) gs /\ cursor s <= k <= zlen (line s) /\ vshows V s v (stretch gs (view s) k) /\
    v_col v = topc s + vcolumns V (List.concat (stretch gs (view s) (cursor s))).
