(** Model of the width cache of internal/moji/width.go, exported by buffer.go:301-309. *)
From Verif Require Import Base.

(** width.go:11: the cache, a map from runes to widths; the newest entry of a rune is in
    front. *)
Definition wcache := list (Z * Z).

(** The calls a program can make: SetCharWidth and ResetCharWidth (width.go:13-21,
    buffer.go:303-309), and everything that asks for a width (getWidth). *)
Inductive wop := WSet (c w : Z) | WReset | WGet (r : Z).

Section WithWidth.
(** runeWidth (runewidth.go:15, orgxwidth.go:36): a fixed function of the rune once the
    program runs. *)
Variable runeWidth : Z -> Z.

(** width.go:23-30 *)
Definition getWidth (m : wcache) (r : Z) : Z * wcache :=
  match aget Z.eqb m r with
  | Some w => (w, m)
  | None => (runeWidth r, aset Z.eqb m r (runeWidth r))
  end.

(** width.go:18-21 *)
Definition SetCharWidth (m : wcache) (c w : Z) : wcache := aset Z.eqb m c w.
(** width.go:14-16 *)
Definition ResetCharWidth (m : wcache) : wcache := [].

(** One call: the answer of a query and the cache afterwards. *)
Definition wstep (m : wcache) (o : wop) : option Z * wcache :=
  match o with
  | WSet c w => (None, SetCharWidth m c w)
  | WReset => (None, ResetCharWidth m)
  | WGet r => let '(w, m') := getWidth m r in (Some w, m')
  end.
(** A run of the program from the initial, empty cache (width.go:11): all answers. *)
Fixpoint wrun_from (m : wcache) (os : list wop) : list (option Z) :=
  match os with
  | [] => []
  | o :: os' => let '(a, m') := wstep m o in a :: wrun_from m' os'
  end.
Definition wrun (os : list wop) : list (option Z) := wrun_from [] os.
End WithWidth.
