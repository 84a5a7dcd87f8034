(** What the user sees when there are tabs in a line that fits the row. *)
From Verif Require Import Base Utf8 Moji Color Prompt Buffer Commands KeyMap Session Spec SpecScreen.

Section Tabs.
Variable E : env.

(** The units as they stand from column [c] of the line on: a tab fills up to the next
    multiple of four columns. *)
Fixpoint laid (c : Z) (l : list moji) : list moji :=
  match l with
  | [] => []
  | MTab _ :: l' => MTab c :: laid (4 * (c / 4) + 4) l'
  | m :: l' => m :: laid (c + width E m) l'
  end.

(** The screen shows the whole line, every tab up to its tab stop; the terminal's cursor
    stands where the next unit goes. *)
Definition shows_tabs (s : buf) (sc : screen) : Prop :=
  (forall x, topc s <= x -> row sc x = image E (topc s) (laid 0 (line s)) x) /\
  col sc = topc s + total_width E (firstn (Z.to_nat (cursor s)) (laid 0 (line s))).
Definition tab_screen_right (x : sess) (sc : screen) : Prop :=
  match x with
  | Running (MSearch ss) s => shows_search E ss s sc
  | Running _ s => shows_tabs s sc
  | Finished _ _ _ => True
  end.
End Tabs.

(** The line fits: tabs are units of their own, and with every tab counted as four columns
    the line is narrower than the visible part of the row. *)
Definition fits_tabs (S : scfg) (x : sess) : Prop :=
  let E := cE (base S) in let l := line (buf_of x) in
  Forall (fun m => tabfree m = true \/ m = MTab 0) l /\
  total_width E l < termw (buf_of x) - prompt_width (base S) - 3 /\ total_width E l <= 32767.
(** Left out: transposing when one of the units around the cursor is a tab, and a read error in
    the middle of an incremental search. *)
Definition steady_tabs (S : scfg) (e : event) (x : sess) : Prop :=
  match e, x with
  | EKey k, Running MNormal s => LookupCommand (kmap S) (gmap S) k = CSwapChar -> Forall (fun m => tabfree m = true) (part (line s) (Z.max 0 (cursor s - 2)) (cursor s + 1))
  | EKeyErr, Running (MSearch _) _ => False
  | _, _ => True
  end.
(** Both, all through a run. *)
Fixpoint calm_tabs (S : scfg) (es : list event) (x : sess) : Prop :=
  fits_tabs S x /\
  match es with
  | [] => True
  | e :: es' => steady_tabs S e x /\ forall x', step S e x = Some x' -> calm_tabs S es' x'
  end.
