(** What the user sees of a line with tabs that may be longer than the row. *)
From Verif Require Import Base Utf8 Moji Color Prompt Buffer Commands KeyMap Session Spec SpecScreen SpecTabScreen.

(** After the prompt stand the units from ViewStart up to some [k] at or after the cursor, each
    tab as wide as it is in the whole line, after the last unit of the line perhaps the beginning
    of the prediction if the cursor is there, and nothing else; the terminal's cursor stands where
    the next unit goes. *)
Definition shows_scrolled (E : env) (s : buf) (sc : screen) : Prop :=
  let l := laid E 0 (line s) in
  exists k pred, cursor s <= k <= zlen (line s) /\
    (pred = [] \/ cursor s = zlen (line s) /\ exists rest, suffix s = Some (pred ++ rest)) /\
    (forall x, topc s <= x -> row sc x = image E (topc s) (part l (view s) k ++ pred) x) /\
    col sc = topc s + total_width E (part l (view s) (cursor s)).
Definition scrolled_right (E : env) (x : sess) (sc : screen) : Prop :=
  match x with
  | Running (MSearch ss) s => 0 < ViewWidth s -> shows_search E ss s sc
  | Running _ s => shows_scrolled E s sc
  | Finished _ _ _ => True
  end.

(** Tabs are units of their own, and the line is at most 32767 columns long. *)
Definition tabs_apart (S : scfg) (x : sess) : Prop :=
  let l := line (buf_of x) in
  Forall (fun m => tabfree m = true \/ m = MTab 0) l /\ total_width (cE (base S)) l <= 32767.
(** Left out: transposing when one of the units around the cursor is a tab or is not in the
    visible part of the row, and a read error in the middle of an incremental search. *)
Definition steady_scroll (S : scfg) (e : event) (x : sess) : Prop :=
  let E := cE (base S) in
  match e, x with
  | EKey k, Running MNormal s => LookupCommand (kmap S) (gmap S) k = CSwapChar ->
      Forall (fun m => tabfree m = true) (part (line s) (Z.max 0 (cursor s - 2)) (cursor s + 1)) /\
      view s <= Z.max 0 (cursor s - 2) /\
      (cursor s = zlen (line s) \/ total_width E (part (laid E 0 (line s)) (view s) (cursor s + 1)) < ViewWidth s)
  | EKeyErr, Running (MSearch _) _ => False
  | _, _ => True
  end.
(** Both, all through a run. *)
Fixpoint calm_scroll (S : scfg) (es : list event) (x : sess) : Prop :=
  tabs_apart S x /\
  match es with
  | [] => True
  | e :: es' => steady_scroll S e x /\ forall x', step S e x = Some x' -> calm_scroll S es' x'
  end.
