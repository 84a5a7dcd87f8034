(** What the user sees, from the bytes the program writes, of lines with tabs that may be longer
    than the row (C58). *)
From Verif Require Import Base Utf8 Moji Color Prompt Buffer Commands KeyMap Session Spec SpecLib SpecTerm SpecScreen SpecVt SpecVtTabs.

(** The members from [a] to [b] - 1. *)
Definition stretch {A} (l : list A) (a b : Z) : list A := firstn (Z.to_nat (b - a)) (skipn (Z.to_nat a) l).

(** The terminal is between sequences and its cursor is visible; the units of the whole line
    look like [gs], tabs ending at multiples of four columns of the line; the row shows those
    from ViewStart up to some [k] at or after the cursor, when the cursor is at the end of the
    line perhaps the beginning of the prediction, in which a tab is one to four spaces, and
    nothing else after the prompt; the cursor stands after those before the editor's cursor. *)
Definition vt_scrolled_right (V : vterm) (E : env) (x : sess) (v : vt) : Prop :=
  match x with
  | Running (MSearch _) s => 0 < ViewWidth s -> vt_tabs_right V E x v
  | Running _ s => v_state v = Ground /\ v_shown v = true /\ exists gs k pred ps,
      looks V 0 (line s) gs /\ cursor s <= k <= zlen (line s) /\
      (pred = [] \/ cursor s = zlen (line s) /\ exists rest, suffix s = Some (pred ++ rest)) /\ Forall2 (appears_tab V) pred ps /\
      vshows V s v (stretch gs (view s) k ++ ps) /\
      v_col v = topc s + vcolumns V (List.concat (stretch gs (view s) (cursor s)))
  | Finished _ _ _ => True
  end.
