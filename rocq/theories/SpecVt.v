(** What the user sees, from the bytes the program writes: an ordinary terminal, reading
    UTF-8 and escape sequences, with one row (C58).  Nothing here follows the way the code
    paints. *)
From Verif Require Import Base Utf8 Moji Color Prompt Buffer Commands KeyMap Session Spec SpecLib SpecTerm SpecScreen.

(** One column of the row: empty, or the [i]-th column of the character [r]. *)
Inductive vcell := Empty | Char (r : rune) (i : Z).
(** Between sequences, after ESC, inside CSI with these parameters, inside a title. *)
Inductive parser := Ground | Esc | Csi (ps : list rune) | Osc.
(** The terminal's cursor column (from 0), the row, the column ESC 7 or CSI s saved, and
    whether the cursor is visible. *)
Record vt := mkVt { v_state : parser; v_col : Z; v_row : Z -> vcell; v_saved : Z; v_shown : bool }.

(** What differs from terminal to terminal: the columns a character takes; what remains in
    column [x] of a character when the character [r] is written over part of it, or the
    rest of the row is erased ([None]); and what any other control character or sequence does. *)
Record vterm := mkVterm {
  vt_width : rune -> Z;
  vt_torn : vt -> option rune -> Z -> vcell;
  vt_other : list rune -> vt -> vt
}.

Definition at_col (v : vt) (c : Z) : vt := mkVt (v_state v) (Z.max 0 c) (v_row v) (v_saved v) (v_shown v).
Definition with_row (v : vt) (f : Z -> vcell) : vt := mkVt (v_state v) (v_col v) f (v_saved v) (v_shown v).
Definition with_saved (v : vt) (c : Z) : vt := mkVt (v_state v) (v_col v) (v_row v) c (v_shown v).
Definition with_shown (v : vt) (b : bool) : vt := mkVt (v_state v) (v_col v) (v_row v) (v_saved v) b.
Definition with_state (v : vt) (p : parser) : vt := mkVt p (v_col v) (v_row v) (v_saved v) (v_shown v).

Section Vt.
Variable V : vterm.
Notation tw := (vt_width V).

(** A printable character: the characters it does not overlap stay. *)
Definition vprint (r : rune) (v : vt) : vt :=
  let c := v_col v in let w := tw r in
  at_col (with_row v (fun x =>
    if (c <=? x) && (x <? c + w) then Char r (x - c)
    else match v_row v x with
         | Char r' i => if (x - i <? c + w) && (c <? x - i + tw r') then vt_torn V v (Some r) x else Char r' i
         | Empty => Empty
         end)) (c + w).
(** Erasing from the cursor to the end of the row. *)
Definition verase (v : vt) : vt :=
  let c := v_col v in
  with_row v (fun x =>
    if c <=? x then Empty
    else match v_row v x with
         | Char r' i => if c <? x - i + tw r' then vt_torn V v None x else Char r' i
         | Empty => Empty
         end).
(** Anything else may change the row, the column and the saved column. *)
Definition unknown (rs : list rune) (v : vt) : vt := with_shown (at_col (vt_other V rs v) (v_col (vt_other V rs v))) (v_shown v).

(** CSI with parameters [ps] and final character [f]: G moves to a column, K erases to the
    right, m sets colours, ?25h and ?25l show and hide the cursor, s and u save and restore
    its column. *)
Definition all_digits (ps : list rune) : bool := forallb (fun d => (48 <=? d) && (d <=? 57)) ps.
Definition csi (ps : list rune) (f : rune) (v : vt) : vt :=
  if (f =? 71) && all_digits ps then at_col v (Z.max 1 (digits_value ps) - 1)
  else if (f =? 75) && (str_eqb ps [] || str_eqb ps [48]) then verase v
  else if f =? 109 then v
  else if (f =? 104) && str_eqb ps [63; 50; 53] then with_shown v true
  else if (f =? 108) && str_eqb ps [63; 50; 53] then with_shown v false
  else if (f =? 115) && str_eqb ps [] then with_saved v (v_col v)
  else if (f =? 117) && str_eqb ps [] then at_col v (v_saved v)
  else unknown ([27; 91] ++ ps ++ [f]) v.

(** The effect of one character, and the state after it. *)
Definition effect (r : rune) (v : vt) : vt :=
  match v_state v with
  | Ground =>
    if (r =? 27) || (r =? 7) then v
    else if r =? 8 then at_col v (v_col v - 1)
    else if control r || (tw r <=? 0) then unknown [r] v
    else vprint r v
  | Esc =>
    if (r =? 91) || (r =? 93) then v
    else if r =? 55 then with_saved v (v_col v)
    else if r =? 56 then at_col v (v_saved v)
    else unknown [27; r] v
  | Csi ps => if (32 <=? r) && (r <=? 63) then v else csi ps r v
  | Osc => v
  end.
Definition next_state (p : parser) (r : rune) : parser :=
  match p with
  | Ground => if r =? 27 then Esc else Ground
  | Esc => if r =? 91 then Csi [] else if r =? 93 then Osc else Ground
  | Csi ps => if (32 <=? r) && (r <=? 63) then Csi (ps ++ [r]) else Ground
  | Osc => if r =? 7 then Ground else if r =? 27 then Esc else Osc
  end.
Definition vrune (v : vt) (r : rune) : vt := with_state (effect r v) (next_state (v_state v) r).
(** The terminal gets these bytes. *)
Definition vbytes (b : str) (v : vt) : vt := fold_left vrune (runes b) v.

(** A text after which the terminal is ready for the next one and which neither shows nor
    hides the cursor. *)
Definition ready_after (b : str) : Prop :=
  valid_utf8 b /\ forall v, v_state v = Ground -> v_state (vbytes b v) = Ground /\ v_shown (vbytes b v) = v_shown v.
(** A text that changes only colours and the like. *)
Definition attribute_only (b : str) : Prop :=
  valid_utf8 b /\ forall v, v_state v = Ground -> 0 <= v_col v ->
    v_state (vbytes b v) = Ground /\ v_shown (vbytes b v) = v_shown v /\ v_col (vbytes b v) = v_col v /\ forall x, v_row (vbytes b v) x = v_row v x.

(** How a unit looks on the terminal. *)
Definition appears (m : moji) (rs : list rune) : Prop :=
  match m with
  | MRaw r | MReg r => rs = [r]
  | MCtrl r => rs = [94; r + 64]                                                     (* ^A *)
  | MEsc r => exists ds, rs = [60] ++ ds ++ [62] /\ Forall hex_char ds /\ hex_value ds = r (* <300> *)
  | MFlag r => rs = if tw r =? 1 then [r; 32] else [r]                                 (* two columns *)
  | _ => False
  end.
(** The row that shows these characters from column [c] on, and nothing after them. *)
Fixpoint picture (c : Z) (rs : list rune) (x : Z) : vcell :=
  match rs with
  | [] => Empty
  | r :: rs' => if (c <=? x) && (x <? c + tw r) then Char r (x - c) else picture (c + tw r) rs' x
  end.
Fixpoint vcolumns (rs : list rune) : Z := match rs with [] => 0 | r :: rs' => tw r + vcolumns rs' end.

(** The row shows the characters of these units after the prompt, and nothing else. *)
Definition vshows (s : buf) (v : vt) (gs : list (list rune)) : Prop :=
  forall x, topc s <= x -> v_row v x = picture (topc s) (List.concat gs) x.
(** The terminal is between sequences, its cursor is visible and it shows the line: from ViewStart to the cursor the units look like [before],
    from the cursor to some [k] (perhaps with the beginning of the prediction) like [after];
    the cursor stands between the two; it all fits; and if the line goes on after [k], the
    next unit would not have fitted, or only into the last two columns. *)
Definition vt_right (E : env) (x : sess) (v : vt) : Prop :=
  match x with
  | Running (MSearch ss) s => v_state v = Ground /\ v_shown v = true /\
      exists n gs, Forall2 appears (firstn n (StringToMoji E (search_text ss))) gs /\ vshows s v gs /\ vcolumns (List.concat gs) < ViewWidth s /\
        (let l := StringToMoji E (search_text ss) in firstn n l = l \/ ViewWidth s <= total_width E (firstn (S n) l))
  | Running _ s => v_state v = Ground /\ v_shown v = true /\ exists k pred before after,
      cursor s <= k <= zlen (line s) /\
      (pred = [] \/ cursor s = zlen (line s) /\ exists rest, suffix s = Some (pred ++ rest)) /\
      Forall2 appears (part (line s) (view s) (cursor s)) before /\
      Forall2 appears (part (line s) (cursor s) k ++ pred) after /\
      vshows s v (before ++ after) /\
      v_col v = topc s + vcolumns (List.concat before) /\
      vcolumns (List.concat (before ++ after)) < ViewWidth s /\
      (k = zlen (line s) \/ ViewWidth s <= vcolumns (List.concat (before ++ after)) + total_width E (part (line s) k (k + 1)) + 2)
  | Finished _ _ _ => True
  end.

(** The terminal counts columns as the program does; for the characters the program paints
    into two columns because terminals differ (rules when ambiguous characters are wide,
    mathematical letters, U+1F3F3) one or two will do. *)
Record counts_like (E : env) : Prop := {
  cl_ascii : forall r, 32 <= r < 127 -> tw r = 1;
  cl_rune : forall r, control r = false -> ~ 127462 <= r <= 127487 -> tw r = rw E r \/
    (9472 <= r <= 9599 /\ amb_wide E = true \/ 119808 <= r <= 120831 \/ r = 127987);
  cl_flag : forall r, 127462 <= r <= 127487 -> tw r = 2;
  cl_two : forall r, 9472 <= r <= 9599 \/ 119808 <= r <= 120831 \/ r = 127987 -> 1 <= tw r <= 2;
  cl_control : forall r, 127 <= r <= 159 -> rw E r = 0
}.
End Vt.

(** The bytes of what was written. *)
Definition out_bytes (E : env) (lf : Z -> str) (ts : list tok) : str := flat_map (tok_bytes E lf) ts.
