(** What the user sees: the row of the terminal on which the line is edited.  Nothing here
    follows the way the code paints. *)
From Verif Require Import Base Utf8 Moji Color Prompt Buffer Commands KeyMap Session Spec.

(** One column of the row: empty, the [i]-th column of a unit, or something that was on
    the screen before (the [i]-th column of the character [r]). *)
Inductive slot := Blank | Part (m : moji) (i : Z) | Old (r : rune) (i : Z).
(** The row and the column the terminal's cursor stands in (columns count from 0). *)
Record screen := mkScreen { col : Z; row : Z -> slot }.

(** What differs from terminal to terminal, and is left open: what it does with the prompt,
    line feeds and clearing; what remains in column [x] of a unit when the unit [m] is written
    over some but not all of its columns, or the rest of the row is erased ([None]). *)
Record terminal := mkTerminal {
  t_other : tok -> screen -> screen;
  t_torn : screen -> option moji -> Z -> slot
}.

Section Terminal.
Variable E : env.
Variable T : terminal.

(** A unit takes [width] columns.  The units it does not overlap stay. *)
Definition put (m : moji) (sc : screen) : screen :=
  let c := col sc in let w := width E m in
  mkScreen (c + w) (fun x =>
    if (c <=? x) && (x <? c + w) then Part m (x - c)
    else match row sc x with
         | Part m' i => if (x - i <? c + w) && (c <? x - i + width E m') then t_torn T sc (Some m) x else Part m' i
         | Blank => Blank
         | Old _ _ => t_torn T sc (Some m) x
         end).
(** Erasing from the cursor to the end of the row. *)
Definition erase_right (sc : screen) : screen :=
  let c := col sc in
  mkScreen c (fun x =>
    if c <=? x then Blank
    else match row sc x with
         | Part m' i => if c <? x - i + width E m' then t_torn T sc None x else Part m' i
         | Blank => Blank
         | Old _ _ => t_torn T sc None x
         end).
(** One write of the program.  Colours, the bell and showing or hiding the cursor do not
    change what stands where. *)
Definition display1 (sc : screen) (t : tok) : screen :=
  match t with
  | TMoji m => put m sc
  | TGoto c => mkScreen (c - 1) (row sc)
  | TErase => erase_right sc
  | TColor _ | TAttr _ | TBell | TCursorOn | TCursorOff | TFlush => sc
  | TPrompt _ | TClear | TNewline | TLineFeed _ => t_other T t sc
  end.
Definition display (ts : list tok) (sc : screen) : screen := fold_left display1 ts sc.

(** The row that shows the units [l] from column [c] on, and nothing after them. *)
Fixpoint image (c : Z) (l : list moji) (x : Z) : slot :=
  match l with
  | [] => Blank
  | m :: l' => if (c <=? x) && (x <? c + width E m) then Part m (x - c) else image (c + width E m) l' x
  end.

(** The units from index [a] up to index [b]. *)
Definition part (l : list moji) (a b : Z) : list moji := firstn (Z.to_nat (b - a)) (skipn (Z.to_nat a) l).

(** The screen shows the line: to the right of the prompt stand the units from ViewStart
    up to some [k] at or after the cursor, after the last of them perhaps the beginning of
    the prediction, and nothing else; the terminal's cursor stands where the next unit
    goes.  All of it is inside the visible width, and the row is used: if the line goes on
    after [k], the next unit would not have fitted, or only into the last two columns. *)
Definition shows (s : buf) (sc : screen) (k : Z) (pred : list moji) : Prop :=
  cursor s <= k <= zlen (line s) /\
  (pred = [] \/ cursor s = zlen (line s) /\ k = zlen (line s) /\ exists rest, suffix s = Some (pred ++ rest)) /\
  (forall x, topc s <= x -> row sc x = image (topc s) (part (line s) (view s) k ++ pred) x) /\
  col sc = topc s + total_width E (part (line s) (view s) (cursor s)) /\
  total_width E (part (line s) (view s) k ++ pred) < ViewWidth s /\
  (k = zlen (line s) \/ ViewWidth s <= total_width E (part (line s) (view s) (k + 1)) + 2).
Definition shown (s : buf) (sc : screen) : Prop := exists k pred, shows s sc k pred.

(** Every unit written ends at or before column [lim]. *)
Definition inside (lim : Z) (sc : screen) (ts : list tok) : Prop :=
  forall a m b, ts = a ++ TMoji m :: b -> col (display a sc) + width E m <= lim.
End Terminal.

(** No part of the unit is a tab. *)
Fixpoint tabfree (m : moji) : bool :=
  match m with
  | MTab _ => false
  | MZwj a b => tabfree a && tabfree b
  | MMod a b => tabfree a && tabfree b
  | MVar a b => tabfree a && tabfree b
  | _ => true
  end.
(** The line of the search mode. *)
Definition search_text (ss : search) : str := s2l "(i-search)[" ++ ss_str ss ++ s2l "]:" ++ ss_found ss.
(** The row shows as much of it as fits: all of it, or the next unit would not fit. *)
Definition shows_search (E : env) (ss : search) (s : buf) (sc : screen) : Prop :=
  let l := StringToMoji E (search_text ss) in
  exists n, (forall x, topc s <= x -> row sc x = image E (topc s) (firstn n l) x) /\
    total_width E (firstn n l) < ViewWidth s /\
    (firstn n l = l \/ ViewWidth s <= total_width E (firstn (Datatypes.S n) l)).
(** The screen is right: it shows the line, or in search mode the search line. *)
Definition screen_right (E : env) (x : sess) (sc : screen) : Prop :=
  match x with
  | Running (MSearch ss) s => shows_search E ss s sc
  | Running _ s => shown E s sc
  | Finished _ _ _ => True
  end.

(** What the theorems about sessions leave out: moving right over units wider than two
    columns when the line has to scroll, transposing units that are not one column wide,
    and a read error in the middle of an incremental search. *)
Definition steady (S : scfg) (e : event) (x : sess) : Prop :=
  let E := cE (base S) in
  match e, x with
  | EKey k, Running MNormal s =>
      (LookupCommand (kmap S) (gmap S) k = CForwardChar ->
         Forall (fun m => 1 <= width E m <= 2) (line s) \/ total_width E (part (line s) (view s) (cursor s + 1)) < ViewWidth s) /\
      (LookupCommand (kmap S) (gmap S) k = CSwapChar -> Forall (fun m => width E m = 1) (line s))
  | EKeyErr, Running (MSearch _) _ => False
  | _, _ => True
  end.
(** There is room: no unit has a tab or is as wide as the visible part of the row. *)
Definition roomy (S : scfg) (x : sess) : Prop :=
  let E := cE (base S) in let v := termw (buf_of x) - prompt_width (base S) - 3 in
  0 < v /\ Forall (fun m => tabfree m = true /\ width E m < v) (line (buf_of x)) /\
  match x with Running (MSearch ss) _ => Forall (fun m => tabfree m = true) (StringToMoji E (search_text ss)) | _ => True end.
(** Both, all through a run. *)
Fixpoint calm (S : scfg) (es : list event) (x : sess) : Prop :=
  roomy S x /\
  match es with
  | [] => True
  | e :: es' => steady S e x /\ forall x', step S e x = Some x' -> calm S es' x'
  end.
(** [steady] alone, all through a run. *)
Fixpoint steady_run (S : scfg) (es : list event) (x : sess) : Prop :=
  match es with
  | [] => True
  | e :: es' => steady S e x /\ forall x', step S e x = Some x' -> steady_run S es' x'
  end.
