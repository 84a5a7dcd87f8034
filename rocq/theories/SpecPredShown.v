(** When the prediction is on the screen. *)
From Verif Require Import Base Utf8 Moji Color Prompt Buffer Commands KeyMap Session Spec SpecScreen.
From Verif Require Import SpecUndo SpecTabs.
From Verif Require SpecVt SpecTabScreen SpecVtTabs SpecVtScroll.

(** The screen shows the end of the line and after it the prediction for the line as it is
    now: all of it, or up to the first unit that does not fit the visible width. *)
Definition shows_prediction (C : cfg) (s : buf) (sc : screen) : Prop :=
  exists pred rest, split (cE C) (predictor C (written (line s)) (cursor s)) = pred ++ rest /\
    shows (cE C) s sc (zlen (line s)) pred /\
    (rest = [] \/ exists m rest', rest = m :: rest' /\
       ViewWidth s <= total_width (cE C) (part (line s) (view s) (zlen (line s)) ++ pred ++ [m])).

(** The events after which it is there: the window has been resized, or a key has typed a
    character, deleted to the left or at the cursor, pasted, undone something, taken over the
    prediction before, cleared the screen, or accepted what a search had found. *)
Definition predicts_anew (S : scfg) (e : event) (x : sess) : Prop :=
  match e, x with
  | EResize _, Running MNormal _ => True
  | EKey _, Running MQuoted _ => True
  | EKey k, Running (MSearch _) _ => k = [13]
  | EKey k, Running MNormal s =>
      match LookupCommand (kmap S) (gmap S) k with
      | CSelfInsert _ | CBackwardDeleteChar | CDeleteChar | CDeleteOrAbort | CUnixWordRubout | CUnixLineDiscard
      | CClearScreen | CRepaintOnNewline => True
      | CYank | CYankWithQuote => clip s <> None
      | CUndo => undoes s <> []
      | CForwardChar => cursor s = zlen (line s) /\ predicted s <> []
      | _ => False
      end
  | _, _ => False
  end.

(** The same on an ordinary terminal (SpecVt.v): the end of the line looks like [before] and
    after it, where the cursor stands, the prediction like [after]. *)
Definition vt_shows_prediction (V : SpecVt.vterm) (C : cfg) (s : buf) (v : SpecVt.vt) : Prop :=
  exists pred rest before after, split (cE C) (predictor C (written (line s)) (cursor s)) = pred ++ rest /\
    Forall2 (SpecVt.appears V) (part (line s) (view s) (zlen (line s))) before /\ Forall2 (SpecVt.appears V) pred after /\
    SpecVt.vshows V s v (before ++ after) /\ SpecVt.v_col v = topc s + SpecVt.vcolumns V (List.concat before) /\
    SpecVt.vcolumns V (List.concat (before ++ after)) < ViewWidth s /\
    (rest = [] \/ exists m rest', rest = m :: rest' /\ ViewWidth s <= SpecVt.vcolumns V (List.concat (before ++ after)) + width (cE C) m).

(** With tabs: the end of the line, each tab as wide as it is in the whole line, and after it
    all of the prediction, each tab as wide as it is there in the prediction by itself. *)
Definition shows_whole_prediction (C : cfg) (s : buf) (sc : screen) : Prop :=
  let l := part (SpecTabScreen.laid (cE C) 0 (line s)) (view s) (zlen (line s)) in
  let p := StringToMoji (cE C) (predictor C (written (line s)) (cursor s)) in
  (forall x, topc s <= x -> row sc x = image (cE C) (topc s) (l ++ p) x) /\ col sc = topc s + total_width (cE C) l.
(** There is room for both, counting seven columns for each tab of the line: four, and three
    that the widths from before the last edit can be wrong by. *)
Definition room_for_both (C : cfg) (s : buf) : Prop :=
  let l := part (line s) (view s) (zlen (line s)) in
  total_width (cE C) l + 3 * zlen (filter (fun m => negb (tabfree m)) l) +
    total_width (cE C) (StringToMoji (cE C) (predictor C (written (line s)) (cursor s))) < ViewWidth s.
(** The same on an ordinary terminal: the units of the whole line look like [gs], those of the
    prediction like [ps]. *)
Definition vt_shows_whole_prediction (V : SpecVt.vterm) (C : cfg) (s : buf) (v : SpecVt.vt) : Prop :=
  exists gs ps, SpecVtTabs.looks V 0 (line s) gs /\
    Forall2 (SpecVtTabs.appears_tab V) (StringToMoji (cE C) (predictor C (written (line s)) (cursor s))) ps /\
    SpecVt.vshows V s v (SpecVtScroll.stretch gs (view s) (zlen (line s)) ++ ps) /\
    SpecVt.v_col v = topc s + SpecVt.vcolumns V (List.concat (SpecVtScroll.stretch gs (view s) (zlen (line s)))).
(** As much of the prediction as fits.  The line is painted with its widths as they are now, the
    room is counted with the widths from before the last edit: three columns more or less for each tab. *)
Definition tab_doubt (l : list moji) : Z := 3 * zlen (filter (fun m => negb (tabfree m)) l).
Definition shows_cut_prediction (C : cfg) (s : buf) (sc : screen) : Prop :=
  let l := part (SpecTabScreen.laid (cE C) 0 (line s)) (view s) (zlen (line s)) in
  let r := part (line s) (view s) (zlen (line s)) in
  exists pred rest, StringToMoji (cE C) (predictor C (written (line s)) (cursor s)) = pred ++ rest /\
    (forall x, topc s <= x -> row sc x = image (cE C) (topc s) (l ++ pred) x) /\ col sc = topc s + total_width (cE C) l /\
    total_width (cE C) (r ++ pred) < ViewWidth s + tab_doubt r /\
    (rest = [] \/ exists m rest', rest = m :: rest' /\ ViewWidth s <= total_width (cE C) (r ++ pred ++ [m]) + tab_doubt r).
(** There is room for the line. *)
Definition room_for_line (C : cfg) (s : buf) : Prop :=
  let r := part (line s) (view s) (zlen (line s)) in total_width (cE C) r + tab_doubt r < ViewWidth s.
(** The same of an ordinary terminal. *)
Definition vt_shows_cut_prediction (V : SpecVt.vterm) (C : cfg) (s : buf) (v : SpecVt.vt) : Prop :=
  let r := part (line s) (view s) (zlen (line s)) in
  exists pred rest gs ps, StringToMoji (cE C) (predictor C (written (line s)) (cursor s)) = pred ++ rest /\
    SpecVtTabs.looks V 0 (line s) gs /\ Forall2 (SpecVtTabs.appears_tab V) pred ps /\
    SpecVt.vshows V s v (SpecVtScroll.stretch gs (view s) (zlen (line s)) ++ ps) /\
    SpecVt.v_col v = topc s + SpecVt.vcolumns V (List.concat (SpecVtScroll.stretch gs (view s) (zlen (line s)))) /\
    total_width (cE C) (r ++ pred) < ViewWidth s + tab_doubt r /\
    (rest = [] \/ exists m rest', rest = m :: rest' /\ ViewWidth s <= total_width (cE C) (r ++ pred ++ [m]) + tab_doubt r).
(** The text an event brings into the line. *)
Definition brought (S : scfg) (e : event) (x : sess) : str :=
  match e, x with
  | EKey k, Running MQuoted s => pending s ++ key_text k
  | EKey _, Running (MSearch ss) _ => ss_found ss
  | EKey k, Running MNormal s =>
      match LookupCommand (kmap S) (gmap S) k with
      | CSelfInsert k' => pending s ++ key_text k'
      | CYank => match clip s with Some t => trim_right t | None => [] end
      | CYankWithQuote => match clip s with Some t => yank_quote t | None => [] end
      | CUndo => match undoes s with u :: _ => u_text u | [] => [] end
      | CForwardChar => written (predicted s)
      | _ => []
      end
  | _, _ => []
  end.
(** It has no tab, and the key typed does not attach to the character before it. *)
Definition brings_no_tab (S : scfg) (e : event) (x : sess) : Prop :=
  Forall (fun m => tabfree m = true) (split (cE (base S)) (brought S e x)) /\ single_piece S e.
(** Then the place of the cut is known exactly: the end of the line as it is shown, and after it all
    of the prediction, or up to the first unit that does not fit. *)
Definition shows_prediction_exactly (C : cfg) (s : buf) (sc : screen) : Prop :=
  let l := part (SpecTabScreen.laid (cE C) 0 (line s)) (view s) (zlen (line s)) in
  exists pred rest, StringToMoji (cE C) (predictor C (written (line s)) (cursor s)) = pred ++ rest /\
    (forall x, topc s <= x -> row sc x = image (cE C) (topc s) (l ++ pred) x) /\ col sc = topc s + total_width (cE C) l /\
    total_width (cE C) (l ++ pred) < ViewWidth s /\
    (rest = [] \/ exists m rest', rest = m :: rest' /\ ViewWidth s <= total_width (cE C) (l ++ pred ++ [m])).
(** The end of the line fits the row. *)
Definition line_fits (C : cfg) (s : buf) : Prop :=
  total_width (cE C) (part (SpecTabScreen.laid (cE C) 0 (line s)) (view s) (zlen (line s))) < ViewWidth s.
(** The same of an ordinary terminal. *)
Definition vt_shows_prediction_exactly (V : SpecVt.vterm) (C : cfg) (s : buf) (v : SpecVt.vt) : Prop :=
  let l := part (SpecTabScreen.laid (cE C) 0 (line s)) (view s) (zlen (line s)) in
  exists pred rest gs ps, StringToMoji (cE C) (predictor C (written (line s)) (cursor s)) = pred ++ rest /\
    SpecVtTabs.looks V 0 (line s) gs /\ Forall2 (SpecVtTabs.appears_tab V) pred ps /\
    SpecVt.vshows V s v (SpecVtScroll.stretch gs (view s) (zlen (line s)) ++ ps) /\
    SpecVt.v_col v = topc s + SpecVt.vcolumns V (List.concat (SpecVtScroll.stretch gs (view s) (zlen (line s)))) /\
    total_width (cE C) (l ++ pred) < ViewWidth s /\
    (rest = [] \/ exists m rest', rest = m :: rest' /\ ViewWidth s <= total_width (cE C) (l ++ pred ++ [m])).
(** In general: the text an event brings is counted with its tabs as wide as in that text by
    itself, what was there before with its tabs as they stand. *)
Definition counted (E : env) (l : list moji) (t : str) : list moji :=
  let new := StringToMoji E t in SpecTabScreen.laid E 0 (firstn (Z.to_nat (zlen l - zlen new)) l) ++ new.
(** The end of the line as it is shown, and after it all of the prediction, or up to the first unit
    that does not fit by this count. *)
Definition shows_prediction_counted (C : cfg) (t : str) (s : buf) (sc : screen) : Prop :=
  let l := part (SpecTabScreen.laid (cE C) 0 (line s)) (view s) (zlen (line s)) in
  let r := part (counted (cE C) (line s) t) (view s) (zlen (line s)) in
  exists pred rest, StringToMoji (cE C) (predictor C (written (line s)) (cursor s)) = pred ++ rest /\
    (forall x, topc s <= x -> row sc x = image (cE C) (topc s) (l ++ pred) x) /\ col sc = topc s + total_width (cE C) l /\
    total_width (cE C) (r ++ pred) < ViewWidth s /\
    (rest = [] \/ exists m rest', rest = m :: rest' /\ ViewWidth s <= total_width (cE C) (r ++ pred ++ [m])).
(** By this count the end of the line fits the row. *)
Definition counted_fits (C : cfg) (t : str) (s : buf) : Prop :=
  total_width (cE C) (part (counted (cE C) (line s) t) (view s) (zlen (line s))) < ViewWidth s.
(** The same of an ordinary terminal. *)
Definition vt_shows_prediction_counted (V : SpecVt.vterm) (C : cfg) (t : str) (s : buf) (v : SpecVt.vt) : Prop :=
  let r := part (counted (cE C) (line s) t) (view s) (zlen (line s)) in
  exists pred rest gs ps, StringToMoji (cE C) (predictor C (written (line s)) (cursor s)) = pred ++ rest /\
    SpecVtTabs.looks V 0 (line s) gs /\ Forall2 (SpecVtTabs.appears_tab V) pred ps /\
    SpecVt.vshows V s v (SpecVtScroll.stretch gs (view s) (zlen (line s)) ++ ps) /\
    SpecVt.v_col v = topc s + SpecVt.vcolumns V (List.concat (SpecVtScroll.stretch gs (view s) (zlen (line s)))) /\
    total_width (cE C) (r ++ pred) < ViewWidth s /\
    (rest = [] \/ exists m rest', rest = m :: rest' /\ ViewWidth s <= total_width (cE C) (r ++ pred ++ [m])).
