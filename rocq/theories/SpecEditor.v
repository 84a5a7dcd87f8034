(** A line editor on paper: a text of code points cut in two at the cursor, a clipboard, a
    history with the edits made to its lines, and the earlier texts for UNDO.  It knows
    nothing of terminals, views, widths, colours, cells or units.  It is total: nothing on
    paper crashes.  Only the names of the commands and the kinds of events are those of the
    model. *)
From Verif Require Import Base Utf8 Moji Buffer Commands KeyMap Session Spec.

(** What UNDO goes back to: the text before a change and where the cursor goes, with the
    place of the change and the number of code points it brought in. *)
Record change := mkChange { c_text : list rune; c_cursor : Z; c_place : Z; c_new : Z }.

Record paper := mkPaper {
  before : list rune;
  after : list rune;
  clipboard : option str;          (* None: not available *)
  visiting : Z;                    (* the line of the history shown; its length: the new line *)
  edited : Z -> option str;        (* lines of the history as they were left *)
  changes : list change            (* the latest first *)
}.
Definition whole (p : paper) : list rune := before p ++ after p.

(** The cursor goes elsewhere. *)
Definition go (b a : list rune) (p : paper) : paper := mkPaper b a (clipboard p) (visiting p) (edited p) (changes p).
(** The text becomes [b ++ a]: a change at [place] with [new] code points, which UNDO takes back with
    the cursor going to [back]. *)
Definition change_to (b a : list rune) (back place new : Z) (p : paper) : paper :=
  mkPaper b a (clipboard p) (visiting p) (edited p) (mkChange (whole p) back place new :: changes p).
Definition copy (t : list rune) (p : paper) : paper :=
  mkPaper (before p) (after p) (match clipboard p with None => None | Some _ => Some (encode t) end) (visiting p) (edited p) (changes p).

(** * Moving *)
Definition backward (p : paper) : paper :=
  match rev (before p) with [] => p | r :: b => go (rev b) (r :: after p) p end.
Definition forward (p : paper) : paper :=
  match after p with [] => p | r :: a => go (before p ++ [r]) a p end.

(** Blanks: every space but the tab. *)
Definition gap (r : rune) : bool := is_space r && negb (r =? 9).
(** [(a, b)]: [a] is the longest beginning of [l] with [f] on every code point. *)
Fixpoint span (f : rune -> bool) (l : list rune) : list rune * list rune :=
  match l with
  | [] => ([], [])
  | r :: l' => if f r then let '(a, b) := span f l' in (r :: a, b) else ([], l)
  end.
(** The same from the right: [b] is the longest end. *)
Definition span_end (f : rune -> bool) (l : list rune) : list rune * list rune :=
  let '(a, b) := span f (rev l) in (rev b, rev a).
Definition backward_word (p : paper) : paper :=
  let '(l, blanks) := span_end gap (before p) in
  let '(rest, word) := span_end (fun r => negb (gap r)) l in
  go rest (word ++ blanks ++ after p) p.
Definition forward_word (p : paper) : paper :=
  let '(word, l) := span (fun r => negb (gap r)) (after p) in
  let '(blanks, rest) := span gap l in
  go (before p ++ word ++ blanks) rest p.

(** * Deleting *)
Definition delete_backward (p : paper) : paper :=
  match rev (before p) with
  | [] => p
  | _ :: b => change_to (rev b) (after p) (zlen (before p)) (zlen (before p) - 1) 0 p
  end.
Definition delete_forward (p : paper) : paper :=
  match after p with
  | [] => p
  | _ :: a => change_to (before p) a (zlen (before p) + 1) (zlen (before p)) 0 p
  end.
Definition kill_right (p : paper) : paper :=
  change_to (before p) [] (zlen (whole p)) (zlen (before p)) 0 (copy (after p) p).
Definition kill_all (p : paper) : paper := change_to [] [] (zlen (whole p)) 0 0 p.
(** [cut n]: the last [n] code points before the cursor go to the clipboard; nothing to cut is no change. *)
Definition cut_to (stay cut : list rune) (p : paper) : paper :=
  let p1 := copy cut p in
  match cut with
  | [] => p1
  | _ => change_to stay (after p) (zlen (before p)) (zlen stay) 0 p1
  end.
(** The last word of [l], with quotes; the tab belongs to the word if one has begun, but begins none. *)
Definition after_quote (q r : rune) : rune :=
  if q =? 0 then (if (r =? 34) || (r =? 39) then r else 0) else if r =? q then 0 else q.
Fixpoint last_word (q : rune) (stay word l : list rune) : list rune * list rune :=
  match l with
  | [] => (stay, word)
  | r :: l' =>
    if r =? 9 then
      match word with [] => last_word q (stay ++ [r]) [] l' | _ => last_word q stay (word ++ [r]) l' end
    else if gap r && (q =? 0) then last_word q (stay ++ word ++ [r]) [] l'
    else last_word (after_quote q r) stay (word ++ [r]) l'
  end.
Definition rubout_word (p : paper) : paper :=
  let '(l, blanks) := span_end gap (before p) in
  let '(stay, word) := last_word 0 [] [] l in
  cut_to stay (word ++ blanks) p.

(** * Inserting *)
Definition type_in (l : list rune) (p : paper) : paper :=
  change_to (before p ++ l) (after p) (zlen (before p)) (zlen (before p)) (zlen l) p.
(** Two changes at the same place, of which at most one has brought something in, are taken back in one. *)
Definition as_one (p : paper) : paper :=
  match changes p with
  | c2 :: c1 :: rest =>
    if (c_place c1 =? c_place c2) && ((c_new c1 =? 0) || (c_new c2 =? 0))
    then mkPaper (before p) (after p) (clipboard p) (visiting p) (edited p)
           (mkChange (c_text c1) (c_cursor c1) (c_place c1) (c_new c1 + c_new c2) :: rest)
    else p
  | _ => p
  end.
Definition paste (t : str) (p : paper) : paper := as_one (type_in (runes t) p).
(** Without the line breaks and NULs at the end. *)
Fixpoint no_end_breaks (t : str) : str :=
  match t with
  | [] => []
  | b :: t' =>
    match no_end_breaks t' with
    | [] => if (b =? 13) || (b =? 10) || (b =? 0) then [] else [b]
    | u => b :: u
    end
  end.
(** In double quotes: quotes are doubled, CR LF stands outside. *)
Fixpoint quote_body (t : str) : str :=
  match t with
  | [] => []
  | b :: t' =>
    if b =? 34 then 34 :: 34 :: quote_body t'
    else match t' with
         | c :: t'' => if (b =? 13) && (c =? 10) then [34; 13; 10; 34] ++ quote_body t'' else b :: quote_body t'
         | [] => [b]
         end
  end.
Definition needs_quotes (t : str) : bool :=
  existsb (Z.eqb 32) t && match t with b :: _ => negb (b =? 34) | [] => false end.
Definition quoted (t : str) : str := if needs_quotes t then 34 :: quote_body t ++ [34] else t.
Definition paste_clip (f : str -> str) (p : paper) : paper :=
  match clipboard p with None => p | Some t => paste (f t) p end.

Definition swap (p : paper) : paper :=
  match after p, rev (before p) with
  | [], y :: x :: b => change_to (rev b ++ [y; x]) [] (zlen (before p)) (zlen (before p)) 2 p
  | y :: a, x :: b => change_to (rev b ++ [y; x]) a (zlen (before p) + 1) (zlen (before p) - 1) 2 p
  | _, _ => p
  end.

(** * UNDO: back to the text before the latest change *)
Definition take_back (p : paper) : paper :=
  match changes p with
  | [] => p
  | c :: rest =>
    mkPaper (firstn (Z.to_nat (c_cursor c)) (c_text c)) (skipn (Z.to_nat (c_cursor c)) (c_text c))
            (clipboard p) (visiting p) (edited p) rest
  end.

Section WithEditor.
Variable entries : list str.        (* the history, oldest first *)
Variable cyclic : bool.             (* HistoryCycling *)
Variable up : str -> str.           (* strings.ToUpper *)
Variable command : str -> cmd.      (* what a key is bound to *)

(** * History *)
Definition entry (i : Z) : str := nth (Z.to_nat i) entries [].
(** The line to show: as it was left, or as it is in the history; the new line is empty at first. *)
Definition shown_at (i : Z) (p : paper) : str := match edited p i with Some t => t | None => entry i end.
(** The line is left: if it differs from the entry, it is kept. *)
Definition leave (p : paper) : paper :=
  let t := encode (whole p) in
  if (visiting p <? zlen entries) && str_eqb (entry (visiting p)) t then p
  else mkPaper (before p) (after p) (clipboard p) (visiting p)
         (fun i => if i =? visiting p then Some t else edited p i) (changes p).
Definition visit (i : Z) (p : paper) : paper :=
  let p1 := kill_all (mkPaper (before p) (after p) (clipboard p) i (edited p) (changes p)) in
  match shown_at i p with
  | [] => p1
  | t => type_in (runes t) p1
  end.
Definition previous (p : paper) : paper :=
  match entries with
  | [] => p
  | _ => if 0 <? visiting p then visit (visiting p - 1) (leave p)
         else if cyclic then visit (zlen entries) p     (* the oldest line is left without being kept *)
         else p
  end.
Definition next (p : paper) : paper :=
  match entries with
  | [] => p
  | _ => if visiting p <? zlen entries then visit (visiting p + 1) (leave p) else p
  end.

(** * The search: its text, the entry found (empty: none), its index *)
Fixpoint begins (t u : str) : bool :=
  match u, t with [], _ => true | b :: u', c :: t' => (b =? c) && begins t' u' | _, _ => false end.
Fixpoint occurs (t u : str) : bool :=
  begins t u || match t with [] => false | _ :: t' => occurs t' u end.
Definition matches (text : list rune) (i : Z) : bool := occurs (up (entry i)) (up (encode text)).
(** 0, 1, ..., n - 1 *)
Definition below (n : Z) : list Z := map Z.of_nat (seq 0 (Z.to_nat n)).
(** The newest entry with the text in it. *)
Definition look_up (text : list rune) (i : Z) : str * Z :=
  match find (matches text) (rev (below (zlen entries))) with
  | Some j => (entry j, j)
  | None => ([], i)
  end.
(** Another entry with the text in it, the first among [js]. *)
Definition look_on (js : list Z) (text : list rune) (found : str) (i : Z) : str * Z :=
  match find (fun j => matches text j && negb (str_eqb found (entry j))) js with
  | Some j => (entry j, j)
  | None => (found, i)
  end.
(** From [i] to the older ones, then from the newest on, back to [i]; *)
Definition older_than (i : Z) : list Z := rev (below i) ++ rev (filter (fun j => i <? j) (below (zlen entries))).
(** from [i] to the newer ones. *)
Definition newer_than (i : Z) : list Z := filter (fun j => i <? j) (below (zlen entries)).
Definition accept_found (found : str) (p : paper) : paper := paste found (kill_all p).

(** * Events *)
Inductive desk :=
| Editing (p : paper)
| Quoting (p : paper)                                                  (* after QUOTED_INSERT *)
| Searching (text : list rune) (found : str) (i : Z) (p : paper)
| Returned (t : str) (e : rerr).

Definition press (k : str) (p : paper) : desk :=
  match command k with
  | CAcceptLine => Returned (encode (whole p)) RNil
  | CInterrupt => Returned [] RCtrlC
  | CDeleteOrAbort => match whole p with [] => Returned [] REOF | _ => Editing (delete_forward p) end
  | CQuotedInsert => Quoting p
  | CISearchBackward => Searching [] [] (zlen entries - 1) p
  | CBeginningOfLine => Editing (go [] (whole p) p)
  | CEndOfLine => Editing (go (whole p) [] p)
  | CBackwardChar => Editing (backward p)
  | CForwardChar => Editing (forward p)
  | CBackwardWord => Editing (backward_word p)
  | CForwardWord => Editing (forward_word p)
  | CBackwardDeleteChar => Editing (delete_backward p)
  | CDeleteChar => Editing (delete_forward p)
  | CKillLine => Editing (kill_right p)
  | CKillWholeLine => Editing (kill_all p)
  | CUnixWordRubout => Editing (rubout_word p)
  | CUnixLineDiscard => Editing (cut_to [] (before p) p)
  | CYank => Editing (paste_clip no_end_breaks p)
  | CYankWithQuote => Editing (paste_clip quoted p)
  | CSwapChar => Editing (swap p)
  | CUndo => Editing (take_back p)
  | CPreviousHistory => Editing (previous p)
  | CNextHistory => Editing (next p)
  | CSelfInsert t => Editing (type_in (runes (key_text t)) p)
  | CClearScreen | CRepaintOnNewline | CUser _ => Editing p
  end.
Definition is_ctrl (r : rune) : bool := ((0 <=? r) && (r <=? 31)) || ((127 <=? r) && (r <=? 159)).
Definition press_search (k : str) (text : list rune) (found : str) (i : Z) (p : paper) : desk :=
  let on (text' : list rune) (fi : str * Z) := Searching text' (fst fi) (snd fi) p in
  if str_eqb k [8] || str_eqb k [127] then on (removelast text) (look_up (removelast text) i)
  else if str_eqb k [13] then Editing (accept_found found p)
  else if str_eqb k [3] || str_eqb k [7] || str_eqb k [27] then Editing p
  else if str_eqb k [18] then on text (look_on (older_than i) text found i)
  else if str_eqb k [19] then on text (look_on (newer_than i) text found i)
  else if is_ctrl (first_rune k) then Searching text found i p
  else on (text ++ [first_rune k]) (look_up (text ++ [first_rune k]) i).

Definition happens (e : event) (d : desk) : desk :=
  match d, e with
  | Returned _ _, _ | _, EResize _ => d
  | Editing p, EKey k => press k p
  | Quoting p, EKey k => Editing (type_in (runes (key_text k)) p)
  | Searching text found i p, EKey k => press_search k text found i p
  | Editing _, EKeyErr => Returned [] RKeyError
  | Quoting p, EKeyErr | Searching _ _ _ p, EKeyErr => Editing p
  | Editing p, EClip c => Editing (mkPaper (before p) (after p) c (visiting p) (edited p) (changes p))
  | Quoting p, EClip c => Quoting (mkPaper (before p) (after p) c (visiting p) (edited p) (changes p))
  | Searching text found i p, EClip c => Searching text found i (mkPaper (before p) (after p) c (visiting p) (edited p) (changes p))
  end.

(** ReadLine on paper, with the text it begins with and the place of the cursor in it. *)
Definition fresh (default : str) (cur : Z) (cl : option str) : paper :=
  let t := runes default in
  mkPaper (firstn (Z.to_nat cur) t) (skipn (Z.to_nat cur) t) cl (zlen entries) (fun _ => None) [mkChange [] 0 0 (zlen t)].
Definition on_paper (default : str) (cur : Z) (cl : option str) (es : list event) : desk :=
  fold_left (fun d e => happens e d) es (Editing (fresh default cur cl)).
End WithEditor.

(** ** What the editor in the terminal shares with the one on paper *)
(** Every code point is a character of its own. *)
Definition alone (E : env) (l : list rune) : list moji := flat_map (fun r => split E (encode_rune r)) l.
Definition same_page (E : env) (s : buf) (p : paper) : Prop :=
  at_split s (alone E (before p)) (alone E (after p)) /\ clip s = clipboard p.
Definition same_desk (E : env) (x : sess) (d : desk) : Prop :=
  match x, d with
  | Running MNormal s, Editing p | Running MQuoted s, Quoting p => same_page E s p
  | Running (MSearch ss) s, Searching text found i p =>
    same_page E s p /\ ss_str ss = encode text /\ ss_found ss = found /\ ss_pos ss = i
  | Finished _ t e, Returned t' e' => t = t' /\ e = e'
  | _, _ => False
  end.

(** Text without code points that join their neighbour (with all joining switched off: every text). *)
Definition unjoined (E : env) (t : str) : Prop := forall r, In r (runes t) -> joins E r = false.
Definition unjoined_event (S : scfg) (e : event) : Prop :=
  let E := cE (base S) in
  match e with
  | EKey k => unjoined E (key_text k) /\ forall k', LookupCommand (kmap S) (gmap S) k = CSelfInsert k' -> unjoined E (key_text k')
  | EClip (Some t) => unjoined E t
  | _ => True
  end.
