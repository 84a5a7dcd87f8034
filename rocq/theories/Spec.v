(** The vocabulary of the property theorems: small definitions that say in the words of
    the properties what a line, its units and its text are.  Nothing here follows the
    way the code works. *)
From Verif Require Import Base Utf8 Moji Color Prompt Buffer Commands KeyMap Session.
From Verif Require MojiFacts.

(** A unit with the columns of its tabs left out (the column is a matter of display). *)
Notation unit_of := MojiFacts.erase.

(** The text written by WriteTo for a list of units. *)
Definition written (l : list moji) : str := flat_map write l.

(** The units on the line. *)
Definition line (s : buf) : list moji := map (fun c => unit_of (c_moji c)) (cells s).

(** The units a string consists of. *)
Definition split (E : env) (t : str) : list moji := map unit_of (StringToMoji E t).

(** [s'] is [s] with each byte that does not belong to a well-formed encoding of a
    scalar value replaced by U+FFFD. *)
Inductive sanitized : str -> str -> Prop :=
| San_nil : sanitized [] []
| San_char r s s' : valid_rune r = true -> sanitized s s' ->
    sanitized (encode_rune r ++ s) (encode_rune r ++ s')
| San_bad b s s' : (forall r t, valid_rune r = true -> b :: s <> encode_rune r ++ t) ->
    sanitized s s' -> sanitized (b :: s) (encode_rune 65533 ++ s').

(** A code point that attaches itself to the unit before it. *)
Definition joins (E : env) (r : rune) : bool :=
  (zwj_ok E && ((r =? 8204) || (r =? 8205))) || (vs_ok E && vsme E r)
  || (mod_ok E && (127995 <=? r) && (r <=? 127999)).

(** What the environment is assumed to do where a theorem mentions it: widths are not
    negative, and a joined character is at least as wide as its first part and gets no
    narrower when its parts get wider (the code's own GetZWJSWidth is w1 + 1 + w2). *)
Definition sane_widths (E : env) : Prop :=
  (forall r, 0 <= rw E r) /\
  (forall a b, 0 <= a -> 0 <= b -> a <= zw E a b) /\
  (forall a a' b b', 0 <= a <= a' -> 0 <= b <= b' -> zw E a b <= zw E a' b').

(** The editing position is inside the line and the view starts at or before it. *)
Definition in_bounds (s : buf) : Prop :=
  0 <= view s <= cursor s /\ cursor s <= zlen (cells s).

Definition buf_of (x : sess) : buf := match x with Running _ s => s | Finished s _ _ => s end.

(** A key map that binds keys to built-in commands only. *)
Definition only_builtin (S : scfg) : Prop :=
  forall k f, LookupCommand (kmap S) (gmap S) k <> CUser f.

(** The columns the prompt takes. *)
Definition prompt_width (C : cfg) : Z := Z.max 0 (snd (callPromptWriter (cE C) (prompt C))).

(** [rs'] is [rs] except that joiners may have been turned into U+200D and a joiner at
    the very end may have got U+FFFD to join with. *)
Inductive joiners_changed : list rune -> list rune -> Prop :=
| JC_nil : joiners_changed [] []
| JC_same r rs rs' : joiners_changed rs rs' -> joiners_changed (r :: rs) (r :: rs')
| JC_join r rs rs' : r = 8204 \/ r = 8205 -> joiners_changed rs rs' ->
    joiners_changed (r :: rs) (8205 :: rs')
| JC_end r : r = 8204 \/ r = 8205 -> joiners_changed [r] [8205; 65533].

(** The columns a list of units takes. *)
Definition total_width (E : env) (l : list moji) : Z := fold_right (fun m w => width E m + w) 0 l.

(** [x] can be reached: some ReadLine gets there. *)
Definition reached (S : scfg) (x : sess) : Prop :=
  exists default cur w cl es, readline S default cur w cl es = Some x.

(** Text without tabs and without code points that attach to their neighbour. *)
Definition simple_text (E : env) (s : str) : Prop :=
  forall r, In r (runes s) -> r <> 9 /\ joins E r = false.
Definition simple_clip (E : env) (c : option str) : Prop := forall t, c = Some t -> simple_text E t.

(** Events that bring in only such text, do not make the terminal too narrow, and do not
    use SWAPCHAR. *)
Definition simple_event (S : scfg) (e : event) : Prop :=
  match e with
  | EKey k => simple_text (cE (base S)) k /\
              LookupCommand (kmap S) (gmap S) k <> CSwapChar /\
              (forall k', LookupCommand (kmap S) (gmap S) k = CSelfInsert k' -> simple_text (cE (base S)) k')
  | EKeyErr => True
  | EResize w => prompt_width (base S) + 11 < w
  | EClip c => simple_clip (cE (base S)) c
  end.

(** An editor whose own sources of text are simple, with columns as usual: no character
    is wider than eight columns. *)
Definition simple_editor (S : scfg) : Prop :=
  let C := base S in let E := cE C in
  only_builtin S /\ sane_widths E /\ (forall r, rw E r <= 8) /\
  joins E 65533 = false /\ joins E 34 = false /\
  (pcolor0 C = [] \/ forall t c, simple_text E (predictor C t c)) /\
  Forall (simple_text E) (hist C).

(** The line is [p ++ q] and the cursor stands between [p] and [q]. *)
Definition at_split (s : buf) (p q : list moji) : Prop := line s = p ++ q /\ cursor s = zlen p.

(** What a command that edits only the line leaves alone. *)
Definition history_untouched (s s' : buf) : Prop := hptr s' = hptr s /\ modh s' = modh s.

Definition rest_kept (s s' : buf) : Prop := history_untouched s s' /\ pending s' = pending s.

(** A blank unit: a unit of one code point that unicode.IsSpace accepts. *)
Definition blank (m : moji) : bool := IsSpaceMoji m.
(** A unit of one code point (a tab does not count as one here). *)
Definition single (m : moji) : bool := match MojiToRune m with Some _ => true | None => false end.
Definition all_blank (l : list moji) : Prop := forallb blank l = true.
Definition no_blank (l : list moji) : Prop := forallb (fun m => negb (blank m)) l = true.

(** The quotation mark that is open after the units of [l] (0: none): a mark opens, the
    same mark closes. *)
Definition quote_step (q : Z) (m : moji) : Z :=
  match MojiToRune m with
  | None => q
  | Some ch => if q =? 0 then (if (ch =? 34) || (ch =? 39) then ch else 0)
               else if ch =? q then 0 else q
  end.
Definition open_quote (l : list moji) : Z := fold_left quote_step l 0.

(** [pre] is empty or ends with a blank outside quotes. *)
Definition word_boundary (pre : list moji) : Prop :=
  pre = [] \/ exists a m, pre = a ++ [m] /\ blank m = true /\ open_quote a = 0.
(** No blank of [w], which follows [pre], is outside quotes. *)
Definition one_word (pre w : list moji) : Prop :=
  forall a m b, w = a ++ m :: b -> blank m = true -> open_quote (pre ++ a) <> 0.

(** The split of the text [p] before the cursor: [a] up to the last blank outside quotes,
    [sk] units of several code points (or tabs) at the start of the word, and the rest [w]
    of the word. *)
Definition word_split (p a sk w : list moji) : Prop :=
  p = a ++ sk ++ w /\ word_boundary a /\ forallb (fun m => negb (single m)) sk = true /\
  one_word (a ++ sk) w /\ (w = [] \/ exists m w', w = m :: w' /\ single m = true).

(** Everything but the position of the cursor and the display. *)
Definition same_content (s s' : buf) : Prop :=
  line s' = line s /\ undoes s' = undoes s /\ clip s' = clip s /\ modh s' = modh s /\
  hptr s' = hptr s /\ pending s' = pending s.

(** The clipboard, if there is one, is left with [t]. *)
Definition copied (t : str) (s s' : buf) : Prop := clip s' = option_map (fun _ => t) (clip s).

(** The first code point of a key. *)
Definition first_rune (k : str) : rune := hd 65533 (runes k).

(** A unit that does not begin with a code point that would attach to its neighbour. *)
Definition clean (E : env) (m : moji) : Prop := joins E (first_rune (write m)) = false.

(** The text does not end in CR, LF or NUL. *)
Definition no_final_break (t : str) : Prop :=
  forall t' b, t = t' ++ [b] -> b <> 13 /\ b <> 10 /\ b <> 0.

(** [u] is [t] without the CR, LF and NUL at its end. *)
Definition cut_breaks (t u : str) : Prop :=
  no_final_break u /\ exists tail, t = u ++ tail /\ Forall (fun b => b = 13 \/ b = 10 \/ b = 0) tail.

(** Reading double quotes away: outside quotes a mark opens a quoted stretch; inside, two
    marks stand for one and a single mark closes the stretch. *)
Fixpoint unquote (inside : bool) (t : str) : str :=
  match t with
  | [] => []
  | b :: t' =>
    if b =? 34 then
      if inside then
        match t' with
        | c :: t'' => if c =? 34 then 34 :: unquote true t'' else unquote false t'
        | [] => []
        end
      else unquote true t'
    else b :: unquote inside t'
  end.

(** Every CR LF stands outside the quotes. *)
Fixpoint breaks_outside (inside : bool) (t : str) : Prop :=
  match t with
  | [] => True
  | b :: t' =>
    if b =? 34 then
      if inside then
        match t' with
        | c :: t'' => if c =? 34 then breaks_outside true t'' else breaks_outside false t'
        | [] => True
        end
      else breaks_outside true t'
    else (inside = true -> ~ (b = 13 /\ hd 0 t' = 10)) /\ breaks_outside inside t'
  end.
(** [u] is [t], in double quotes if there is a space in it and it does not begin with a quote. *)
Definition in_quotes (t u : str) : Prop :=
  (In 32 t -> (forall t', t <> 34 :: t') -> (exists m, u = [34] ++ m ++ [34]) /\ unquote false u = t /\ breaks_outside false u) /\
  (~ In 32 t \/ (exists t', t = 34 :: t') -> u = t).

(** What a key inserts: ESC and one byte stand for that byte. *)
Definition key_text (k : str) : str := match k with [a; b] => if a =? 27 then [b] else k | _ => k end.

(** The commands that move the cursor or repaint. *)
Definition is_move (c : cmd) : bool :=
  match c with
  | CBackwardChar | CForwardChar | CBeginningOfLine | CEndOfLine | CBackwardWord | CForwardWord
  | CClearScreen | CRepaintOnNewline => true
  | _ => false
  end.

(** What a key does: the editor's own map, then the global one, then inserting itself. *)
Definition bound (S : scfg) (k : str) (c : cmd) : Prop := LookupCommand (kmap S) (gmap S) k = c.
Definition unbound (S : scfg) (k : str) : Prop := bound S k (CSelfInsert k).

(** Everything but the display. *)
Definition same_state (s s' : buf) : Prop := same_content s s' /\ cursor s' = cursor s.

(** The entry browsing shows at position [i] (0 is the oldest entry, [length h] the line
    being typed): the edit remembered for that position during this ReadLine, else the
    history's own entry, else nothing. *)
Definition shown (h : list str) (s : buf) (i : Z) : str :=
  match aget Z.eqb (modh s) i with Some t => t | None => nth (Z.to_nat i) h [] end.

(** Leaving the current position forgets nothing: the text on the line is not just the
    unchanged history entry hiding an older edit. *)
Definition no_stale_edit (h : list str) (s : buf) : Prop :=
  aget Z.eqb (modh s) (hptr s) = None \/ zlen h <= hptr s \/ nth (Z.to_nat (hptr s)) h [] <> written (line s).

(** [t] occurs in [h] when both are upper-cased. *)
Definition occurs_in (C : cfg) (t h : str) : Prop := exists a b, upper C h = a ++ upper C t ++ b.

(** [e] is the newest entry with property [P]. *)
Definition newest (P : str -> Prop) (h : list str) (e : str) : Prop :=
  exists h1 h2, h = h1 ++ e :: h2 /\ P e /\ Forall (fun x => ~ P x) h2.

(** The prediction held for the end of the line. *)
Definition predicted (s : buf) : list moji :=
  match suffix s with Some l => map unit_of l | None => [] end.
(** It is the predictor's answer for the present line (an empty line has none). *)
Definition prediction_current (C : cfg) (s : buf) : Prop :=
  predicted s = match line s with [] => [] | _ => split (cE C) (predictor C (written (line s)) (cursor s)) end.
(** The commands that change the line without asking the predictor again. *)
Definition refreshing (c : cmd) : bool :=
  match c with
  | CKillLine | CKillWholeLine | CSwapChar | CPreviousHistory | CNextHistory | CInterrupt | CUser _ => false
  | _ => true
  end.
Definition refreshing_event (S : scfg) (e : event) : Prop :=
  match e with EKey k => forall c, bound S k c -> refreshing c = true | _ => True end.

(** Text that comes back unchanged from splitting and writing (see C01). *)
Definition survives (E : env) (t : str) : Prop :=
  valid_utf8 t /\ (zwj_ok E = false \/ (~ In 8204 (runes t) /\ forall rs, runes t <> rs ++ [8205])).
(** A key that inserts its own text: not bound, not ESC + one byte, and not beginning
    with a code point that attaches to the character before it. *)
Definition typable (S : scfg) (k : str) : Prop :=
  unbound S k /\ key_text k = k /\ joins (cE (base S)) (first_rune k) = false /\ survives (cE (base S)) k.

(** The keys that leave incremental search without a result: Ctrl-C, Ctrl-G, Escape. *)
Definition cancel_key (k : str) : Prop := k = [3] \/ k = [7] \/ k = [27].
(** Nothing but the screen changed. *)
Definition nothing_changed (s s' : buf) : Prop :=
  same_content s s' /\ cursor s' = cursor s /\ view s' = view s /\ suffix s' = suffix s.

(** What incremental search shows after its text became [t]: the newest entry that
    contains it, or nothing. *)
Definition search_shows (C : cfg) (t : str) (ss : search) : Prop :=
  ss_str ss = t /\
  ((newest (occurs_in C t) (hist C) (ss_found ss) /\ index (hist C) (ss_pos ss) = Some (ss_found ss)) \/
   (Forall (fun h => ~ occurs_in C t h) (hist C) /\ ss_found ss = [])).
(** An entry that contains the search text and differs from the one shown. *)
Definition another (C : cfg) (ss : search) (h : str) : Prop := occurs_in C (ss_str ss) h /\ h <> ss_found ss.
(** The entries passed on the way from position [p] down to [i], going on from the newest
    one after the oldest. *)
Definition passed (n p i j : Z) : Prop := if i <? p then i < j < p else 0 <= j < p \/ i < j < n.

(** A character joined from several code points: a base and then either a variation
    selector or modifier, or a joiner with the code point it joins. *)
Inductive piece := Attach (r : rune) | Join (z n : rune).
Definition piece_runes (x : piece) : list rune := match x with Attach r => [r] | Join z n => [z; n] end.
Definition joined_runes (base : rune) (l : list piece) : list rune := base :: flat_map piece_runes l.
Definition piece_ok (E : env) (x : piece) : Prop :=
  match x with
  | Attach r => valid_rune r = true /\ joins E r = true /\ r <> 8204 /\ r <> 8205
  | Join z n => (z = 8204 \/ z = 8205) /\ zwj_ok E = true /\ valid_rune n = true /\ joins E n = false
  end.

(** What can happen during an incremental search without ending it. *)
Definition search_event (e : event) : Prop :=
  match e with EKey k => k <> [13] /\ ~ cancel_key k | EResize _ => True | _ => False end.
(** The default key bindings. *)
Definition default_keys (S : scfg) : Prop := kmap S = [] /\ gmap S = GlobalKeyMap.

(** What one step of browsing the history from the present position to [j] does: the line
    becomes what position [j] shows with the cursor at its end, the other positions keep
    what they show, and the line left behind is remembered for its position. *)
Record browsed (C : cfg) (s s' : buf) (j : Z) : Prop := {
  mv_at : hptr s' = j;
  mv_line : at_split s' (split (cE C) (shown (hist C) s j)) [];
  mv_clip : clip s' = clip s;
  mv_pend : pending s' = pending s;
  mv_other : forall i, i <> hptr s -> shown (hist C) s' i = shown (hist C) s i;
  mv_saved : no_stale_edit (hist C) s -> shown (hist C) s' (hptr s) = written (line s)
}.

(** Ctrl-R in a search: nothing changes when no entry at another position qualifies;
    otherwise the search moves to the nearest qualifying entry, older ones first and then
    from the newest on. *)
Definition search_goes_older (C : cfg) (ss ss' : search) : Prop :=
  (ss' = ss /\ forall j h, index (hist C) j = Some h -> j <> ss_pos ss -> ~ another C ss h) \/
  (ss_str ss' = ss_str ss /\ ss_pos ss' <> ss_pos ss /\ index (hist C) (ss_pos ss') = Some (ss_found ss') /\
   another C ss (ss_found ss') /\
   forall j h, passed (zlen (hist C)) (ss_pos ss) (ss_pos ss') j -> index (hist C) j = Some h -> ~ another C ss h).
(** Ctrl-S: the same towards newer entries, without going round. *)
Definition search_goes_newer (C : cfg) (ss ss' : search) : Prop :=
  (ss' = ss /\ forall j h, index (hist C) j = Some h -> ss_pos ss < j -> ~ another C ss h) \/
  (ss_str ss' = ss_str ss /\ ss_pos ss < ss_pos ss' /\ index (hist C) (ss_pos ss') = Some (ss_found ss') /\
   another C ss (ss_found ss') /\
   forall j h, ss_pos ss < j < ss_pos ss' -> index (hist C) j = Some h -> ~ another C ss h).

(** The commands after which one UNDO is expected to restore the line: a key inserted
    as it is, the deletions, SWAPCHAR between two characters; and the commands that paste,
    unless the change before them removed text at this very place (then the two changes
    count as one). *)
Definition undoable (E : env) (c : cmd) (s : buf) : Prop :=
  match c with
  | CSelfInsert k => joins E (first_rune (key_text k)) = false
  | CBackwardDeleteChar | CDeleteChar | CDeleteOrAbort | CKillLine | CKillWholeLine
  | CUnixWordRubout | CUnixLineDiscard => True
  | CSwapChar => cursor s < zlen (line s)
  | CYank | CYankWithQuote | CForwardChar =>
    forall u rest, undoes s = u :: rest -> ~ (u_pos u = cursor s /\ u_del u = 0)
  | _ => False
  end.

(** The first list can be got from the second by leaving elements out. *)
Inductive subseq {A} : list A -> list A -> Prop :=
| sub_nil l : subseq [] l
| sub_keep x l l' : subseq l l' -> subseq (x :: l) (x :: l')
| sub_skip x l l' : subseq l l' -> subseq l (x :: l').

(** The lines a ReadLine goes through, in the order of time: the empty line, the line with
    the default text, and the line after each event. *)
Fixpoint lines_from (S : scfg) (x : sess) (es : list event) : list (list moji) :=
  match es with
  | [] => []
  | e :: es' => match step S e x with
                | Some x' => line (buf_of x') :: lines_from S x' es'
                | None => []
                end
  end.
Definition session_lines (S : scfg) (default : str) (cur w : Z) (cl : option str) (es : list event) : list (list moji) :=
  [] :: match start S default cur w cl with
        | Some x => line (buf_of x) :: lines_from S x es
        | None => []
        end.

(** UNDO used [k] times. *)
Fixpoint undo_times (C : cfg) (k : nat) (s : buf) : option buf :=
  match k with
  | O => Some s
  | Datatypes.S k' => match exec C CUndo s with Some (s', _) => undo_times C k' s' | None => None end
  end.

