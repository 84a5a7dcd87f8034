(** Model of gommand.go and history.go: the built-in commands. *)
From Verif Require Import Base Utf8 Moji Color Prompt Buffer.

(** main.go:19-30 *)
Inductive result := CONTINUE | ENTER | ABORT | INTR.

(** strings.TrimRight(text, "\r\n\000") (gommand.go:333) *)
Definition is_trim (b : Z) : bool := (b =? 13) || (b =? 10) || (b =? 0).
Fixpoint drop_while (p : Z -> bool) (l : str) : str :=
  match l with
  | [] => []
  | b :: l' => if p b then drop_while p l' else l
  end.
Definition trim_right (t : str) : str := rev (drop_while is_trim (rev t)).

(** gommand.go:349, strings.Replace: every double quote is doubled. *)
Definition double_quotes (t : str) : str := flat_map (fun b => if b =? 34 then [34; 34] else [b]) t.
(** gommand.go:350, strings.Replace: every CR LF is put between double quotes. *)
Fixpoint quote_lines (t : str) : str :=
  match t with
  | [] => []
  | b :: t' =>
    match t' with
    | c :: t'' => if (b =? 13) && (c =? 10) then [34; 13; 10; 34] ++ quote_lines t''
                  else b :: quote_lines t'
    | [] => [b]
    end
  end.
(** gommand.go:346-351 *)
Definition yank_quote (t : str) : str :=
  if existsb (Z.eqb 32) t && negb (has_prefix t [34])
  then quote_lines ([34] ++ double_quotes t ++ [34])
  else t.

(** How many leading elements satisfy [p]. *)
Fixpoint count_while {A} (p : A -> bool) (l : list A) : nat :=
  match l with
  | [] => 0%nat
  | x :: l' => if p x then S (count_while p l') else 0%nat
  end.

Definition space_cell (c : cell) : bool := IsSpaceMoji (c_moji c).

(** clipboard.WriteAll; its error is ignored by every caller. *)
Definition clip_write (s : buf) (t : str) : buf :=
  match clip s with
  | None => s
  | Some _ => set_clip s (Some t)
  end.

Section WithCfg.
Variable C : cfg.
Notation E := (cE C).

(** gommand.go:56-62 *)
Definition cmdInterrupt (s : buf) : option (buf * result) :=
  Some (set_undoes (set_view (set_cursor (set_cells s []) 0) 0) [], INTR).

(** gommand.go:67-72 *)
Definition cmdBeginningOfLine (s : buf) : option buf :=
  repaint C (set_view (set_cursor s 0) 0).

(** gommand.go:77-87 *)
Definition cmdBackwardChar (s : buf) : option buf :=
  if cursor s <=? 0 then Some s
  else
    let s1 := set_cursor s (cursor s - 1) in
    let s2 := if cursor s1 <? view s1 then set_view s1 (view s1 - 1) else s1 in
    repaint C s2.

(** gommand.go:101-111: how many further cells to the left of the last one fit; [l] is
    the line before the last cell, reversed. *)
Fixpoint eol_loop (vw w : Z) (l : list cell) : nat :=
  match l with
  | [] => 0%nat
  | c :: l' =>
    let w' := w + width E (c_moji c) in
    if vw <=? w' then 0%nat else S (eol_loop vw w' l')
  end.
(** gommand.go:92-117 *)
Definition cmdEndOfLine (s : buf) : option buf :=
  let n := zlen (cells s) in
  let* allength := GetWidthBetween C s (view s) n in
  let* s2 :=
    if allength <? ViewWidth s then
      let* s1 := puts C s (cursor s) n in
      Some (set_cursor s1 n)
    else
      let s1 := GotoHead s in
      let* c := index (cells s1) (n - 1) in
      let k := eol_loop (ViewWidth s1) (width E (c_moji c))
                        (rev (firstn (Z.to_nat (n - 1)) (cells s1))) in
      let s2 := set_view s1 (n - 1 - Z.of_nat k) in
      let* s3 := puts C s2 (view s2) n in
      Some (set_cursor s3 n) in
  Some (eraseline s2).

(** gommand.go:122-149 *)
Definition cmdForwardChar (s : buf) : option buf :=
  if zlen (cells s) <=? cursor s then
    match suffix s with
    | Some ((_ :: _) as l) => InsertAndRepaint C s (flat_map write l)
    | _ => Some s
    end
  else
    let* w := GetWidthBetween C s (view s) (cursor s + 1) in
    let* s1 :=
      if w <? ViewWidth s then puts C s (cursor s) (cursor s + 1)
      else
        let s1 := GotoHead s in
        let* cc := index (cells s1) (cursor s1) in
        let* cv := index (cells s1) (view s1) in
        let s2 := if width E (c_moji cv) <? width E (c_moji cc)
                  then set_view s1 (view s1 + 1) else s1 in
        let s3 := set_view s2 (view s2 + 1) in
        let* s4 := puts C s3 (view s3) (cursor s3 + 1) in
        Some (eraseline s4) in
    Some (set_cursor s1 (cursor s1 + 1)).

(** gommand.go:154-164 *)
Definition cmdBackwardDeleteChar (s : buf) : option buf :=
  if 0 <? cursor s then
    let s1 := set_cursor s (cursor s - 1) in
    let* (s2, _) := Delete C s1 (cursor s1) 1 in
    let s3 := if cursor s2 <? view s2 then set_view s2 (cursor s2) else s2 in
    repaint C s3
  else Some s.

(** gommand.go:169-173 *)
Definition cmdDeleteChar (s : buf) : option buf :=
  let* (s1, _) := Delete C s (cursor s) 1 in
  repaint C s1.

(** gommand.go:178-183 *)
Definition cmdDeleteOrAbort (s : buf) : option (buf * result) :=
  if 0 <? zlen (cells s) then let* s1 := cmdDeleteChar s in Some (s1, CONTINUE)
  else Some (s, ABORT).

(** gommand.go:217-228: the common tail of SelfInserter.Call. *)
Definition self_insert_tail (s : buf) (keys : str) : option buf :=
  let* (s1, mojis) := insertString C s (cursor s) keys in
  let* w := GetWidthBetween C s1 (view s1) (cursor s1) in
  let w1 := range_width C mojis in
  let s2 := set_cursor s1 (cursor s1 + zlen mojis) in
  let s3 := if ViewWidth s2 <=? w + w1 then ResetViewStart C s2 else s2 in
  repaint C s3.

(** gommand.go:200-202 *)
Definition altgr (keys : str) : str :=
  match keys with
  | [a; x] => if a =? 27 then [x] else keys
  | _ => keys
  end.

(** gommand.go:198-229 (and mojiAndStringToString, 185-190) *)
Definition selfInsert (k : str) (s : buf) : option buf :=
  let keys := altgr k in
  if AreZeroWidthJoin E keys && (0 <? cursor s) then
    let* c := index (cells s) (cursor s - 1) in
    cmdBackwardDeleteChar (set_pending s (write (c_moji c) ++ keys))
  else if (AreVariationSelectorLike E keys || AreEmojiModifier E keys) && (0 <? cursor s) then
    let* c := index (cells s) (cursor s - 1) in
    let* s1 := cmdBackwardDeleteChar s in
    self_insert_tail s1 (write (c_moji c) ++ keys)
  else
    match pending s with
    | [] => self_insert_tail s keys
    | p => self_insert_tail (set_pending s []) (p ++ keys)
    end.

(** gommand.go:234-245 *)
Definition cmdKillLine (s : buf) : option buf :=
  let* t := SubString s (cursor s) (zlen (cells s)) in
  let s1 := eraseline (clip_write s t) in
  let s2 := push_undo s1 (mkUndo (cursor s1) 0 t) in
  let* l := slice (cells s2) 0 (cursor s2) in
  Some (set_cells s2 l).

(** gommand.go:250-262 *)
Definition cmdKillWholeLine (s : buf) : option buf :=
  let s1 := push_undo s (mkUndo 0 0 (cell2string (cells s))) in
  let s2 := eraseline (GotoHead s1) in
  Some (set_view (set_cursor (set_cells s2 []) 0) 0).

(** gommand.go:267-281 *)
Definition cmdUnixWordRubout (s : buf) : option buf :=
  let org := cursor s in
  let* pre := slice (cells s) 0 org in
  let s1 := set_cursor s (org - Z.of_nat (count_while space_cell (rev pre))) in
  let* new := CurrentWordTop s1 in
  let* t := SubString s1 new org in
  let s2 := clip_write s1 t in
  let* (s3, _) := Delete C s2 new (org - new) in
  let s4 := set_cursor s3 new in
  let s5 := if new - view s4 <? 2 then ResetViewStart C s4 else s4 in
  repaint C s5.

(** gommand.go:286-293 *)
Definition cmdUnixLineDiscard (s : buf) : option buf :=
  let* t := SubString s 0 (cursor s) in
  let s1 := clip_write s t in
  let* (s2, _) := Delete C s1 0 (cursor s1) in
  repaint C (set_view (set_cursor s2 0) 0).

(** gommand.go:298-302 *)
Definition cmdClearScreen (s : buf) : option buf := RepaintAll C (emit s [TClear]).

(** gommand.go:306-310 *)
Definition cmdRepaintOnNewline (s : buf) : option buf := RepaintAll C (emit s [TNewline]).

(** gommand.go:328-336; clipboard.ReadAll fails if the clipboard is not available. *)
Definition cmdYank (s : buf) : option buf :=
  match clip s with
  | None => Some s
  | Some t => InsertAndRepaint C s (trim_right t)
  end.

(** gommand.go:341-354 *)
Definition cmdYankWithQuote (s : buf) : option buf :=
  match clip s with
  | None => Some s
  | Some t => InsertAndRepaint C s (yank_quote t)
  end.

(** Go's parallel assignment l[i], l[j] = l[j], l[i]. *)
Definition swap_cells (l : list cell) (i j : Z) : option (list cell) :=
  let* a := index l i in
  let* b := index l j in
  let* l1 := set_index l i b in
  set_index l1 j a.

(** gommand.go:359-395 *)
Definition cmdSwapChar (s : buf) : option buf :=
  let c := cursor s in
  if zlen (cells s) =? c then
    if c <? 2 then Some s
    else
      let* t := SubString s (c - 2) c in
      let s1 := push_undo s (mkUndo c 2 t) in
      let* l := swap_cells (cells s1) (c - 2) (c - 1) in
      let s2 := GotoHead (set_cells s1 l) in
      puts C s2 (view s2) (cursor s2)
  else
    if c <? 1 then Some s
    else
      let* t := SubString s (c - 1) (c + 1) in
      let s1 := push_undo s (mkUndo (c - 1) 2 t) in
      let* w := GetWidthBetween C s1 (view s1) (c + 1) in
      let* l := swap_cells (cells s1) (c - 1) c in
      let s2 := GotoHead (set_cells s1 l) in
      let s3 := if ViewWidth s2 <=? w then set_view s2 (view s2 + 1) else s2 in
      let s4 := set_cursor s3 (c + 1) in
      puts C s4 (view s4) (cursor s4).

(** gommand.go:400-414.  The prefix is sliced first: with a cursor outside the line the
    code panics too, in the loop or in repaint. *)
Definition cmdBackwardWord (s : buf) : option buf :=
  let* pre := slice (cells s) 0 (cursor s) in
  let n1 := count_while space_cell (rev pre) in
  let n2 := count_while (fun c => negb (space_cell c)) (skipn n1 (rev pre)) in
  let newPos := cursor s - Z.of_nat n1 - Z.of_nat n2 in
  let s1 := if newPos <? view s then set_view s newPos else s in
  repaint C (set_cursor s1 newPos).

(** gommand.go:419-437.  As above, the panic of a cursor outside the line comes first. *)
Definition cmdForwardWord (s : buf) : option buf :=
  let* post := slice (cells s) (cursor s) (zlen (cells s)) in
  let n1 := count_while (fun c => negb (space_cell c)) post in
  let n2 := count_while space_cell (skipn n1 post) in
  let newPos := cursor s + Z.of_nat n1 + Z.of_nat n2 in
  let* w := GetWidthBetween C s (view s) newPos in
  if w <? ViewWidth s then
    let* s1 := puts C s (cursor s) newPos in
    Some (set_cursor s1 newPos)
  else repaint C (ResetViewStart C (set_cursor s newPos)).

(** gommand.go:442-464 *)
Definition cmdUndo (s : buf) : option buf :=
  match undoes s with
  | [] => Some (emit s [TBell])
  | u :: rest =>
    let s1 := GotoHead (set_undoes s rest) in
    let* l1 := if 0 <? u_del u then sliceDelete (cells s1) (u_pos u) (u_del u)
               else Some (cells s1) in
    let s2 := set_cells s1 l1 in
    let* s3 :=
      match u_text u with
      | [] => Some (set_cursor s2 (u_pos u))
      | t =>
        let new := mojis2cells (StringToMoji E t) in
        let* l2 := sliceInsert (cells s2) (u_pos u) new in
        Some (set_cursor (set_cells s2 l2) (u_pos u + zlen new))
      end in
    repaint C (ResetViewStart C s3)
  end.

(** history.go:25-34; History.At outside 0..Len()-1 is a panic. *)
Definition saveModifiedHistory (s : buf) : option buf :=
  let t := buf_string s in
  let save := set_modh s (aset Z.eqb (modh s) (hptr s) t) in
  if hptr s <? zlen (hist C) then
    let* h := index (hist C) (hptr s) in
    if str_eqb h t then Some s else Some save
  else Some save.

(** history.go:36-45 *)
Definition getHistory (s : buf) : option str :=
  match aget Z.eqb (modh s) (hptr s) with
  | Some t => Some t
  | None =>
    if (hptr s <? 0) || (zlen (hist C) <=? hptr s) then Some []
    else index (hist C) (hptr s)
  end.

(** history.go:59-65 and 81-87: show the entry at the (new) history pointer. *)
Definition show_history (s : buf) : option buf :=
  let* s1 := cmdKillWholeLine s in
  let* t := getHistory s1 in
  match t with
  | [] => Some s1
  | _ =>
    let* (s2, _) := InsertString C s1 0 t in
    cmdEndOfLine (set_cursor (set_view s2 0) 0)
  end.

(** history.go:47-67 *)
Definition cmdPreviousHistory (s : buf) : option buf :=
  if zlen (hist C) <=? 0 then Some s
  else
    let go (s0 : buf) :=
      let* s1 := saveModifiedHistory s0 in
      show_history (set_hptr s1 (hptr s1 - 1)) in
    if hptr s <=? 0 then
      if negb (cycling C) then Some s
      else go (set_hptr s (zlen (hist C) + 1))
    else go s.

(** history.go:72-89 *)
Definition cmdNextHistory (s : buf) : option buf :=
  if zlen (hist C) <=? 0 then Some s
  else if zlen (hist C) <? hptr s + 1 then Some s
  else
    let* s1 := saveModifiedHistory s in
    show_history (set_hptr s1 (hptr s1 + 1)).

End WithCfg.

(** The commands a key can be bound to.  [CUser] is any other Command: a function on the
    buffer (completion commands, user functions). *)
Inductive cmd :=
| CAcceptLine | CInterrupt | CBeginningOfLine | CBackwardChar | CEndOfLine | CForwardChar
| CBackwardDeleteChar | CDeleteChar | CDeleteOrAbort | CKillLine | CKillWholeLine
| CUnixWordRubout | CUnixLineDiscard | CClearScreen | CRepaintOnNewline | CQuotedInsert
| CYank | CYankWithQuote | CSwapChar | CBackwardWord | CForwardWord | CUndo
| CPreviousHistory | CNextHistory | CISearchBackward
| CSelfInsert (key : str)
| CUser (f : buf -> option (buf * result)).

Definition continue_ (o : option buf) : option (buf * result) :=
  let* s := o in Some (s, CONTINUE).

(** Command.Call for the commands that read no further key. CQuotedInsert and
    CISearchBackward are modes of the session (Session.v) and do nothing here. *)
Definition exec (C : cfg) (c : cmd) (s : buf) : option (buf * result) :=
  match c with
  | CAcceptLine => Some (s, ENTER)                         (* gommand.go:48-50 *)
  | CInterrupt => cmdInterrupt s
  | CBeginningOfLine => continue_ (cmdBeginningOfLine C s)
  | CBackwardChar => continue_ (cmdBackwardChar C s)
  | CEndOfLine => continue_ (cmdEndOfLine C s)
  | CForwardChar => continue_ (cmdForwardChar C s)
  | CBackwardDeleteChar => continue_ (cmdBackwardDeleteChar C s)
  | CDeleteChar => continue_ (cmdDeleteChar C s)
  | CDeleteOrAbort => cmdDeleteOrAbort C s
  | CKillLine => continue_ (cmdKillLine s)
  | CKillWholeLine => continue_ (cmdKillWholeLine s)
  | CUnixWordRubout => continue_ (cmdUnixWordRubout C s)
  | CUnixLineDiscard => continue_ (cmdUnixLineDiscard C s)
  | CClearScreen => continue_ (cmdClearScreen C s)
  | CRepaintOnNewline => continue_ (cmdRepaintOnNewline C s)
  | CQuotedInsert => Some (s, CONTINUE)
  | CYank => continue_ (cmdYank C s)
  | CYankWithQuote => continue_ (cmdYankWithQuote C s)
  | CSwapChar => continue_ (cmdSwapChar C s)
  | CBackwardWord => continue_ (cmdBackwardWord C s)
  | CForwardWord => continue_ (cmdForwardWord C s)
  | CUndo => continue_ (cmdUndo C s)
  | CPreviousHistory => continue_ (cmdPreviousHistory C s)
  | CNextHistory => continue_ (cmdNextHistory C s)
  | CISearchBackward => Some (s, CONTINUE)
  | CSelfInsert k => continue_ (selfInsert C k s)
  | CUser f => f s
  end.
