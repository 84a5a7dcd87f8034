(** The line editor without any display: no view, no widths, no colours, no output, no
    tab positions.  Every command of the model refines its counterpart here (AbsRef.v),
    whatever the terminal, the colouring and the rune widths are.  This file is an
    intermediate step of the proofs; no property is stated in terms of it. *)
From Verif Require Import Base Utf8 Moji Color Prompt Buffer Commands KeyMap Session MojiFacts.

Record astate := mkA {
  aline : list moji;
  acur : Z;
  aundo : list undo;
  apend : str;
  ahptr : Z;
  amodh : list (Z * str);
  aclip : option str;
  asuf : list moji
}.

Definition aset_line (a : astate) x := mkA x (acur a) (aundo a) (apend a) (ahptr a) (amodh a) (aclip a) (asuf a).
Definition aset_cur (a : astate) x := mkA (aline a) x (aundo a) (apend a) (ahptr a) (amodh a) (aclip a) (asuf a).
Definition aset_undo (a : astate) x := mkA (aline a) (acur a) x (apend a) (ahptr a) (amodh a) (aclip a) (asuf a).
Definition aset_pend (a : astate) x := mkA (aline a) (acur a) (aundo a) x (ahptr a) (amodh a) (aclip a) (asuf a).
Definition aset_hptr (a : astate) x := mkA (aline a) (acur a) (aundo a) (apend a) x (amodh a) (aclip a) (asuf a).
Definition aset_modh (a : astate) x := mkA (aline a) (acur a) (aundo a) (apend a) (ahptr a) x (aclip a) (asuf a).
Definition aset_clip (a : astate) x := mkA (aline a) (acur a) (aundo a) (apend a) (ahptr a) (amodh a) x (asuf a).
Definition aset_suf (a : astate) x := mkA (aline a) (acur a) (aundo a) (apend a) (ahptr a) (amodh a) (aclip a) x.

Definition apush (a : astate) (u : undo) : astate := aset_undo a (u :: aundo a).
Definition atext (a : astate) : str := text (aline a).
Definition aclip_write (a : astate) (t : str) : astate :=
  match aclip a with None => a | Some _ => aset_clip a (Some t) end.

Definition emoji (c : cell) : moji := erase (c_moji c).
Definition emojis (l : list cell) : list moji := map emoji l.
Definition suflist (o : option (list moji)) : list moji := match o with None => [] | Some l => l end.

(** What the display-free editor keeps of a buffer. *)
Definition abs (s : buf) : astate :=
  mkA (emojis (cells s)) (cursor s) (undoes s) (pending s) (hptr s) (modh s) (clip s)
      (map erase (suflist (suffix s))).

Section WithCfg.
Variable C : cfg.
Notation E := (cE C).

Definition aupdate (a : astate) : astate :=
  match pcolor0 C with
  | [] => a
  | _ => match aline a with
         | [] => aset_suf a []
         | _ => aset_suf a (units E (predictor C (atext a) (acur a)))
         end
  end.

Definition ains (a : astate) (pos : Z) (l : list moji) : option astate :=
  let* l' := sliceInsert (aline a) pos l in
  Some (apush (aset_line a l') (mkUndo pos (zlen l) [])).

Definition adelete (a : astate) (pos n : Z) : option astate :=
  if (n <=? 0) || (zlen (aline a) <? pos + n) then Some a
  else
    let* d := slice (aline a) pos (pos + n) in
    let* l := sliceDelete (aline a) pos n in
    Some (aset_line (apush a (mkUndo pos 0 (text d))) l).

Definition ajoin (a : astate) : astate :=
  match aundo a with
  | u2 :: u1 :: rest =>
    match join2 u1 u2 with
    | Some u => aset_undo a (u :: rest)
    | None => a
    end
  | _ => a
  end.

Definition areplace (a : astate) (pos : Z) (t : str) : option astate :=
  let* a1 := adelete a pos (acur a - pos) in
  let* a2 := ains a1 pos (units E t) in
  Some (aupdate (ajoin (aset_cur a2 (pos + zlen (units E t))))).

Definition aBackwardChar (a : astate) : astate :=
  if acur a <=? 0 then a else aupdate (aset_cur a (acur a - 1)).

Definition aForwardChar (a : astate) : option astate :=
  if zlen (aline a) <=? acur a then
    match asuf a with
    | [] => Some a
    | l => areplace a (acur a) (text l)
    end
  else Some (aset_cur a (acur a + 1)).

Definition aBackwardDelete (a : astate) : option astate :=
  if 0 <? acur a then
    let* a1 := adelete (aset_cur a (acur a - 1)) (acur a - 1) 1 in
    Some (aupdate a1)
  else Some a.

Definition aDelete (a : astate) : option astate :=
  let* a1 := adelete a (acur a) 1 in Some (aupdate a1).

Definition aself_tail (a : astate) (keys : str) : option astate :=
  let* a1 := ains a (acur a) (units E keys) in
  Some (aupdate (aset_cur a1 (acur a1 + zlen (units E keys)))).

Definition aselfInsert (k : str) (a : astate) : option astate :=
  let keys := altgr k in
  if AreZeroWidthJoin E keys && (0 <? acur a) then
    let* m := index (aline a) (acur a - 1) in
    aBackwardDelete (aset_pend a (write m ++ keys))
  else if (AreVariationSelectorLike E keys || AreEmojiModifier E keys) && (0 <? acur a) then
    let* m := index (aline a) (acur a - 1) in
    let* a1 := aBackwardDelete a in
    aself_tail a1 (write m ++ keys)
  else
    match apend a with
    | [] => aself_tail a keys
    | p => aself_tail (aset_pend a []) (p ++ keys)
    end.

Definition aKillLine (a : astate) : option astate :=
  let* d := slice (aline a) (acur a) (zlen (aline a)) in
  let a1 := apush (aclip_write a (text d)) (mkUndo (acur a) 0 (text d)) in
  let* l := slice (aline a) 0 (acur a) in
  Some (aset_line a1 l).

Definition aKillWhole (a : astate) : astate :=
  aset_cur (aset_line (apush a (mkUndo 0 0 (atext a))) []) 0.

Definition aWordTop (a : astate) : option Z :=
  let* l := slice (aline a) 0 (acur a) in
  let top := word_loop 0 0 (-1) l in
  Some (if top <? 0 then acur a else top).

Definition aWordRubout (a : astate) : option astate :=
  let org := acur a in
  let* pre := slice (aline a) 0 org in
  let a1 := aset_cur a (org - Z.of_nat (count_while IsSpaceMoji (rev pre))) in
  let* new := aWordTop a1 in
  let* d := slice (aline a1) new org in
  let* a2 := adelete (aclip_write a1 (text d)) new (org - new) in
  Some (aupdate (aset_cur a2 new)).

Definition aLineDiscard (a : astate) : option astate :=
  let* d := slice (aline a) 0 (acur a) in
  let* a1 := adelete (aclip_write a (text d)) 0 (acur a) in
  Some (aupdate (aset_cur a1 0)).

Definition aYank (f : str -> str) (a : astate) : option astate :=
  match aclip a with
  | None => Some a
  | Some t => areplace a (acur a) (f t)
  end.

Definition aswap (l : list moji) (i j : Z) : option (list moji) :=
  let* a := index l i in
  let* b := index l j in
  let* l1 := set_index l i b in
  set_index l1 j a.

Definition aSwapChar (a : astate) : option astate :=
  let c := acur a in
  if zlen (aline a) =? c then
    if c <? 2 then Some a
    else
      let* d := slice (aline a) (c - 2) c in
      let* l := aswap (aline a) (c - 2) (c - 1) in
      Some (aset_line (apush a (mkUndo c 2 (text d))) l)
  else
    if c <? 1 then Some a
    else
      let* d := slice (aline a) (c - 1) (c + 1) in
      let* l := aswap (aline a) (c - 1) c in
      Some (aset_cur (aset_line (apush a (mkUndo (c - 1) 2 (text d))) l) (c + 1)).

Definition aBackwardWord (a : astate) : option astate :=
  let* pre := slice (aline a) 0 (acur a) in
  let n1 := count_while IsSpaceMoji (rev pre) in
  let n2 := count_while (fun m => negb (IsSpaceMoji m)) (skipn n1 (rev pre)) in
  Some (aupdate (aset_cur a (acur a - Z.of_nat n1 - Z.of_nat n2))).

(** FORWARD_WORD updates the prediction only when it has to scroll; the flag says
    whether it did. *)
Definition aForwardWord (scroll : bool) (a : astate) : option astate :=
  let* post := slice (aline a) (acur a) (zlen (aline a)) in
  let n1 := count_while (fun m => negb (IsSpaceMoji m)) post in
  let n2 := count_while IsSpaceMoji (skipn n1 post) in
  let a1 := aset_cur a (acur a + Z.of_nat n1 + Z.of_nat n2) in
  Some (if scroll then aupdate a1 else a1).

Definition aUndo (a : astate) : option astate :=
  match aundo a with
  | [] => Some a
  | u :: rest =>
    let* l1 := if 0 <? u_del u then sliceDelete (aline a) (u_pos u) (u_del u)
               else Some (aline a) in
    let a1 := aset_line (aset_undo a rest) l1 in
    let* a2 :=
      match u_text u with
      | [] => Some (aset_cur a1 (u_pos u))
      | t =>
        let* l2 := sliceInsert l1 (u_pos u) (units E t) in
        Some (aset_cur (aset_line a1 l2) (u_pos u + zlen (units E t)))
      end in
    Some (aupdate a2)
  end.

Definition asave (a : astate) : option astate :=
  let t := atext a in
  let save := aset_modh a (aset Z.eqb (amodh a) (ahptr a) t) in
  if ahptr a <? zlen (hist C) then
    let* h := index (hist C) (ahptr a) in
    if str_eqb h t then Some a else Some save
  else Some save.

Definition agetHistory (a : astate) : option str :=
  match aget Z.eqb (amodh a) (ahptr a) with
  | Some t => Some t
  | None =>
    if (ahptr a <? 0) || (zlen (hist C) <=? ahptr a) then Some []
    else index (hist C) (ahptr a)
  end.

Definition ashow (a : astate) : option astate :=
  let a1 := aKillWhole a in
  let* t := agetHistory a1 in
  match t with
  | [] => Some a1
  | _ =>
    let* a2 := ains a1 0 (units E t) in
    Some (aset_cur a2 (zlen (aline a2)))
  end.

Definition aPrevious (a : astate) : option astate :=
  if zlen (hist C) <=? 0 then Some a
  else
    let go (a0 : astate) :=
      let* a1 := asave a0 in
      ashow (aset_hptr a1 (ahptr a1 - 1)) in
    if ahptr a <=? 0 then
      if negb (cycling C) then Some a
      else go (aset_hptr a (zlen (hist C) + 1))
    else go a.

Definition aNext (a : astate) : option astate :=
  if zlen (hist C) <=? 0 then Some a
  else if zlen (hist C) <? ahptr a + 1 then Some a
  else
    let* a1 := asave a in
    ashow (aset_hptr a1 (ahptr a1 + 1)).

Definition acontinue (o : option astate) : option (astate * result) :=
  let* a := o in Some (a, CONTINUE).

(** [scroll] only matters for FORWARD_WORD.  CUser is not an abstract command. *)
Definition aexec (scroll : bool) (c : cmd) (a : astate) : option (astate * result) :=
  match c with
  | CAcceptLine => Some (a, ENTER)
  | CInterrupt => Some (aset_undo (aset_cur (aset_line a []) 0) [], INTR)
  | CBeginningOfLine => Some (aupdate (aset_cur a 0), CONTINUE)
  | CBackwardChar => Some (aBackwardChar a, CONTINUE)
  | CEndOfLine => Some (aset_cur a (zlen (aline a)), CONTINUE)
  | CForwardChar => acontinue (aForwardChar a)
  | CBackwardDeleteChar => acontinue (aBackwardDelete a)
  | CDeleteChar => acontinue (aDelete a)
  | CDeleteOrAbort => if 0 <? zlen (aline a) then acontinue (aDelete a) else Some (a, ABORT)
  | CKillLine => acontinue (aKillLine a)
  | CKillWholeLine => Some (aKillWhole a, CONTINUE)
  | CUnixWordRubout => acontinue (aWordRubout a)
  | CUnixLineDiscard => acontinue (aLineDiscard a)
  | CClearScreen => Some (aupdate a, CONTINUE)
  | CRepaintOnNewline => Some (aupdate a, CONTINUE)
  | CQuotedInsert => Some (a, CONTINUE)
  | CYank => acontinue (aYank trim_right a)
  | CYankWithQuote => acontinue (aYank yank_quote a)
  | CSwapChar => acontinue (aSwapChar a)
  | CBackwardWord => acontinue (aBackwardWord a)
  | CForwardWord => acontinue (aForwardWord scroll a)
  | CUndo => acontinue (aUndo a)
  | CPreviousHistory => acontinue (aPrevious a)
  | CNextHistory => acontinue (aNext a)
  | CISearchBackward => Some (a, CONTINUE)
  | CSelfInsert k => acontinue (aselfInsert k a)
  | CUser _ => None
  end.

End WithCfg.
