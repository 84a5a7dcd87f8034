(** Model of internal/moji: the units of editing ("moji"), their widths, how they are
    written to a string (WriteTo) and painted on the terminal (PrintTo), and the
    splitting of strings into units. *)
From Verif Require Import Base Utf8.

(** The environment of the package: the switches of termcheck.go:18-33 and the external
    tables.  [rw] is the effective width of a rune, i.e. the answer of [getWidth]
    (width.go:23-30; the cache itself is modelled in WidthCache.v); [zw] is the
    replaceable function [GetZWJSWidth] (moji.go:20-22); [vsme r] is
    [unicode.Is(Variation_Selector,r) || unicode.Is(Me,r)], whose table depends on the
    Unicode version of the Go release, so nothing is assumed about it. *)
Record env := mkEnv {
  zwj_ok : bool;      (* ZeroWidthJoinSequenceOk *)
  vs_ok : bool;       (* VariationSequenceOk *)
  mod_ok : bool;      (* ModifierSequenceOk *)
  sur_ok : bool;      (* SurrogatePairOk *)
  amb_wide : bool;    (* AmbiguousIsWide *)
  rw : rune -> Z;
  zw : Z -> Z -> Z;
  vsme : rune -> bool
}.

(** codepoint.go: the implementations of Moji.  [MTab] is the only mutable one (its
    position is set by refreshColor); every Tab object belongs to one unit of one line,
    so the position is kept as part of the value. *)
Inductive moji :=
| MTab (pos : Z)        (* codepoint.go:10-12, pos is an int16 *)
| MRaw (r : rune)       (* codepoint.go:32 *)
| MEsc (r : rune)       (* codepoint.go:54 *)
| MReg (r : rune)       (* codepoint.go:68 *)
| MCtrl (r : rune)      (* codepoint.go:83 *)
| MFlag (r : rune)      (* codepoint.go:102 *)
| MZwj (a b : moji)     (* moji.go:24 *)
| MMod (a b : moji)     (* moji.go:60 *)
| MVar (a b : moji).    (* moji.go:94 *)

(** moji.go:138 *)
Definition zeroWidthJoinRune : rune := 8205.

(** unicode.Is(unicode.Join_Control, r): U+200C and U+200D. *)
Definition is_join_control (r : rune) : bool := (r =? 8204) || (r =? 8205).

(** unicode.IsSpace *)
Definition is_space (r : rune) : bool :=
  in_range r 9 13 || (r =? 32) || (r =? 133) || (r =? 160) || (r =? 5760)
  || in_range r 8192 8202 || (r =? 8232) || (r =? 8233) || (r =? 8239)
  || (r =? 8287) || (r =? 12288).

(** unicode.IsControl *)
Definition is_control (r : rune) : bool := in_range r 0 31 || in_range r 127 159.

(** width.go:32-39; the shift by 4 is a division by 16.  The fuel 8 covers every
    int32. *)
Fixpoint lenEscaped_loop (fuel : nat) (c w : Z) : Z :=
  match fuel with
  | O => w
  | S f => if 15 <? c then lenEscaped_loop f (c / 16) (w + 1) else w
  end.
Definition lenEscaped (c : rune) : Z := lenEscaped_loop 8 c 3.

(** fmt's %X for a non-negative number: upper-case hexadecimal digits. *)
Definition hex_digit (d : Z) : Z := if d <? 10 then 48 + d else 55 + d.
Fixpoint hex_loop (fuel : nat) (c : Z) : str :=
  match fuel with
  | O => []
  | S f => (if 15 <? c then hex_loop f (c / 16) else []) ++ [hex_digit (c mod 16)]
  end.
Definition hexX (c : Z) : str := hex_loop 8 c.

Section WithEnv.
Variable E : env.

(** moji.go:140-142 *)
Definition isZeroWidthJoin (r : rune) : bool := zwj_ok E && is_join_control r.
(** width.go:41-47 *)
Definition isVariationSelectorLike (r : rune) : bool := vs_ok E && vsme E r.
(** moji.go:62-67 *)
Definition isEmojiModifier (r : rune) : bool := mod_ok E && in_range r 127995 127999.
(** width.go:57-61 *)
Definition isToBeEscaped (r : rune) : bool :=
  isVariationSelectorLike r || ((65536 <=? r) && negb (sur_ok E)) || (rw E r =? 0).

(** The Width methods: codepoint.go:14-16,34-36,56-58,70-72,85-87,104-106 and
    moji.go:26-30,77-79,96-103.  Go's % truncates, hence [Z.rem]. *)
Fixpoint width (m : moji) : Z :=
  match m with
  | MTab pos => 4 - Z.rem pos 4
  | MRaw r => rw E r
  | MEsc r => lenEscaped r
  | MReg _ => 2
  | MCtrl _ => 2
  | MFlag _ => 2
  | MZwj a b => zw E (width a) (width b)
  | MMod a b => width a + width b
  | MVar a b => match a with MFlag _ => 2 | _ => width a + 1 end
  end.

(** The WriteTo methods, as the bytes written: codepoint.go:22-25,45-47,64-66,78-80,
    93-95,114-116 and moji.go:32-43,81-88,105-112. *)
Fixpoint write (m : moji) : str :=
  match m with
  | MTab _ => [9]
  | MRaw r | MEsc r | MReg r | MCtrl r | MFlag r => encode_rune r
  | MZwj a b => write a ++ encode_rune zeroWidthJoinRune ++ write b
  | MMod a b => write a ++ write b
  | MVar a b => write a ++ write b
  end.

(** moji.go:114-122 *)
Definition saveCursorAfterN (n : Z) : str :=
  repeat 32 (Z.to_nat n) ++ [27; 55] ++ repeat 8 (Z.to_nat n).
(** moji.go:124-126 *)
Definition restoreCursor : str := [27; 56].

(** The PrintTo methods, as the bytes painted; [None] is the panic of slicing the four
    spaces of a Tab at a negative index.  codepoint.go:18-20,49-51,60-62,74-76,89-91,
    108-112 and moji.go:45-58,90-92,128-136. *)
Fixpoint print (m : moji) : option str :=
  match m with
  | MTab pos => slice [32; 32; 32; 32] (Z.rem pos 4) 4
  | MRaw r => Some (encode_rune r)
  | MEsc r => Some ([60] ++ hexX r ++ [62])
  | MReg r => Some (encode_rune r)
  | MCtrl r => Some [94; (65 + (r - 1)) mod 256]
  | MFlag r => Some (saveCursorAfterN 2 ++ encode_rune r ++ restoreCursor)
  | MZwj a b =>
    match a with
    | MFlag _ => Some (saveCursorAfterN (width m) ++ write a
                       ++ encode_rune zeroWidthJoinRune ++ write b ++ restoreCursor)
    | _ => let* pa := print a in
           let* pb := print b in
           Some (pa ++ encode_rune zeroWidthJoinRune ++ pb)
    end
  | MMod a b => Some (write a ++ write b)
  | MVar a b => Some (saveCursorAfterN (width m) ++ write a ++ write b ++ restoreCursor)
  end.

(** codepoint.go:128-146 *)
Definition rune2moji (ch : rune) (pos : Z) : moji :=
  if ch =? 9 then MTab (wrap16 pos)
  else if ch <? 32 then MCtrl ch
  else if in_range ch 9472 9599 && amb_wide E then MFlag ch
  else if isToBeEscaped ch then MEsc ch
  else if in_range ch 127462 127487 then MReg ch
  else if in_range ch 119808 120831 then MFlag ch
  else if ch =? 127987 then MFlag ch
  else MRaw ch.

(** moji.go:152-185, on the decoded runes of the string.  [last] is the unit most
    recently appended (still open to joiners), so it is emitted when the next unit
    starts; [DecodeRuneInString("")] after a trailing joiner yields RuneError. *)
Fixpoint s2m (last : option moji) (pos : Z) (rs : list rune) : list moji :=
  match rs with
  | [] => match last with None => [] | Some m => [m] end
  | r :: rs' =>
    let fresh := fun (_ : unit) =>
      let m' := rune2moji r pos in
      match last with None => [] | Some m => [m] end
      ++ s2m (Some m') (pos + width m') rs' in
    match last with
    | None => fresh tt
    | Some m =>
      if isZeroWidthJoin r then
        match rs' with
        | [] => [MZwj m (MRaw RuneError)]
        | n :: rs'' => s2m (Some (MZwj m (MRaw n))) pos rs''
        end
      else if isVariationSelectorLike r then s2m (Some (MVar m (MRaw r))) pos rs'
      else if isEmojiModifier r then s2m (Some (MMod m (MRaw r))) pos rs'
      else fresh tt
    end
  end.
Definition StringToMoji (s : str) : list moji := s2m None 0 (runes s).

(** moji.go:187-226, on the decoded runes; returns (width, count). *)
Fixpoint mwc (last : option moji) (lastWidth wid cnt : Z) (rs : list rune) : Z * Z :=
  match rs with
  | [] => (wid, cnt)
  | r :: rs' =>
    let fresh := fun (_ : unit) =>
      let m' := rune2moji r wid in
      mwc (Some m') (width m') (wid + width m') (cnt + 1) rs' in
    let join := fun m' rest =>
      mwc (Some m') (width m') (wid - lastWidth + width m') cnt rest in
    match last with
    | None => fresh tt
    | Some m =>
      if isZeroWidthJoin r then
        match rs' with
        | [] => let m' := MZwj m (MRaw RuneError) in (wid - lastWidth + width m', cnt)
        | n :: rs'' => join (MZwj m (MRaw n)) rs''
        end
      else if isVariationSelectorLike r then join (MVar m (MRaw r)) rs'
      else if isEmojiModifier r then join (MMod m (MRaw r)) rs'
      else fresh tt
    end
  end.
Definition MojiWidthAndCountInString (s : str) : Z * Z := mwc None 0 0 0 (runes s).

(** moji.go:144-150, width.go:49-55, moji.go:69-75 *)
Definition AreZeroWidthJoin (s : str) : bool := zwj_ok E && isZeroWidthJoin (fst (decode_rune s)).
Definition AreVariationSelectorLike (s : str) : bool :=
  vs_ok E && isVariationSelectorLike (fst (decode_rune s)).
Definition AreEmojiModifier (s : str) : bool := mod_ok E && isEmojiModifier (fst (decode_rune s)).

End WithEnv.

(** codepoint.go:148-163 *)
Definition MojiToRune (m : moji) : option rune :=
  match m with
  | MRaw r | MCtrl r | MEsc r | MReg r | MFlag r => Some r
  | _ => None
  end.

(** codepoint.go:165-170 *)
Definition IsSpaceMoji (m : moji) : bool :=
  match MojiToRune m with Some r => is_space r | None => false end.
