(** A terminal row at the level of characters (C44): what the bytes of a unit do to the
    column of the cursor.  The row has no right edge here; C38 is about the edge. *)
From Verif Require Import Base Utf8 Moji.

(** The column of the cursor and the column remembered by ESC 7. *)
Definition tstate := (Z * Z)%type.

(** Control characters: C0, DEL and C1. *)
Definition control (r : rune) : bool := (0 <=? r) && (r <=? 31) || (127 <=? r) && (r <=? 159).

(** A terminal that moves by [tw r] columns for a printable [r] and reacts to other control
    characters than backspace, ESC 7 and ESC 8 in an unknown way. *)
Definition tone (tw : rune -> Z) (other : rune -> tstate -> tstate) (r : rune) (st : tstate) : tstate :=
  if r =? 8 then (Z.max 0 (fst st - 1), snd st)
  else if control r then other r st
  else (fst st + tw r, snd st).
Fixpoint tshow (tw : rune -> Z) (other : rune -> tstate -> tstate) (rs : list rune) (st : tstate) : tstate :=
  match rs with
  | [] => st
  | r :: rs' =>
    match rs' with
    | d :: rs'' =>
      if (r =? 27) && (d =? 55) then tshow tw other rs'' (fst st, fst st)
      else if (r =? 27) && (d =? 56) then tshow tw other rs'' (snd st, snd st)
      else tshow tw other rs' (tone tw other r st)
    | [] => tone tw other r st
    end
  end.

(** The text moves the cursor by [n] columns from wherever it is. *)
Definition advances (tw : rune -> Z) (other : rune -> tstate -> tstate) (b : str) (n : Z) : Prop :=
  forall c sv, 0 <= c -> fst (tshow tw other (runes b) (c, sv)) = c + n.

(** The terminal agrees with the configured widths. *)
Record agrees (E : env) (tw : rune -> Z) : Prop := {
  ag_nonneg : forall r, 0 <= tw r;
  ag_rw : forall r, 0 <= rw E r;
  ag_ascii : forall r, 32 <= r < 127 -> tw r = 1;
  ag_rune : forall r, control r = false -> ~ 127462 <= r <= 127487 -> tw r = rw E r;
  ag_flag : forall r, 127462 <= r <= 127487 -> tw r = 2;
  ag_zwj : forall a b, zw E a b = a + tw 8205 + b;
  ag_control : forall r, 127 <= r <= 159 -> rw E r = 0
}.

(** A joined character whose parts are painted as they are written and as wide as alone
    (a regional indicator is counted two wide only when it stands alone). *)
Definition plain_part (m : moji) : bool := match m with MRaw r => negb (in_range r 127462 127487) | _ => false end.
Fixpoint as_written (m : moji) : bool :=
  match m with MRaw _ | MReg _ => true | MZwj a b | MMod a b => as_written a && plain_part b | _ => false end.
(** A modifier sequence is painted as it is written, whatever its base is painted like
    alone; this is the case where that does not matter. *)
Fixpoint honest (m : moji) : bool :=
  match m with
  | MMod a b => as_written a && plain_part b
  | MZwj (MFlag _) _ => true
  | MZwj a b => honest a && plain_part b
  | _ => true
  end.
Definition joined_unit (m : moji) : bool := match m with MZwj _ _ | MMod _ _ | MVar _ _ => true | _ => false end.
Definition no_controls (s : str) : bool := forallb (fun r => negb (control r)) (runes s).

(** The number that upper-case hexadecimal digits stand for. *)
Definition hex_value1 (d : Z) : Z := if d <=? 57 then d - 48 else d - 55.
Definition hex_value (s : str) : Z := fold_left (fun n d => 16 * n + hex_value1 d) s 0.
Definition hex_char (d : Z) : Prop := 48 <= d <= 57 \/ 65 <= d <= 70.

(** ** Tabs *)
(** The columns from the start of the line to a unit. *)
Definition columns (E : env) (p : list moji) : Z := fold_right (fun m w => width E m + w) 0 p.
(** What is painted for units one after the other. *)
Fixpoint prints (E : env) (l : list moji) : option str :=
  match l with
  | [] => Some []
  | m :: l' => let* b := print E m in let* bs := prints E l' in Some (b ++ bs)
  end.
