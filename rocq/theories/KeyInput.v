(** Model of the ways keys come in: getkey.go, tty8.go (GetKey), tty10/main.go (GetKey)
    and auto/main.go. *)
From Verif Require Import Base Utf8.

(** An XTty (getkey.go:9-13) in raw mode: what ReadRune will return ([None] is an error)
    and the answers Buffered will give (false once they are used up).  If [honest], Buffered
    is true only while there is input left.  Raw (getkey.go:18,58) is taken to succeed. *)
Record xtty := mkXtty { input : list (option rune); buffered : list bool }.

Section WithTty.
Variable honest : bool.
Definition Buffered (t : xtty) : bool * xtty :=
  let more := match input t with [] => negb honest | _ => true end in
  match buffered t with
  | [] => (false, t)
  | b :: bs => (b && more, mkXtty (input t) bs)
  end.

(** What a call returns: a value, an error, or nothing because it waits for input. *)
Inductive outcome (A : Type) := Got (a : A) (t : xtty) | Failed (t : xtty) | Waits.
Arguments Got {A} a t. Arguments Failed {A} t. Arguments Waits {A}.

(** getkey.go:27-54: the loop; [buf] is buffer, [esc] escape, [sur] surrogated. *)
Fixpoint raw_loop (inp : list (option rune)) (bs : list bool) (buf : str) (esc : bool) (sur : rune) : outcome str :=
  match inp with
  | [] => Waits
  | None :: inp' => Failed (mkXtty inp' bs)
  | Some r :: inp' =>
    if r =? 0 then raw_loop inp' bs buf esc sur
    else if negb (0 <? sur) && is_surrogate r then raw_loop inp' bs buf esc r
    else
      let r' := if 0 <? sur then utf16_decode sur r else r in
      let buf' := buf ++ encode_rune r' in
      let esc' := esc || (r' =? 27) in
      if esc' then
        let '(b, t) := Buffered (mkXtty inp' bs) in
        if b then raw_loop inp' (buffered t) buf' esc' 0 else Got buf' t
      else Got buf' (mkXtty inp' bs)
  end.
Definition GetRawKey (t : xtty) : outcome str := raw_loop (input t) (buffered t) [] false 0.

(** getkey.go:56-78.  Every round takes a rune, so the length of the input bounds the
    rounds; [None] would be a bound too small. *)
Fixpoint keys_loop (fuel : nat) (t : xtty) (ks : list str) : option (outcome (list str)) :=
  match fuel with
  | O => None
  | S f =>
    match GetRawKey t with
    | Waits => Some Waits
    | Failed t' => Some (Failed t')
    | Got k t' =>
      let '(b, t'') := Buffered t' in
      if b then keys_loop f t'' (ks ++ [k]) else Some (Got (ks ++ [k]) t'')
    end
  end.
Definition GetKeys (t : xtty) : option (outcome (list str)) := keys_loop (S (List.length (input t))) t [].

(** tty8.go:41-52; the state is the terminal and the field buf. *)
Record tty8 := mkTty8 { xt : xtty; buf8 : list str }.
Inductive answer := Key (k : str) | KeyErr | KeyWait.
Definition tty8_GetKey (m : tty8) : option (answer * tty8) :=
  match buf8 m with
  | k :: ks => Some (Key k, mkTty8 (xt m) ks)
  | [] =>
    match GetKeys (xt m) with
    | None => None
    | Some Waits => Some (KeyWait, m)
    | Some (Failed t) => Some (KeyErr, mkTty8 t [])
    | Some (Got [] t) => Some (Key [], mkTty8 t [])
    | Some (Got (k :: ks) t) => Some (Key k, mkTty8 t ks)
    end
  end.
(** [n] calls, one after another, as long as they return keys. *)
Fixpoint tty8_keys (n : nat) (m : tty8) : option (list str * tty8) :=
  match n with
  | O => Some ([], m)
  | S n' =>
    match tty8_GetKey m with
    | Some (Key k, m') => let* (ks, m'') := tty8_keys n' m' in Some (k :: ks, m'')
    | _ => None
    end
  end.
End WithTty.
Arguments Got {A} a t. Arguments Failed {A} t. Arguments Waits {A}.

(** tty10/main.go:11-15,44-78: the field buf and what the coming reads of standard input
    will return ([None] is an error); MakeRaw is taken to succeed. *)
Record tty10 := mkTty10 { buf10 : str; reads : list (option str) }.
Inductive answer10 := Key10 (k : str) | Err10 | Wait10.
(** tty10/main.go:68-77 *)
Definition tty10_cut (b : str) (rs : list (option str)) : answer10 * tty10 :=
  let '(r, size) := decode_rune b in
  if r =? 27 then (Key10 b, mkTty10 [] rs)
  else (Key10 (firstn size b), mkTty10 (skipn size b) rs).
(** tty10/main.go:60-78 *)
Definition tty10_GetKey (m : tty10) : answer10 * tty10 :=
  match buf10 m with
  | [] =>
    match reads m with
    | [] => (Wait10, m)
    | None :: rs => (Err10, mkTty10 [] rs)
    | Some [] :: rs => (Key10 [], mkTty10 [] rs)
    | Some b :: rs => tty10_cut b rs
    end
  | b => tty10_cut b (reads m)
  end.
Fixpoint tty10_keys (n : nat) (m : tty10) : option (list str * tty10) :=
  match n with
  | O => Some ([], m)
  | S n' =>
    match tty10_GetKey m with
    | (Key10 k, m') => let* (ks, m'') := tty10_keys n' m' in Some (k :: ks, m'')
    | _ => None
    end
  end.

(** auto/main.go:3-18: a Pilot; the key and the script that is left. *)
Definition Pilot_GetKey (script : list str) : str * list str :=
  match script with
  | [] => ([13], [])
  | k :: rest => (k, rest)
  end.
Fixpoint Pilot_keys (n : nat) (script : list str) : list str :=
  match n with
  | O => []
  | S n' => let '(k, rest) := Pilot_GetKey script in k :: Pilot_keys n' rest
  end.
