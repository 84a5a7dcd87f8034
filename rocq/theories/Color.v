(** Model of color.go and coloring/vimbatch.go. *)
From Verif Require Import Base Utf8.

(** int64 conversion. *)
Definition wrap64 (z : Z) : Z :=
  (z + 9223372036854775808) mod 18446744073709551616 - 9223372036854775808.

(** fmt's %d.  The fuel 20 covers every int64. *)
Fixpoint dec_loop (fuel : nat) (c : Z) : str :=
  match fuel with
  | O => []
  | S f => (if 9 <? c then dec_loop f (c / 10) else []) ++ [48 + c mod 10]
  end.
Definition dec (c : Z) : str := if c <? 0 then 45 :: dec_loop 20 (- c) else dec_loop 20 c.

(** color.go:17-20 *)
Definition colorCodeBitSize : Z := 8.
Definition colorCodeMask : Z := 255.

(** color.go:22-25 *)
Definition color_add (c value : Z) : Z :=
  let n := Z.land c colorCodeMask + 1 in
  Z.lor (Z.lor (Z.ldiff c colorCodeMask) n) (wrap64 (Z.shiftl value (n * colorCodeBitSize))).

(** color.go:27-33; [k] is the loop counter n. *)
Fixpoint color_chain_loop (k : nat) (c value : Z) : Z :=
  match k with
  | O => c
  | S k' => let v := Z.shiftr value colorCodeBitSize in
            color_chain_loop k' (color_add c (Z.land v colorCodeMask)) v
  end.
Definition color_chain (c value : Z) : Z :=
  color_chain_loop (Z.to_nat (Z.land value colorCodeMask)) c value.

(** color.go:35-37 *)
Definition ColorReset : Z := 1.
(** color.go:39-50 : Black + i, constants of the first group *)
Definition bright (i : Z) : Z := Z.lor (Z.lor (Z.lor 3 (Z.shiftl (30 + i) 8)) (Z.shiftl 49 16)) (Z.shiftl 1 24).
Definition Magenta := bright 5.
Definition Cyan := bright 6.
Definition DefaultForeGroundColor := bright 9.
(** color.go:52-63 : DarkGray + i, constants of the second group *)
Definition dark (i : Z) : Z := Z.lor (Z.lor (Z.lor 3 (Z.shiftl (30 + i) 8)) (Z.shiftl 22 16)) (Z.shiftl 49 24).
Definition DarkYellow := dark 3.

(** color.go:75-99 *)
Definition SGR1 (n1 : Z) : Z := Z.lor 1 (wrap64 (Z.shiftl n1 8)).
Definition SGR2 (n1 n2 : Z) : Z := Z.lor (Z.lor 2 (wrap64 (Z.shiftl n1 8))) (wrap64 (Z.shiftl n2 16)).
Definition SGR3 (n1 n2 n3 : Z) : Z :=
  Z.lor (Z.lor (Z.lor 3 (wrap64 (Z.shiftl n1 8))) (wrap64 (Z.shiftl n2 16))) (wrap64 (Z.shiftl n3 24)).
Definition SGR4 (n1 n2 n3 n4 : Z) : Z :=
  Z.lor (Z.lor (Z.lor (Z.lor 4 (wrap64 (Z.shiftl n1 8))) (wrap64 (Z.shiftl n2 16)))
               (wrap64 (Z.shiftl n3 24))) (wrap64 (Z.shiftl n4 32)).

(** color.go:101-128, for a writer that does not fail: the bytes written.  The answer of
    WriteTo and writers that fail are in Writer.v.  [k] is the variable count. *)
Fixpoint color_write_loop (k : nat) (c : Z) : str :=
  let c' := Z.shiftr c colorCodeBitSize in
  dec (Z.land c' colorCodeMask) ++
  match k with
  | O | S O => []
  | S k' => [59] ++ color_write_loop k' c'
  end.
Definition color_body (c : Z) : str :=
  color_write_loop (Z.to_nat (Z.land c colorCodeMask)) c ++ [109].
Definition color_write (c : Z) : str :=
  if c <=? 0 then [] else [27; 91] ++ color_body c.

(** color.go:8-13: a Coloring, as the default colour returned by Init and the answer
    of Next as a function of the runes given to Next since the last Init (most recent
    first) and the rune.  Every implementation whose Init "initializes receiver's
    fields", as the interface demands, is of this form. *)
Record coloring := mkColoring {
  c_init : Z;
  c_next : list rune -> rune -> Z
}.

(** color.go:65-73 *)
Definition monoChrome : coloring :=
  mkColoring DefaultForeGroundColor (fun _ _ => DefaultForeGroundColor).

(** coloring/vimbatch.go:21-42: new bits and colour. *)
Definition vim_next (bits : Z) (cp : rune) : Z * Z :=
  let newbits := if cp =? 37 then Z.lxor bits 1 else if cp =? 34 then Z.lxor bits 2 else bits in
  let color :=
    if cp =? 12288 then SGR3 37 22 41
    else if negb (Z.land (Z.lor bits newbits) 1 =? 0) then Cyan
    else if negb (Z.land (Z.lor bits newbits) 2 =? 0) then Magenta
    else if cp =? 38 then DarkYellow
    else DefaultForeGroundColor in
  (newbits, color).
(** coloring/vimbatch.go:11-14: Init clears the bits and returns ColorReset. *)
Definition vim_bits (past : list rune) : Z := fold_right (fun cp b => fst (vim_next b cp)) 0 past.
Definition VimBatch : coloring :=
  mkColoring ColorReset (fun past cp => snd (vim_next (vim_bits past) cp)).

(** coloring/vimbatch.go:7-42: the object itself over a whole life: calls of Init and
    Next in any order, starting with any value of the field bits; the answers. *)
Inductive vcall := VInit | VNext (r : rune).
Definition vim_call (bits : Z) (c : vcall) : Z * Z :=
  match c with VInit => (0, ColorReset) | VNext r => vim_next bits r end.
Fixpoint vim_calls (bits : Z) (cs : list vcall) : list Z :=
  match cs with
  | [] => []
  | c :: cs' => let '(bits', a) := vim_call bits c in a :: vim_calls bits' cs'
  end.
