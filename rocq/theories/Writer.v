(** WriteTo on a writer that may accept less than it is given: internal/moji and color.go.
    The other files of the model use the bytes alone (Moji.write, Color.color_write). *)
From Verif Require Import Base Utf8 Moji Color.

(** An io.Writer: for each coming call of Write the number of bytes it accepts (once the
    list is used up it accepts everything), and the bytes accepted so far.  Write reports
    an error exactly when it accepts less than it is given, as io.Writer demands. *)
Record wst := mkWst { answers : list nat; got : str }.
Definition w_write (b : str) (s : wst) : Z * bool * wst :=
  match answers s with
  | [] => (zlen b, false, mkWst [] (got s ++ b))
  | a :: ans => let t := firstn a b in
                (zlen t, negb (zlen t =? zlen b), mkWst ans (got s ++ t))
  end.

(** The WriteTo methods; (count, failed, writer).  codepoint.go:22-25,38-47,64-66,78-80,
    93-95,114-116 (each one a single Write) and moji.go:32-43,81-88,105-112. *)
Fixpoint moji_WriteTo (m : moji) (s : wst) : Z * bool * wst :=
  match m with
  | MTab _ => w_write [9] s
  | MRaw r | MEsc r | MReg r | MCtrl r | MFlag r => w_write (encode_rune r) s
  | MZwj a b =>
    let '(n1, e1, s1) := moji_WriteTo a s in
    if e1 then (n1, e1, s1)
    else
      let '(n2, e2, s2) := w_write (encode_rune zeroWidthJoinRune) s1 in
      if e2 then (n1 + n2, e2, s2)
      else let '(n3, e3, s3) := moji_WriteTo b s2 in (n1 + n2 + n3, e3, s3)
  | MMod a b | MVar a b =>
    let '(n1, e1, s1) := moji_WriteTo a s in
    if e1 then (n1, e1, s1)
    else let '(n2, e2, s2) := moji_WriteTo b s1 in (n1 + n2, e2, s2)
  end.

(** color.go:108-124: the loop; [k] is count (the loop runs at least once), [n] the bytes
    counted so far.  Fprintf makes one call of Write. *)
Fixpoint color_WriteTo_loop (k : nat) (c n : Z) (s : wst) : Z * wst :=
  let c' := Z.shiftr c colorCodeBitSize in
  let '(n1, e1, s1) := w_write (dec (Z.land c' colorCodeMask)) s in
  if e1 then (n + n1, s1)
  else match k with
       | O | S O => (n + n1, s1)
       | S k' =>
         let '(n2, e2, s2) := w_write [59] s1 in
         if e2 then (n + n1 + n2, s2) else color_WriteTo_loop k' c' (n + n1 + n2) s2
       end.
(** color.go:101-128 *)
Definition color_WriteTo (c : Z) (s : wst) : Z * bool * wst :=
  if c <=? 0 then (0, false, s)
  else
    let '(_, _, s1) := w_write [27; 91] s in
    let '(n, s2) := color_WriteTo_loop (Z.to_nat (Z.land c colorCodeMask)) c 0 s1 in
    let '(n3, e3, s3) := w_write [109] s2 in
    (n + n3, e3, s3).
