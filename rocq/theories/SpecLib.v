(** The vocabulary of the property theorems on colours, widths, keys and other parts of
    the library around the editor.  Nothing here follows the way the code works. *)
From Verif Require Import Base Utf8.
From Verif Require WidthCache.

(** ** Colours *)
(** [s] is the decimal notation of [n]: digits, no leading zero. *)
Definition digit (b : Z) : Prop := 48 <= b <= 57.
Definition digits_value (s : str) : Z := fold_left (fun v b => 10 * v + (b - 48)) s 0.
Definition decimal (n : Z) (s : str) : Prop :=
  Forall digit s /\ s <> [] /\ digits_value s = n /\ (hd 0 s = 48 -> s = [48]).
(** The parts joined by semicolons. *)
Fixpoint semicolons (l : list str) : str :=
  match l with
  | [] => []
  | [x] => x
  | x :: l' => x ++ [59] ++ semicolons l'
  end.
(** [s] is the terminal sequence ESC [ c1 ; c2 ; ... ; cn m. *)
Definition sgr_text (codes : list Z) (s : str) : Prop :=
  exists ds, Forall2 decimal codes ds /\ s = [27; 91] ++ semicolons ds ++ [109].
(** The lists of codes a ColorSequence has room for: at most seven, the seventh below 128. *)
Definition fits_color (codes : list Z) : Prop :=
  Forall (fun c => 0 <= c < 256) codes /\
  (zlen codes <= 6 \/ (zlen codes = 7 /\ last codes 0 < 128)).

(** How often [x] occurs. *)
Definition occurrences (x : Z) (l : list Z) : nat := count_occ Z.eq_dec l x.
(** The character [c] after the text [a] belongs to a stretch delimited by [mark] (the
    marks themselves included; the last stretch may be open). *)
Definition in_stretch (mark : Z) (a : list Z) (c : Z) : Prop :=
  c = mark \/ Nat.Odd (occurrences mark a).
(** The colours of VimBatch for the character [c] after the text [a]: ideographic space
    white on red, then percent stretches cyan, then quoted stretches magenta, then '&'
    dark yellow, else the default. *)
Definition vim_codes (a : list Z) (c : Z) (codes : list Z) : Prop :=
  (c = 12288 /\ codes = [37; 22; 41]) \/
  (c <> 12288 /\ in_stretch 37 a c /\ codes = [36; 49; 1]) \/
  (c <> 12288 /\ ~ in_stretch 37 a c /\ in_stretch 34 a c /\ codes = [35; 49; 1]) \/
  (c = 38 /\ ~ in_stretch 37 a c /\ ~ in_stretch 34 a c /\ codes = [33; 22; 49]) \/
  (c <> 12288 /\ c <> 38 /\ ~ in_stretch 37 a c /\ ~ in_stretch 34 a c /\ codes = [39; 49; 1]).

(** ** Widths of characters *)
(** The width set for [r] by the last SetCharWidth after the last ResetCharWidth in [os]
    (in the order of time), or the default. *)
Definition width_set (os : list WidthCache.wop) (r w : Z) : Prop :=
  exists os1 os2, os = os1 ++ WidthCache.WSet r w :: os2 /\
    ~ In WidthCache.WReset os2 /\ forall w', ~ In (WidthCache.WSet r w') os2.

(** ** Characters from the terminal *)
(** [cs] are the characters of the stream of code units [rs]: pairs of surrogates are
    combined (there is none without a partner). *)
Inductive combined : list Z -> list Z -> Prop :=
| combined_nil : combined [] []
| combined_one r rs cs : r < 55296 \/ 57344 <= r -> combined rs cs -> combined (r :: rs) (r :: cs)
| combined_pair hi lo rs cs : 55296 <= hi < 56320 -> 56320 <= lo < 57344 -> combined rs cs ->
    combined (hi :: lo :: rs) (65536 + (hi - 55296) * 1024 + (lo - 56320) :: cs).
(** The characters of a stream in which NULs mean nothing. *)
Definition characters (rs cs : list Z) : Prop := combined (filter (fun r => negb (r =? 0)) rs) cs.

(** A key: one character other than ESC, or ESC with some characters behind it. *)
Definition one_key (k : list Z) : Prop := (exists c, c <> 27 /\ k = encode_rune c) \/ (exists ds, k = encode (27 :: ds)).

(** ** Names of keys *)
(** The same letter but for case, or '-' for '_'. *)
Definition same_char (x y : Z) : Prop :=
  x = y \/ (65 <= x <= 90 /\ y = x + 32) \/ (65 <= y <= 90 /\ x = y + 32) \/
  (x = 45 /\ y = 95) \/ (x = 95 /\ y = 45).
Definition same_name (a b : list Z) : Prop := Forall2 same_char a b.
Definition ascii (s : list Z) : Prop := Forall (fun b => 0 <= b < 128) s.

(** ** Prompts *)
(** What a prompt is made of: characters, ESC [ ... letter, ESC ] ... BEL, line breaks,
    backspaces. *)
Inductive piece := PText (c : Z) | PCsi (body : list Z) (final : Z) | PTitle (body : list Z) | PBreak (b : Z) | PBack.
Definition letter (b : Z) : Prop := 65 <= b <= 90 \/ 97 <= b <= 122.
Definition piece_ok (p : piece) : Prop :=
  match p with
  | PText c => valid_rune c = true /\ ~ In c [8; 10; 13; 27; 65533]
  | PCsi body final => Forall (fun b => ~ letter b /\ ~ In b [10; 13; 27; 93]) body /\ letter final
  | PTitle body => Forall (fun b => ~ In b [7; 10; 13; 27]) body
  | PBreak b => b = 10 \/ b = 13
  | PBack => True
  end.
Definition piece_bytes (p : piece) : list Z :=
  match p with
  | PText c => encode [c]
  | PCsi body final => [27; 91] ++ body ++ [final]
  | PTitle body => [27; 93] ++ body ++ [7]
  | PBreak b => [b]
  | PBack => [8]
  end.
(** The characters seen on the last line. *)
Definition see (seen : list Z) (p : piece) : list Z :=
  match p with
  | PText c => seen ++ [c]
  | PCsi _ _ | PTitle _ => seen
  | PBreak _ => []
  | PBack => removelast seen
  end.
Definition visible (ps : list piece) : list Z := fold_left see ps [].
