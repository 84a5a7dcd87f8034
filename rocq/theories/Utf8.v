(** Byte-level model of the parts of Go's [unicode/utf8] and [unicode/utf16] the code
    uses.  Shifts and masks of the library are written with [/], [mod], [*] and [+]
    on non-overlapping fields. *)
From Verif Require Import Base.

(** utf8.RuneError *)
Definition RuneError : rune := 65533.

(** Unicode scalar values: what utf8.ValidRune accepts. *)
Definition valid_rune (r : rune) : bool :=
  ((0 <=? r) && (r <? 55296)) || ((57343 <? r) && (r <=? 1114111)).

(** utf8.EncodeRune / utf8.AppendRune / strings.Builder.WriteRune (standard library):
    runes that are no scalar value are written as U+FFFD. *)
Definition encode_rune (r0 : rune) : str :=
  let r := if valid_rune r0 then r0 else RuneError in
  if r <? 128 then [r]
  else if r <? 2048 then [192 + r / 64; 128 + r mod 64]
  else if r <? 65536 then [224 + r / 4096; 128 + (r / 64) mod 64; 128 + r mod 64]
  else [240 + r / 262144; 128 + (r / 4096) mod 64; 128 + (r / 64) mod 64; 128 + r mod 64].

Definition in_range (b lo hi : Z) : bool := (lo <=? b) && (b <=? hi).
Definition is_cont (b : Z) : bool := in_range b 128 191.

(** utf8.DecodeRune / utf8.DecodeRuneInString (standard library): the first rune and
    its size; (RuneError,0) on empty input, (RuneError,1) on an invalid encoding.  A
    list element that is not a byte (0..255) cannot occur in Go; it counts as an invalid
    encoding, so that theorems need no hypothesis about it. *)
Definition decode_rune (s : str) : rune * nat :=
  match s with
  | [] => (RuneError, 0%nat)
  | b0 :: t =>
    if in_range b0 0 127 then (b0, 1%nat)
    else if in_range b0 194 223 then
      match t with
      | b1 :: _ => if is_cont b1 then ((b0 - 192) * 64 + (b1 - 128), 2%nat) else (RuneError, 1%nat)
      | [] => (RuneError, 1%nat)
      end
    else if in_range b0 224 239 then
      let lo := if b0 =? 224 then 160 else 128 in
      let hi := if b0 =? 237 then 159 else 191 in
      match t with
      | b1 :: b2 :: _ =>
        if in_range b1 lo hi && is_cont b2
        then ((b0 - 224) * 4096 + (b1 - 128) * 64 + (b2 - 128), 3%nat)
        else (RuneError, 1%nat)
      | _ => (RuneError, 1%nat)
      end
    else if in_range b0 240 244 then
      let lo := if b0 =? 240 then 144 else 128 in
      let hi := if b0 =? 244 then 143 else 191 in
      match t with
      | b1 :: b2 :: b3 :: _ =>
        if in_range b1 lo hi && is_cont b2 && is_cont b3
        then ((b0 - 240) * 262144 + (b1 - 128) * 4096 + (b2 - 128) * 64 + (b3 - 128), 4%nat)
        else (RuneError, 1%nat)
      | _ => (RuneError, 1%nat)
      end
    else (RuneError, 1%nat)
  end.

(** The runes obtained by decoding from the left until the string is used up: the loop
    [for len(s) > 0 { r, size := DecodeRuneInString(s); s = s[size:] }] and also
    [for _, r := range s].  [skip] counts the bytes of the current rune still to pass. *)
Fixpoint runes_aux (skip : nat) (s : str) : list rune :=
  match s with
  | [] => []
  | _ :: t =>
    match skip with
    | S k => runes_aux k t
    | O => let '(r, n) := decode_rune s in r :: runes_aux (n - 1) t
    end
  end.
Definition runes (s : str) : list rune := runes_aux 0 s.

(** Writing runes one after another. *)
Definition encode (rs : list rune) : str := flat_map encode_rune rs.

(** utf8.RuneStart *)
Definition rune_start (b : Z) : bool := negb (is_cont b).

(** utf8.DecodeLastRune (standard library): scan back at most three more bytes for a
    start byte, decode from there, and reject unless the rune ends at the end. *)
Fixpoint last_start (s : str) (start : Z) (k : nat) : Z :=
  match k with
  | O => start
  | S k' =>
    if start <? 0 then start
    else match index s start with
         | Some b => if rune_start b then start else last_start s (start - 1) k'
         | None => start
         end
  end.
Definition decode_last_rune (s : str) : rune * nat :=
  match s with
  | [] => (RuneError, 0%nat)
  | _ =>
    let e := zlen s in
    match index s (e - 1) with
    | None => (RuneError, 0%nat)
    | Some r =>
      if r <? 128 then (r, 1%nat)
      else
        let st := Z.max 0 (last_start s (e - 2) 3) in
        let '(r', size) := decode_rune (skipn (Z.to_nat st) s) in
        if st + Z.of_nat size =? e then (r', size) else (RuneError, 1%nat)
    end
  end.

(** utf16.IsSurrogate *)
Definition is_surrogate (r : rune) : bool := (55296 <=? r) && (r <? 57344).
(** utf16.DecodeRune *)
Definition utf16_decode (r1 r2 : rune) : rune :=
  if (55296 <=? r1) && (r1 <? 56320) && (56320 <=? r2) && (r2 <? 57344)
  then (r1 - 55296) * 1024 + (r2 - 56320) + 65536
  else RuneError.

(** * Specification: valid UTF-8 text *)

(** A string is valid UTF-8 if it is the encoding of a list of scalar values. *)
Definition utf8_of (rs : list rune) (s : str) : Prop :=
  Forall (fun r => valid_rune r = true) rs /\ s = encode rs.
Definition valid_utf8 (s : str) : Prop := exists rs, utf8_of rs s.
(** Byte strings. *)
Definition bytes_ok (s : str) : Prop := Forall (fun b => 0 <= b < 256) s.

(** * Lemmas *)

Ltac Zify.zify_post_hook ::= Z.div_mod_to_equations.

Lemma valid_rune_spec r :
  valid_rune r = true <-> (0 <= r < 55296 \/ 57343 < r <= 1114111).
Proof. unfold valid_rune. lia. Qed.

Lemma valid_RuneError : valid_rune RuneError = true.
Proof. reflexivity. Qed.

Lemma encode_rune_len r : (1 <= List.length (encode_rune r) <= 4)%nat.
Proof.
  unfold encode_rune. repeat destruct (_ <? _); cbn; lia.
Qed.

Lemma encode_rune_bytes r : bytes_ok (encode_rune r).
Proof.
  unfold encode_rune.
  set (r' := if valid_rune r then r else RuneError).
  assert (H : 0 <= r' <= 1114111).
  { unfold r'. destruct (valid_rune r) eqn:E; [apply valid_rune_spec in E; lia|unfold RuneError; lia]. }
  clearbody r'.
  destruct (r' <? 128) eqn:E1; [repeat constructor; lia|].
  destruct (r' <? 2048) eqn:E2; [repeat constructor; lia|].
  destruct (r' <? 65536) eqn:E3; repeat constructor; lia.
Qed.

(** Decoding inverts encoding, whatever follows. *)
Lemma decode_encode r t : valid_rune r = true ->
  decode_rune (encode_rune r ++ t) = (r, List.length (encode_rune r)).
Proof.
  intros Hv. unfold encode_rune. rewrite Hv. apply valid_rune_spec in Hv.
  destruct (r <? 128) eqn:E1.
  { cbn [app decode_rune List.length]. unfold in_range.
    replace ((0 <=? r) && (r <=? 127)) with true by lia. reflexivity. }
  destruct (r <? 2048) eqn:E2.
  { cbn [app decode_rune List.length]. unfold is_cont, in_range.
    replace ((0 <=? 192 + r / 64) && (192 + r / 64 <=? 127)) with false by lia.
    replace ((194 <=? 192 + r / 64) && (192 + r / 64 <=? 223)) with true by lia.
    replace ((128 <=? 128 + r mod 64) && (128 + r mod 64 <=? 191)) with true by lia.
    f_equal. lia. }
  destruct (r <? 65536) eqn:E3.
  { cbn [app decode_rune List.length]. unfold is_cont, in_range.
    replace ((0 <=? 224 + r / 4096) && (224 + r / 4096 <=? 127)) with false by lia.
    replace ((194 <=? 224 + r / 4096) && (224 + r / 4096 <=? 223)) with false by lia.
    replace ((224 <=? 224 + r / 4096) && (224 + r / 4096 <=? 239)) with true by lia.
    match goal with |- context [if ?c then _ else (RuneError, 1%nat)] => replace c with true end.
    - f_equal. lia.
    - destruct (224 + r / 4096 =? 224) eqn:Ea; destruct (224 + r / 4096 =? 237) eqn:Eb; lia. }
  cbn [app decode_rune List.length]. unfold is_cont, in_range.
  replace ((0 <=? 240 + r / 262144) && (240 + r / 262144 <=? 127)) with false by lia.
  replace ((194 <=? 240 + r / 262144) && (240 + r / 262144 <=? 223)) with false by lia.
  replace ((224 <=? 240 + r / 262144) && (240 + r / 262144 <=? 239)) with false by lia.
  replace ((240 <=? 240 + r / 262144) && (240 + r / 262144 <=? 244)) with true by lia.
  match goal with |- context [if ?c then _ else (RuneError, 1%nat)] => replace c with true end.
  - f_equal. lia.
  - destruct (240 + r / 262144 =? 240) eqn:Ea; destruct (240 + r / 262144 =? 244) eqn:Eb; lia.
Qed.

(** What decoding yields is always a scalar value of a size that fits. *)
Lemma decode_rune_valid b t : valid_rune (fst (decode_rune (b :: t))) = true.
Proof.
  cbn [decode_rune]. unfold is_cont, in_range.
  destruct ((0 <=? b) && (b <=? 127)) eqn:E1; [apply valid_rune_spec; cbn; lia|].
  destruct ((194 <=? b) && (b <=? 223)) eqn:E2.
  { destruct t as [|b1 t]; [reflexivity|]. destruct ((128 <=? b1) && (b1 <=? 191)) eqn:E3; [|reflexivity].
    apply valid_rune_spec; cbn [fst]. lia. }
  destruct ((224 <=? b) && (b <=? 239)) eqn:E3.
  { destruct t as [|b1 [|b2 t]]; try reflexivity.
    match goal with |- context [if ?c then _ else (RuneError, 1%nat)] => destruct c eqn:E4 end; [|reflexivity].
    apply valid_rune_spec; cbn [fst]. destruct (b =? 224) eqn:Ea; destruct (b =? 237) eqn:Eb; lia. }
  destruct ((240 <=? b) && (b <=? 244)) eqn:E4; [|reflexivity].
  destruct t as [|b1 [|b2 [|b3 t]]]; try reflexivity.
  match goal with |- context [if ?c then _ else (RuneError, 1%nat)] => destruct c eqn:E5 end; [|reflexivity].
  apply valid_rune_spec; cbn [fst]. destruct (b =? 240) eqn:Ea; destruct (b =? 244) eqn:Eb; lia.
Qed.

Lemma decode_rune_size b t :
  (1 <= snd (decode_rune (b :: t)) <= S (List.length t))%nat.
Proof.
  cbn [decode_rune].
  destruct (in_range b 0 127); [cbn; lia|].
  destruct (in_range b 194 223).
  { destruct t as [|b1 t]; [cbn; lia|]. destruct (is_cont b1); cbn; lia. }
  destruct (in_range b 224 239).
  { destruct t as [|b1 [|b2 t]]; try (cbn; lia).
    destruct (_ && _); cbn; lia. }
  destruct (in_range b 240 244); [|cbn; lia].
  destruct t as [|b1 [|b2 [|b3 t]]]; try (cbn; lia).
  destruct (_ && _); cbn; lia.
Qed.

Lemma runes_aux_skip k s : runes_aux k s = runes (skipn k s).
Proof.
  unfold runes. revert s. induction k as [|k IH]; intros s; [reflexivity|].
  destruct s as [|b s]; [reflexivity|]. cbn. apply IH.
Qed.

Lemma runes_nil : runes [] = []. Proof. reflexivity. Qed.

(** One step of the decoding loop. *)
Lemma runes_step b t :
  runes (b :: t) = fst (decode_rune (b :: t)) :: runes (skipn (snd (decode_rune (b :: t))) (b :: t)).
Proof.
  unfold runes at 1. cbn [runes_aux].
  pose proof (decode_rune_size b t) as Hs.
  destruct (decode_rune (b :: t)) as [r n]. cbn [fst snd] in *. f_equal.
  rewrite runes_aux_skip. destruct n; [lia|]. replace (S n - 1)%nat with n by lia. reflexivity.
Qed.

Lemma runes_encode_rune r t : valid_rune r = true ->
  runes (encode_rune r ++ t) = r :: runes t.
Proof.
  intros Hv. pose proof (decode_encode r t Hv) as HD. pose proof (encode_rune_len r) as HL.
  destruct (encode_rune r) as [|b u] eqn:E; [cbn in HL; lia|].
  cbn [app] in *. rewrite runes_step, HD. cbn [fst snd]. f_equal. f_equal.
  change (b :: u ++ t) with ((b :: u) ++ t).
  now rewrite skipn_app, skipn_all, Nat.sub_diag.
Qed.

Lemma runes_encode_app rs t : Forall (fun r => valid_rune r = true) rs ->
  runes (encode rs ++ t) = rs ++ runes t.
Proof.
  induction 1 as [|r rs Hr _ IH]; [reflexivity|].
  unfold encode in *. cbn [flat_map]. rewrite <- app_assoc, runes_encode_rune by exact Hr.
  cbn [app]. now rewrite IH.
Qed.

Lemma runes_encode rs : Forall (fun r => valid_rune r = true) rs -> runes (encode rs) = rs.
Proof.
  intros H. rewrite <- (app_nil_r (encode rs)), runes_encode_app by exact H.
  now rewrite runes_nil, app_nil_r.
Qed.

Lemma encode_app a b : encode (a ++ b) = encode a ++ encode b.
Proof. unfold encode. apply flat_map_app. Qed.

Lemma encode_cons r rs : encode (r :: rs) = encode_rune r ++ encode rs.
Proof. reflexivity. Qed.

Lemma encode_runes_valid s : valid_utf8 s -> encode (runes s) = s.
Proof. intros (rs & Hv & ->). now rewrite runes_encode. Qed.

Lemma runes_app_valid s t : valid_utf8 s -> runes (s ++ t) = runes s ++ runes t.
Proof. intros (rs & Hv & ->). rewrite runes_encode_app, runes_encode; auto. Qed.

Lemma runes_valid s : Forall (fun r => valid_rune r = true) (runes s).
Proof.
  remember (List.length s) as n eqn:Hn.
  assert (H : (List.length s <= n)%nat) by lia. clear Hn. revert s H.
  induction n as [|n IH]; intros s Hl.
  - destruct s; [constructor|cbn in Hl; lia].
  - destruct s as [|b t]; [constructor|].
    rewrite runes_step. constructor.
    + apply decode_rune_valid.
    + pose proof (decode_rune_size b t). apply IH.
      rewrite skipn_length. cbn [List.length] in *. lia.
Qed.

Lemma encode_bytes rs : bytes_ok (encode rs).
Proof.
  unfold bytes_ok, encode. induction rs as [|r rs IH]; [constructor|].
  cbn [flat_map]. apply Forall_app. split; [apply encode_rune_bytes|exact IH].
Qed.

Lemma valid_utf8_encode rs : Forall (fun r => valid_rune r = true) rs -> valid_utf8 (encode rs).
Proof. intros H. exists rs. split; auto. Qed.

(** Writing any rune list yields valid UTF-8: invalid runes become U+FFFD. *)
Lemma encode_rune_fix r : encode_rune r = encode_rune (if valid_rune r then r else RuneError).
Proof. unfold encode_rune. destruct (valid_rune r) eqn:E; [now rewrite E|reflexivity]. Qed.

Lemma valid_utf8_nil : valid_utf8 []. Proof. exists []. split; [constructor|reflexivity]. Qed.

Lemma valid_utf8_app a b : valid_utf8 a -> valid_utf8 b -> valid_utf8 (a ++ b).
Proof.
  intros (ra & Ha & ->) (rb & Hb & ->). exists (ra ++ rb). split.
  - now apply Forall_app.
  - symmetry. apply encode_app.
Qed.

Lemma valid_utf8_encode_rune r : valid_utf8 (encode_rune r).
Proof.
  rewrite encode_rune_fix. exists [if valid_rune r then r else RuneError]. split.
  - constructor; [|constructor]. destruct (valid_rune r) eqn:E; [exact E|reflexivity].
  - cbn. now rewrite app_nil_r.
Qed.

Lemma encode_nil_iff rs : encode rs = [] <-> rs = [].
Proof.
  split; [|intros ->; reflexivity]. destruct rs as [|r rs]; [easy|].
  rewrite encode_cons. pose proof (encode_rune_len r). destruct (encode_rune r); cbn in *; [lia|discriminate].
Qed.

Lemma runes_nil_iff s : runes s = [] <-> s = [].
Proof. split; [|intros ->; reflexivity]. destruct s; [easy|]. rewrite runes_step. discriminate. Qed.

Lemma encode_inj a b :
  Forall (fun r => valid_rune r = true) a -> Forall (fun r => valid_rune r = true) b ->
  encode a = encode b -> a = b.
Proof. intros Ha Hb H. rewrite <- (runes_encode a Ha), <- (runes_encode b Hb). now rewrite H. Qed.

Lemma ascii_encode r : 0 <= r < 128 -> encode_rune r = [r].
Proof.
  intros H. unfold encode_rune. replace (valid_rune r) with true by (symmetry; apply valid_rune_spec; lia).
  replace (r <? 128) with true by lia. reflexivity.
Qed.

Lemma decode_first_runes s : s <> [] -> exists t, runes s = fst (decode_rune s) :: t.
Proof. destruct s as [|b s]; [easy|]. intros _. rewrite runes_step. eauto. Qed.
