(** Colour words as packed lists of codes; VimBatch; writers; the width cache. *)
From Verif Require Import Base Utf8 Moji Color WidthCache Writer SpecLib.

Fixpoint packv (cs : list Z) : Z := match cs with [] => 0 | c :: cs' => c + 256 * packv cs' end.
Definition pack (cs : list Z) : Z := zlen cs + 256 * packv cs.
Definition bytes (cs : list Z) : Prop := Forall (fun c => 0 <= c < 256) cs.

Lemma zlen1 {A} (x : A) : zlen [x] = 1. Proof. reflexivity. Qed.
Lemma packv_bound cs : bytes cs -> 0 <= packv cs < 256 ^ zlen cs.
Proof.
  induction 1 as [|c cs Hc _ IH]; [change (0 <= 0 < 1); lia|]. rewrite zlen_cons. cbn [packv].
  replace (zlen cs + 1) with (Z.succ (zlen cs)) by lia. rewrite Z.pow_succ_r by apply zlen_nonneg. lia.
Qed.
Lemma packv_snoc cs v : packv (cs ++ [v]) = packv cs + 256 ^ zlen cs * v.
Proof.
  induction cs as [|c cs IH]; [change (v + 256 * 0 = 0 + 1 * v); lia|]. cbn [app packv]. rewrite IH, zlen_cons.
  replace (zlen cs + 1) with (Z.succ (zlen cs)) by lia. rewrite Z.pow_succ_r by apply zlen_nonneg. lia.
Qed.

Lemma land_shiftl_small x y k : 0 <= k -> 0 <= y < 2 ^ k -> Z.land (Z.shiftl x k) y = 0.
Proof.
  intros Hk Hy. apply Z.bits_inj'. intros i Hi. rewrite Z.land_spec, Z.bits_0.
  destruct (Z_lt_dec i k) as [H|H].
  - rewrite Z.shiftl_spec_low by exact H. reflexivity.
  - destruct (Z.eq_dec y 0) as [->|Hy0]; [now rewrite Z.bits_0, andb_false_r|].
    assert (Hlog : Z.log2 y < i).
    { assert (Z.log2 y < k) by (apply Z.log2_lt_pow2; lia). lia. }
    rewrite (Z.bits_above_log2 y i) by lia.
    now rewrite andb_false_r.
Qed.
Lemma lor_shift x y k : 0 <= k -> 0 <= y < 2 ^ k -> Z.lor (Z.shiftl x k) y = x * 2 ^ k + y.
Proof.
  intros Hk Hy. pose proof (land_shiftl_small x y k Hk Hy) as H. rewrite <- Z.lxor_lor by exact H.
  rewrite <- Z.add_nocarry_lxor by exact H. rewrite Z.shiftl_mul_pow2 by exact Hk. reflexivity.
Qed.
Lemma land255 c : Z.land c 255 = c mod 256.
Proof. change 255 with (Z.ones 8). rewrite Z.land_ones by lia. reflexivity. Qed.
Lemma wrap64_small z : 0 <= z < 2 ^ 63 -> wrap64 z = z.
Proof. unfold wrap64. change (2 ^ 63) with 9223372036854775808. intros H. rewrite Z.mod_small; lia. Qed.

Lemma pack_mod cs : zlen cs < 256 -> Z.land (pack cs) 255 = zlen cs.
Proof.
  intros H. rewrite land255. unfold pack. rewrite Z.mul_comm, Z_mod_plus_full. apply Z.mod_small. split; [apply zlen_nonneg|exact H].
Qed.
Lemma pack_div cs : zlen cs < 256 -> pack cs / 256 = packv cs.
Proof.
  intros H. unfold pack. rewrite Z.mul_comm, Z_div_plus_full by lia. rewrite Z.div_small; [lia|]. split; [apply zlen_nonneg|exact H].
Qed.

Lemma pow256 n : 0 <= n -> 256 ^ n = 2 ^ (8 * n).
Proof. intros H. change 256 with (2 ^ 8). now rewrite <- Z.pow_mul_r by lia. Qed.

Lemma add_pack cs v : bytes cs -> 0 <= v < 256 -> (zlen cs <= 5 \/ zlen cs = 6 /\ v < 128) ->
  color_add (pack cs) v = pack (cs ++ [v]).
Proof.
  intros Hb Hv Hl. pose proof (zlen_nonneg cs) as Hn. pose proof (packv_bound cs Hb) as Hp. set (n := zlen cs) in *.
  assert (Hn6 : n < 256) by lia.
  assert (Hpw : 256 ^ (n + 1) = 256 * 256 ^ n) by (rewrite Z.add_1_r; apply Z.pow_succ_r; lia).
  unfold color_add, colorCodeMask, colorCodeBitSize. rewrite pack_mod by exact Hn6. fold n.
  assert (Hl0 : Z.ldiff (pack cs) 255 = Z.shiftl (packv cs) 8).
  { change 255 with (Z.ones 8). rewrite Z.ldiff_ones_r by lia. f_equal. rewrite Z.shiftr_div_pow2 by lia. now apply pack_div. }
  rewrite Hl0, (lor_shift (packv cs) (n + 1) 8) by lia. change (2 ^ 8) with 256.
  assert (Hlow : 0 <= packv cs * 256 + (n + 1) < 2 ^ (8 * (n + 1))).
  { rewrite <- pow256 by lia. rewrite Hpw. lia. }
  rewrite wrap64_small.
  - rewrite Z.lor_comm. replace ((n + 1) * 8) with (8 * (n + 1)) by lia. rewrite lor_shift by lia.
    unfold pack. rewrite packv_snoc, zlen_app, zlen1. fold n. rewrite <- pow256 by lia. rewrite Hpw. lia.
  - rewrite Z.shiftl_mul_pow2 by lia. replace ((n + 1) * 8) with (8 * (n + 1)) by lia. split; [apply Z.mul_nonneg_nonneg; [lia|apply Z.pow_nonneg; lia]|].
    destruct Hl as [Hl|[Hl Hv7]].
    + assert (2 ^ (8 * (n + 1)) <= 2 ^ 48) by (apply Z.pow_le_mono_r; lia). change (2 ^ 48) with 281474976710656 in *.
      change (2 ^ 63) with 9223372036854775808. assert (0 < 2 ^ (8 * (n + 1))) by (apply Z.pow_pos_nonneg; lia). nia.
    + rewrite Hl. change (2 ^ (8 * (6 + 1))) with 72057594037927936. change (2 ^ 63) with 9223372036854775808. lia.
Qed.

Lemma fits_prefix a b : fits_color (a ++ b) -> fits_color a.
Proof.
  intros [Hb Hl]. apply Forall_app in Hb as [Ha _]. split; [exact Ha|]. rewrite zlen_app in Hl. pose proof (zlen_nonneg b) as Hz.
  destruct Hl as [Hl|[Hl Hv]]; [left; lia|]. destruct b as [|x b]; [rewrite app_nil_r in Hv; right; unfold zlen in Hl at 2; cbn in Hl; lia|].
  rewrite zlen_cons in Hl. pose proof (zlen_nonneg b). left; lia.
Qed.
Lemma fits_snoc a v : fits_color (a ++ [v]) -> bytes a /\ 0 <= v < 256 /\ (zlen a <= 5 \/ zlen a = 6 /\ v < 128).
Proof.
  intros [Hb Hl]. apply Forall_app in Hb as [Ha Hv]. inversion Hv; subst. split; [exact Ha|]. split; [assumption|].
  rewrite zlen_app, zlen1, last_last in Hl. lia.
Qed.

Lemma build_from b : forall a, fits_color (a ++ b) -> fold_left color_add b (pack a) = pack (a ++ b).
Proof.
  induction b as [|v b IH]; intros a H; cbn [fold_left]; [now rewrite app_nil_r|].
  replace (a ++ v :: b) with ((a ++ [v]) ++ b) in * by (rewrite <- app_assoc; reflexivity).
  destruct (fits_snoc a v (fits_prefix _ _ H)) as (Ha & Hv & Hl). rewrite add_pack by assumption. now apply IH.
Qed.
Lemma build_pack cs : fits_color cs -> fold_left color_add cs 0 = pack cs.
Proof. intros H. change 0 with (pack []). now apply (build_from cs []). Qed.

Lemma chain_loop_eq ds : forall cs x, x / 256 = packv ds -> bytes ds ->
  color_chain_loop (List.length ds) cs x = fold_left color_add ds cs.
Proof.
  induction ds as [|d ds IH]; intros cs x Hx Hb; [reflexivity|]. inversion Hb as [|? ? Hd Hb']; subst.
  cbn [List.length color_chain_loop fold_left]. unfold colorCodeBitSize, colorCodeMask. rewrite Z.shiftr_div_pow2 by lia. change (2 ^ 8) with 256.
  rewrite Hx, land255. cbn [packv]. rewrite (Z.mul_comm 256), Z_mod_plus_full, Z.mod_small by lia.
  apply IH; [|exact Hb']. rewrite Z_div_plus_full by lia. rewrite Z.div_small by lia. lia.
Qed.
Lemma chain_pack cs ds : fits_color (cs ++ ds) -> fits_color ds -> color_chain (pack cs) (pack ds) = pack (cs ++ ds).
Proof.
  intros H Hd. unfold color_chain, colorCodeMask. assert (Hl : zlen ds < 256) by (destruct Hd as [_ Hd]; lia).
  rewrite pack_mod by exact Hl. rewrite to_nat_zlen. rewrite chain_loop_eq; [now apply build_from|now apply pack_div|apply Hd].
Qed.
Lemma fits_suffix a b : fits_color (a ++ b) -> fits_color b.
Proof.
  intros [Hb Hl]. apply Forall_app in Hb as [_ Hb]. split; [exact Hb|]. rewrite zlen_app in Hl. pose proof (zlen_nonneg a).
  destruct Hl as [Hl|[Hl Hv]]; [left; lia|]. destruct a as [|x a]; [right; auto|]. rewrite zlen_cons in Hl. pose proof (zlen_nonneg a). left; lia.
Qed.

(** ** Decimal notation *)
Lemma digits_snoc s d : digits_value (s ++ [d]) = 10 * digits_value s + (d - 48).
Proof. unfold digits_value. now rewrite fold_left_app. Qed.
Lemma dec_loop_ok f : forall c, 0 <= c < 10 ^ Z.of_nat (Datatypes.S f) -> decimal c (dec_loop (Datatypes.S f) c).
Proof.
  induction f as [|f IH]; intros c Hc.
  - change (10 ^ Z.of_nat 1) with 10 in Hc. cbn [dec_loop]. replace (9 <? c) with false by lia.
    rewrite Z.mod_small by lia. cbn [app]. split; [constructor; [unfold digit; lia|constructor]|]. split; [discriminate|]. split; [unfold digits_value; cbn [fold_left]; lia|].
    cbn [hd]. intros H. f_equal. exact H.
  - remember (Datatypes.S f) as g. cbn [dec_loop].
    assert (Hm : 0 <= c mod 10 < 10) by (apply Z.mod_pos_bound; lia). destruct (9 <? c) eqn:H9.
    + destruct (IH (c / 10)) as (H1 & H2 & H3 & H4).
      { split; [apply Z.div_pos; lia|]. apply Z.div_lt_upper_bound; [lia|]. rewrite <- Z.pow_succ_r by lia. now replace (Z.succ (Z.of_nat g)) with (Z.of_nat (Datatypes.S g)) by lia. }
      split; [apply Forall_app; split; [exact H1|]; constructor; [unfold digit; lia|constructor]|]. split; [intros H; now apply app_eq_nil in H|].
      split; [rewrite digits_snoc, H3; pose proof (Z.div_mod c 10); lia|].
      destruct (dec_loop g (c / 10)) as [|b t] eqn:Hd; [congruence|]. cbn [app hd]. intros Hb. cbn [hd] in H4. specialize (H4 Hb).
      injection H4 as -> ->. unfold digits_value in H3. cbn in H3. assert (0 < c / 10) by (apply Z.div_str_pos; lia). lia.
    + rewrite Z.mod_small by lia. cbn [app]. split; [constructor; [unfold digit; lia|constructor]|]. split; [discriminate|]. split; [unfold digits_value; cbn [fold_left]; lia|].
      cbn [hd]. intros H. f_equal. exact H.
Qed.
Lemma dec_ok c : 0 <= c < 256 -> decimal c (dec c).
Proof.
  intros H. unfold dec. replace (c <? 0) with false by lia. apply dec_loop_ok. split; [lia|].
  eapply Z.lt_le_trans; [apply H|]. apply Z.leb_le. vm_compute. reflexivity.
Qed.

(** ** Writing *)
Lemma write_loop_eq cs : forall c0 x, x / 256 = packv (c0 :: cs) -> bytes (c0 :: cs) ->
  exists ds, Forall2 decimal (c0 :: cs) ds /\ color_write_loop (Datatypes.S (List.length cs)) x = semicolons ds.
Proof.
  induction cs as [|c1 cs IH]; intros c0 x Hx Hb; inversion Hb as [|? ? Hc Hb']; subst.
  - exists [dec c0]. split; [repeat constructor; now apply dec_ok|]. cbn [color_write_loop List.length].
    unfold colorCodeBitSize, colorCodeMask. rewrite Z.shiftr_div_pow2 by lia. change (2 ^ 8) with 256. rewrite Hx, land255. cbn [packv].
    rewrite Z.mod_small by lia. rewrite app_nil_r. cbn [semicolons]. f_equal. lia.
  - set (y := x / 256).
    destruct (IH c1 y) as (ds & Hds & Hw).
    { subst y. rewrite Hx. cbn [packv]. rewrite (Z.mul_comm 256 (c1 + _)), Z_div_plus_full by lia. rewrite Z.div_small by lia. lia. }
    { exact Hb'. }
    exists (dec c0 :: ds). split; [constructor; [now apply dec_ok|exact Hds]|].
    remember (Datatypes.S (List.length cs)) as k eqn:Hk. change (List.length (c1 :: cs)) with (Datatypes.S (List.length cs)). rewrite <- Hk.
    cbn [color_write_loop]. unfold colorCodeBitSize, colorCodeMask. rewrite Z.shiftr_div_pow2 by lia. change (2 ^ 8) with 256. fold y.
    rewrite Hk in *. rewrite Hw. rewrite land255. unfold y at 1. rewrite Hx. cbn [packv].
    rewrite (Z.mul_comm 256 (c1 + _)), Z_mod_plus_full, Z.mod_small by lia.
    destruct ds as [|d ds]; [inversion Hds|]. reflexivity.
Qed.
Lemma write_pack cs : cs <> [] -> bytes cs -> zlen cs < 256 -> sgr_text cs (color_write (pack cs)).
Proof.
  intros Hne Hb Hl. destruct cs as [|c cs]; [congruence|]. unfold color_write.
  pose proof (packv_bound _ Hb) as Hp. assert (0 < pack (c :: cs)) by (unfold pack; rewrite zlen_cons in *; pose proof (zlen_nonneg cs); lia).
  replace (pack (c :: cs) <=? 0) with false by lia. unfold color_body, colorCodeMask. rewrite pack_mod by exact Hl. rewrite to_nat_zlen.
  cbn [List.length]. destruct (write_loop_eq cs c (pack (c :: cs)) (pack_div _ Hl) Hb) as (ds & Hds & Hw). exists ds. split; [exact Hds|].
  now rewrite Hw.
Qed.
Lemma fits_len cs : fits_color cs -> zlen cs < 256.
Proof. intros [_ H]. lia. Qed.

Lemma add_written cs : cs <> [] -> fits_color cs -> sgr_text cs (color_write (fold_left color_add cs 0)).
Proof. intros Hne H. rewrite build_pack by exact H. apply write_pack; [exact Hne|apply H|now apply fits_len]. Qed.
Lemma chain_written a b : a ++ b <> [] -> fits_color (a ++ b) ->
  sgr_text (a ++ b) (color_write (color_chain (fold_left color_add a 0) (fold_left color_add b 0))).
Proof.
  intros Hne H. rewrite (build_pack a) by now apply fits_prefix in H. rewrite (build_pack b) by now apply fits_suffix in H.
  rewrite chain_pack by (auto; now apply fits_suffix in H). apply write_pack; [exact Hne|apply H|now apply fits_len].
Qed.

Lemma wrap_shift v k : 0 <= v < 256 -> 0 <= k <= 32 -> wrap64 (Z.shiftl v k) = Z.shiftl v k.
Proof.
  intros Hv Hk. apply wrap64_small. rewrite Z.shiftl_mul_pow2 by lia.
  assert (0 < 2 ^ k <= 2 ^ 32) by (split; [apply Z.pow_pos_nonneg; lia|apply Z.pow_le_mono_r; lia]).
  change (2 ^ 32) with 4294967296 in *. change (2 ^ 63) with 9223372036854775808. nia.
Qed.
Lemma sgr1_pack a : 0 <= a < 256 -> SGR1 a = pack [a].
Proof. intros Ha. unfold SGR1. rewrite wrap_shift by lia. rewrite Z.lor_comm, lor_shift by lia. change (2 ^ 8) with 256. unfold pack. rewrite !zlen_cons, zlen_nil. cbn [packv]. lia. Qed.
Lemma lor_step x v k : 0 <= v < 256 -> 0 <= k <= 32 -> 0 <= x < 2 ^ k -> Z.lor x (wrap64 (Z.shiftl v k)) = x + v * 2 ^ k.
Proof. intros Hv Hk Hx. rewrite wrap_shift by lia. rewrite Z.lor_comm, lor_shift by lia. lia. Qed.
Lemma sgr2_pack a b : 0 <= a < 256 -> 0 <= b < 256 -> SGR2 a b = pack [a; b].
Proof.
  intros Ha Hb. unfold SGR2. rewrite (lor_step 2 a 8) by lia. change (2 ^ 8) with 256. rewrite (lor_step _ b 16) by (try change (2 ^ 16) with 65536; lia).
  change (2 ^ 16) with 65536. unfold pack. rewrite !zlen_cons, zlen_nil. cbn [packv]. lia.
Qed.
Lemma sgr3_pack a b c : 0 <= a < 256 -> 0 <= b < 256 -> 0 <= c < 256 -> SGR3 a b c = pack [a; b; c].
Proof.
  intros Ha Hb Hc. unfold SGR3. rewrite (lor_step 3 a 8) by lia. change (2 ^ 8) with 256. rewrite (lor_step _ b 16) by (try change (2 ^ 16) with 65536; lia).
  change (2 ^ 16) with 65536. rewrite (lor_step _ c 24) by (try change (2 ^ 24) with 16777216; lia). change (2 ^ 24) with 16777216.
  unfold pack. rewrite !zlen_cons, zlen_nil. cbn [packv]. lia.
Qed.
Lemma sgr4_pack a b c d : 0 <= a < 256 -> 0 <= b < 256 -> 0 <= c < 256 -> 0 <= d < 256 -> SGR4 a b c d = pack [a; b; c; d].
Proof.
  intros Ha Hb Hc Hd. unfold SGR4. rewrite (lor_step 4 a 8) by lia. change (2 ^ 8) with 256. rewrite (lor_step _ b 16) by (try change (2 ^ 16) with 65536; lia).
  change (2 ^ 16) with 65536. rewrite (lor_step _ c 24) by (try change (2 ^ 24) with 16777216; lia). change (2 ^ 24) with 16777216.
  rewrite (lor_step _ d 32) by (try change (2 ^ 32) with 4294967296; lia). change (2 ^ 32) with 4294967296.
  unfold pack. rewrite !zlen_cons, zlen_nil. cbn [packv]. lia.
Qed.
Lemma pack_written cs x : x = pack cs -> cs <> [] -> bytes cs -> zlen cs < 256 -> sgr_text cs (color_write x).
Proof. intros ->. apply write_pack. Qed.
Lemma sgr_written a b c d : 0 <= a < 256 -> 0 <= b < 256 -> 0 <= c < 256 -> 0 <= d < 256 ->
  sgr_text [a] (color_write (SGR1 a)) /\ sgr_text [a; b] (color_write (SGR2 a b)) /\
  sgr_text [a; b; c] (color_write (SGR3 a b c)) /\ sgr_text [a; b; c; d] (color_write (SGR4 a b c d)).
Proof.
  intros Ha Hb Hc Hd. repeat split; (eapply pack_written; [auto using sgr1_pack, sgr2_pack, sgr3_pack, sgr4_pack|discriminate| |]);
    unfold bytes; auto; unfold zlen; cbn; lia.
Qed.
Lemma bright_written i : 0 <= i < 226 -> sgr_text [30 + i; 49; 1] (color_write (bright i)).
Proof.
  intros Hi. replace (bright i) with (SGR3 (30 + i) 49 1); [apply (sgr_written (30 + i) 49 1 0); lia|].
  unfold SGR3, bright. now rewrite !wrap_shift by lia.
Qed.
Lemma dark_written i : 0 <= i < 226 -> sgr_text [30 + i; 22; 49] (color_write (dark i)).
Proof.
  intros Hi. replace (dark i) with (SGR3 (30 + i) 22 49); [apply (sgr_written (30 + i) 22 49 0); lia|].
  unfold SGR3, dark. now rewrite !wrap_shift by lia.
Qed.

(** ** VimBatch *)
Definition b2z (b : bool) : Z := if b then 1 else 0.
Definition odd_of (x : Z) (l : list Z) : bool := Nat.odd (occurrences x l).
Lemma vim_bits_eq past : vim_bits past = b2z (odd_of 37 past) + 2 * b2z (odd_of 34 past).
Proof.
  induction past as [|c past IH]; [reflexivity|]. cbn [vim_bits fold_right]. fold (vim_bits past). rewrite IH.
  unfold odd_of, occurrences. cbn [count_occ]. unfold vim_next. cbn [fst].
  destruct (c =? 37) eqn:H37; [apply Z.eqb_eq in H37; subst c|].
  - cbn. rewrite Nat.odd_succ, <- Nat.negb_odd. destruct (Nat.odd (count_occ Z.eq_dec past 37)), (Nat.odd (count_occ Z.eq_dec past 34)); reflexivity.
  - destruct (Z.eq_dec c 37) as [->|_]; [discriminate|]. destruct (c =? 34) eqn:H34; [apply Z.eqb_eq in H34; subst c|].
    + cbn. rewrite Nat.odd_succ, <- Nat.negb_odd. destruct (Nat.odd (count_occ Z.eq_dec past 37)), (Nat.odd (count_occ Z.eq_dec past 34)); reflexivity.
    + destruct (Z.eq_dec c 34) as [->|_]; [discriminate|]. reflexivity.
Qed.
Lemma occurrences_rev x l : occurrences x (rev l) = occurrences x l.
Proof.
  unfold occurrences. induction l as [|y l IH]; [reflexivity|]. cbn [rev]. rewrite count_occ_app, IH. cbn [count_occ].
  destruct (Z.eq_dec y x); cbn; lia.
Qed.
Lemma in_stretch_b mark a c : in_stretch mark a c <-> (c =? mark) || odd_of mark a = true.
Proof.
  unfold in_stretch, odd_of. rewrite orb_true_iff, Z.eqb_eq, Nat.odd_spec. reflexivity.
Qed.
Lemma vim_color_ok a c : exists codes, vim_codes a c codes /\ sgr_text codes (color_write (c_next VimBatch (rev a) c)).
Proof.
  cbn [VimBatch c_next]. rewrite vim_bits_eq. unfold odd_of. rewrite !occurrences_rev. change (Nat.odd (occurrences 37 a)) with (odd_of 37 a). change (Nat.odd (occurrences 34 a)) with (odd_of 34 a).
  unfold vim_next. cbn [snd]. unfold vim_codes. setoid_rewrite in_stretch_b.
  destruct (c =? 12288) eqn:H1; [apply Z.eqb_eq in H1; subst c|].
  { exists [37; 22; 41]. split; [auto|]. apply (sgr_written 37 22 41 0); lia. }
  assert (Hc1 : c <> 12288) by lia.
  destruct (c =? 37) eqn:H37.
  { exists [36; 49; 1]. split; [right; left; auto|]. replace (negb _) with true; [apply (bright_written 6); lia|].
    destruct (odd_of 37 a), (odd_of 34 a); reflexivity. }
  destruct (c =? 34) eqn:H34.
  { destruct (odd_of 37 a) eqn:O1.
    - exists [36; 49; 1]. split; [right; left; auto|]. replace (negb _) with true; [apply (bright_written 6); lia|].
      destruct (odd_of 34 a); reflexivity.
    - exists [35; 49; 1]. split.
      + right; right; left. split; [exact Hc1|]. split; [discriminate|]. split; reflexivity.
      + replace (negb (Z.land _ 1 =? 0)) with false by (destruct (odd_of 34 a); reflexivity).
        replace (negb (Z.land _ 2 =? 0)) with true by (destruct (odd_of 34 a); reflexivity). apply (bright_written 5); lia. }
  rewrite Z.lor_diag. cbn [orb].
  destruct (odd_of 37 a) eqn:O1.
  { exists [36; 49; 1]. split; [right; left; auto|]. replace (negb _) with true; [apply (bright_written 6); lia|].
    destruct (odd_of 34 a); reflexivity. }
  replace (negb (Z.land _ 1 =? 0)) with false by (destruct (odd_of 34 a); reflexivity).
  destruct (odd_of 34 a) eqn:O2.
  { exists [35; 49; 1]. split; [right; right; left; repeat split; auto; discriminate|]. apply (bright_written 5); lia. }
  cbn [b2z Z.mul Z.add Z.land negb Z.eqb]. destruct (c =? 38) eqn:H38.
  - exists [33; 22; 49]. split; [|apply (dark_written 3); lia]. right; right; right; left. repeat split; try discriminate. lia.
  - exists [39; 49; 1]. split; [|apply (bright_written 9); lia]. right; right; right; right. repeat split; try discriminate; lia.
Qed.

Fixpoint vim_state (bits : Z) (cs : list vcall) : Z :=
  match cs with [] => bits | c :: cs' => vim_state (fst (vim_call bits c)) cs' end.
Lemma vim_calls_app a : forall bits b, vim_calls bits (a ++ b) = vim_calls bits a ++ vim_calls (vim_state bits a) b.
Proof. induction a as [|c a IH]; intros bits b; cbn; [reflexivity|]. destruct (vim_call bits c) as [b' x]. cbn. now rewrite IH. Qed.
Lemma vim_calls_length a : forall bits, List.length (vim_calls bits a) = List.length a.
Proof. induction a as [|c a IH]; intros bits; cbn; [reflexivity|]. destruct (vim_call bits c). cbn. now rewrite IH. Qed.
Lemma vim_state_next a : forall past, vim_state (vim_bits past) (map VNext a) = vim_bits (rev a ++ past).
Proof.
  induction a as [|c a IH]; intros past; [reflexivity|]. cbn [map vim_state vim_call rev]. rewrite <- app_assoc. cbn [app].
  change (fst (vim_next (vim_bits past) c)) with (vim_bits (c :: past)). apply IH.
Qed.
Lemma vim_object bits h a c rest : exists x codes,
  nth (List.length h + 1 + List.length a) (vim_calls bits (h ++ VInit :: map VNext (a ++ c :: rest))) 0 = x /\
  vim_codes a c codes /\ sgr_text codes (color_write x).
Proof.
  destruct (vim_color_ok a c) as (codes & H1 & H2). exists (c_next VimBatch (rev a) c), codes. split; [|auto].
  rewrite vim_calls_app, app_nth2 by (rewrite vim_calls_length; lia). rewrite vim_calls_length.
  replace (List.length h + 1 + List.length a - List.length h)%nat with (Datatypes.S (List.length a)) by lia.
  cbn [vim_calls vim_call nth]. rewrite map_app, vim_calls_app, app_nth2 by (rewrite vim_calls_length, map_length; lia).
  rewrite vim_calls_length, map_length, Nat.sub_diag. cbn [map vim_calls vim_call].
  change 0 with (vim_bits []) at 1. rewrite vim_state_next, app_nil_r. destruct (vim_next (vim_bits (rev a)) c) eqn:E. cbn [nth VimBatch c_next].
  now rewrite E.
Qed.

(** ** Writers *)
Lemma w_write_ok b s n e s' : w_write b s = (n, e, s') -> exists t, got s' = got s ++ t /\ n = zlen t /\
  (e = false -> t = b) /\ (exists t', b = t ++ t') /\ (e = true -> zlen t < zlen b).
Proof.
  unfold w_write. destruct (answers s) as [|a ans]; intros H.
  - injection H as <- <- <-. exists b. cbn. repeat split; auto; try discriminate. exists []. now rewrite app_nil_r.
  - injection H as <- <- <-. exists (firstn a b). cbn. split; [reflexivity|]. split; [reflexivity|].
    pose proof (firstn_skipn a b) as Hs. split; [|split; [now exists (skipn a b)|]].
    + intros He. apply negb_false_iff, Z.eqb_eq in He.
      assert (skipn a b = []) as Hk. { apply zlen_0. rewrite <- Hs in He at 2. rewrite zlen_app in He. lia. }
      now rewrite <- Hs at 2; rewrite Hk, app_nil_r.
    + intros He. apply negb_true_iff, Z.eqb_neq in He. rewrite <- Hs in He at 2. rewrite <- Hs at 2.
      rewrite zlen_app in *. pose proof (zlen_nonneg (skipn a b)). lia.
Qed.
Definition io_ok (full : str) (s : wst) (n : Z) (e : bool) (s' : wst) : Prop :=
  exists t, got s' = got s ++ t /\ n = zlen t /\ (exists t', full = t ++ t') /\ (e = false -> t = full) /\ (e = true -> zlen t < zlen full).
Lemma io_write b s n e s' : w_write b s = (n, e, s') -> io_ok b s n e s'.
Proof. intros H. apply w_write_ok in H as (t & H1 & H2 & H3 & H4 & H5). exists t. auto. Qed.
Lemma io_seq f1 f2 s n1 e1 s1 n2 e2 s2 : io_ok f1 s n1 e1 s1 ->
  (e1 = true -> n2 = 0 /\ e2 = true /\ s2 = s1) -> (e1 = false -> io_ok f2 s1 n2 e2 s2) -> io_ok (f1 ++ f2) s (n1 + n2) e2 s2.
Proof.
  intros (t1 & H1 & H2 & (r1 & H3) & H4 & H5) He Hk. destruct e1.
  - destruct (He eq_refl) as (-> & -> & ->). exists t1. split; [exact H1|]. split; [lia|]. split; [exists (r1 ++ f2); now rewrite H3, <- app_assoc|].
    split; [discriminate|]. intros _. specialize (H5 eq_refl). rewrite zlen_app. pose proof (zlen_nonneg f2). lia.
  - destruct (Hk eq_refl) as (t2 & K1 & K2 & (r2 & K3) & K4 & K5). rewrite (H4 eq_refl) in *. exists (f1 ++ t2).
    split; [rewrite K1, H1, app_assoc; reflexivity|]. split; [rewrite zlen_app; lia|]. split; [exists r2; now rewrite K3, <- app_assoc|].
    split; [intros Hx; now rewrite (K4 Hx)|]. intros Hx. specialize (K5 Hx). rewrite !zlen_app. lia.
Qed.
Lemma io_fail f1 f2 s n s1 : io_ok f1 s n true s1 -> io_ok (f1 ++ f2) s n true s1.
Proof.
  intros H. replace n with (n + 0) by lia. eapply io_seq; [exact H|auto|discriminate].
Qed.
Lemma io_then f1 f2 s n1 s1 n2 e2 s2 : io_ok f1 s n1 false s1 -> io_ok f2 s1 n2 e2 s2 -> io_ok (f1 ++ f2) s (n1 + n2) e2 s2.
Proof. intros H1 H2. eapply io_seq; [exact H1|discriminate|auto]. Qed.
Lemma moji_io m : forall s n e s', moji_WriteTo m s = (n, e, s') -> io_ok (write m) s n e s'.
Proof.
  induction m; intros s n e s' H; cbn [moji_WriteTo write] in *; try (now apply io_write).
  - destruct (moji_WriteTo m1 s) as [[n1 e1] s1] eqn:H1. apply IHm1 in H1. destruct e1.
    { injection H as <- <- <-. now apply io_fail. }
    destruct (w_write (encode_rune zeroWidthJoinRune) s1) as [[n2 e2] s2] eqn:H2. apply io_write in H2. destruct e2.
    { injection H as <- <- <-. rewrite app_assoc. apply io_fail. eapply io_then; eauto. }
    destruct (moji_WriteTo m2 s2) as [[n3 e3] s3] eqn:H3. apply IHm2 in H3. injection H as <- <- <-.
    rewrite app_assoc. eapply io_then; [|exact H3]. eapply io_then; eauto.
  - destruct (moji_WriteTo m1 s) as [[n1 e1] s1] eqn:H1. apply IHm1 in H1. destruct e1.
    { injection H as <- <- <-. now apply io_fail. }
    destruct (moji_WriteTo m2 s1) as [[n3 e3] s3] eqn:H3. apply IHm2 in H3. injection H as <- <- <-. eapply io_then; eauto.
  - destruct (moji_WriteTo m1 s) as [[n1 e1] s1] eqn:H1. apply IHm1 in H1. destruct e1.
    { injection H as <- <- <-. now apply io_fail. }
    destruct (moji_WriteTo m2 s1) as [[n3 e3] s3] eqn:H3. apply IHm2 in H3. injection H as <- <- <-. eapply io_then; eauto.
Qed.
(** The count of a colour leaves out the two bytes of the introducer. *)
Lemma color_loop_count k : forall c n s n' s', color_WriteTo_loop k c n s = (n', s') ->
  exists t, got s' = got s ++ t /\ n' = n + zlen t.
Proof.
  assert (G : forall k, (forall j, (j < k)%nat -> forall c n s n' s', color_WriteTo_loop j c n s = (n', s') -> exists t, got s' = got s ++ t /\ n' = n + zlen t) ->
     forall c n s n' s', color_WriteTo_loop k c n s = (n', s') -> exists t, got s' = got s ++ t /\ n' = n + zlen t).
  { intros j IH c n s n' s' H. destruct j as [|[|j]]; cbn [color_WriteTo_loop] in H.
    - destruct (w_write _ s) as [[n1 e1] s1] eqn:H1. apply w_write_ok in H1 as (t1 & A1 & A2 & _).
      exists t1. destruct e1; injection H as <- <-; split; auto; lia.
    - destruct (w_write _ s) as [[n1 e1] s1] eqn:H1. apply w_write_ok in H1 as (t1 & A1 & A2 & _).
      exists t1. destruct e1; injection H as <- <-; split; auto; lia.
    - destruct (w_write _ s) as [[n1 e1] s1] eqn:H1. apply w_write_ok in H1 as (t1 & A1 & A2 & _).
      destruct e1; [injection H as <- <-; exists t1; split; auto; lia|].
      destruct (w_write [59] s1) as [[n2 e2] s2] eqn:H2. apply w_write_ok in H2 as (t2 & B1 & B2 & _).
      destruct e2; [injection H as <- <-; exists (t1 ++ t2); split; [rewrite B1, A1, app_assoc; reflexivity|rewrite zlen_app; lia]|].
      change (color_WriteTo_loop (Datatypes.S j) (Z.shiftr c colorCodeBitSize) (n + n1 + n2) s2 = (n', s')) in H.
      apply IH in H as (t3 & C1 & C2); [|lia]. exists ((t1 ++ t2) ++ t3). split; [rewrite C1, B1, A1, !app_assoc; reflexivity|rewrite !zlen_app; lia]. }
  induction k as [k IH] using lt_wf_ind. apply G. exact IH.
Qed.
Lemma color_count c s n e s' : color_WriteTo c s = (n, e, s') ->
  exists t1 t2, got s' = got s ++ t1 ++ t2 /\ n = zlen t2 /\ zlen t1 <= 2 /\ (answers s = [] -> 0 < c -> t1 = [27; 91]).
Proof.
  unfold color_WriteTo. destruct (c <=? 0) eqn:Hc; intros H.
  - injection H as <- _ <-. exists [], []. rewrite !app_nil_r. cbn. split; [reflexivity|]. split; [reflexivity|]. split; [unfold zlen; cbn; lia|]. lia.
  - destruct (w_write [27; 91] s) as [[n0 e0] s0] eqn:H0.
    assert (Ha0 : answers s = [] -> got s0 = got s ++ [27; 91]).
    { intros Ha. unfold w_write in H0. rewrite Ha in H0. injection H0 as _ _ <-. reflexivity. }
    apply w_write_ok in H0 as (t0 & A1 & A2 & _ & (t0' & A3) & _).
    destruct (color_WriteTo_loop _ _ _ _) as [n1 s1] eqn:H1. apply color_loop_count in H1 as (t1 & B1 & B2).
    destruct (w_write [109] s1) as [[n3 e3] s3] eqn:H3. apply w_write_ok in H3 as (t3 & C1 & C2 & _). injection H as <- <- <-.
    exists t0, (t1 ++ t3). split; [rewrite C1, B1, A1, !app_assoc; reflexivity|]. split; [rewrite zlen_app; lia|]. split.
    + change 2 with (zlen [27; 91]). rewrite A3, zlen_app. pose proof (zlen_nonneg t0'). lia.
    + intros Ha _. specialize (Ha0 Ha). rewrite A1 in Ha0. now apply app_inv_head in Ha0.
Qed.

(** A writer that accepts everything gets the whole sequence. *)
Lemma color_loop_full k : forall c n s, answers s = [] ->
  color_WriteTo_loop k c n s = (n + zlen (color_write_loop k c), mkWst [] (got s ++ color_write_loop k c)).
Proof.
  assert (W : forall b s, answers s = [] -> w_write b s = (zlen b, false, mkWst [] (got s ++ b))) by (intros b s H; unfold w_write; now rewrite H).
  induction k as [|k IH]; intros c n s Hs.
  - cbn [color_WriteTo_loop color_write_loop]. rewrite W by exact Hs. now rewrite app_nil_r.
  - destruct k as [|k]; [cbn [color_WriteTo_loop color_write_loop]; rewrite W by exact Hs; now rewrite app_nil_r|].
    assert (E1 : color_write_loop (Datatypes.S (Datatypes.S k)) c =
      dec (Z.land (Z.shiftr c colorCodeBitSize) colorCodeMask) ++ [59] ++ color_write_loop (Datatypes.S k) (Z.shiftr c colorCodeBitSize)) by reflexivity.
    assert (E2 : color_WriteTo_loop (Datatypes.S (Datatypes.S k)) c n s =
      let '(n1, e1, s1) := w_write (dec (Z.land (Z.shiftr c colorCodeBitSize) colorCodeMask)) s in
      if e1 then (n + n1, s1)
      else let '(n2, e2, s2) := w_write [59] s1 in
           if e2 then (n + n1 + n2, s2) else color_WriteTo_loop (Datatypes.S k) (Z.shiftr c colorCodeBitSize) (n + n1 + n2) s2) by reflexivity.
    rewrite E1, E2, W by exact Hs. rewrite W by reflexivity. rewrite IH by reflexivity. cbn [got]. rewrite !zlen_app, <- !app_assoc.
    f_equal. lia.
Qed.
Lemma color_full c s : answers s = [] ->
  exists n, color_WriteTo c s = (n, false, mkWst [] (got s ++ color_write c)) /\
  n = (if c <=? 0 then 0 else zlen (color_write c) - 2).
Proof.
  intros Hs. unfold color_WriteTo, color_write. destruct (c <=? 0).
  - exists 0. split; [|reflexivity]. rewrite app_nil_r. destruct s as [x y]. cbn in *. now subst x.
  - eexists. split.
    + unfold w_write at 1. rewrite Hs. rewrite color_loop_full by reflexivity. unfold w_write. cbn [answers got].
      unfold color_body. rewrite <- !app_assoc. reflexivity.
    + unfold color_body. rewrite !zlen_app. change (zlen [27; 91]) with 2. lia.
Qed.

(** ** The width cache *)
Section Widths.
Variable rw0 : Z -> Z.
Definition effective (m : wcache) (r : Z) : Z := match aget Z.eqb m r with Some w => w | None => rw0 r end.
Fixpoint wstate (m : wcache) (os : list wop) : wcache := match os with [] => m | o :: os' => wstate (snd (wstep rw0 m o)) os' end.
Lemma wstep_get m r r' : effective (snd (wstep rw0 m (WGet r))) r' = effective m r'.
Proof.
  cbn [wstep]. unfold getWidth. destruct (aget Z.eqb m r) as [w|] eqn:Hg; cbn [snd]; [reflexivity|].
  unfold effective. destruct (Z.eq_dec r r') as [->|Hn].
  - rewrite (aget_aset_same Z.eqb Z.eqb_eq). now rewrite Hg.
  - now rewrite (aget_aset_other Z.eqb Z.eqb_eq).
Qed.
Lemma wstate_app a : forall m b, wstate m (a ++ b) = wstate (wstate m a) b.
Proof. induction a as [|o a IH]; intros m b; cbn; auto. Qed.
Lemma effective_ok os r : (exists w, width_set os r w /\ effective (wstate [] os) r = w) \/
  ((forall w, ~ width_set os r w) /\ effective (wstate [] os) r = rw0 r).
Proof.
  induction os as [|o os IH] using rev_ind.
  - right. split; [|reflexivity]. intros w (a & b & H & _). destruct a; discriminate.
  - rewrite wstate_app. cbn [wstate]. set (m := wstate [] os) in *.
    assert (Hnot : forall w, o <> WReset -> (forall w', o <> WSet r w') -> width_set (os ++ [o]) r w -> width_set os r w).
    { intros w H1 H2 (a & b & H & Hr & Hs). destruct b as [|x b _] using rev_ind.
      - replace (a ++ [WSet r w]) with (a ++ [WSet r w]) in H by reflexivity. apply app_inj_tail in H as [_ H]. exfalso. exact (H2 w H).
      - rewrite app_comm_cons, app_assoc in H. apply app_inj_tail in H as [H ->]. exists a, b. split; [exact H|].
        split; [intros Hx; apply Hr; apply in_or_app; auto|]. intros w' Hx. apply (Hs w'). apply in_or_app; auto. }
    assert (Hyes : forall w, o <> WReset -> (forall w', o <> WSet r w') -> width_set os r w -> width_set (os ++ [o]) r w).
    { intros w H1 H2 (a & b & -> & Hr & Hs). exists a, (b ++ [o]). split; [now rewrite <- app_assoc|].
      split; [intros Hx; apply in_app_or in Hx as [Hx|[Hx|[]]]; auto|].
      intros w' Hx. apply in_app_or in Hx as [Hx|[Hx|[]]]; [exact (Hs w' Hx)|exact (H2 w' Hx)]. }
    assert (Hsame : o <> WReset -> (forall w', o <> WSet r w') -> effective (snd (wstep rw0 m o)) r = effective m r ->
      (exists w, width_set (os ++ [o]) r w /\ effective (snd (wstep rw0 m o)) r = w) \/
      ((forall w, ~ width_set (os ++ [o]) r w) /\ effective (snd (wstep rw0 m o)) r = rw0 r)).
    { intros H1 H2 He. rewrite He. destruct IH as [(w & Hw & Hx)|[Hw Hx]].
      - left. exists w. auto.
      - right. split; [|exact Hx]. intros w Hq. apply (Hw w). auto. }
    destruct o as [c w| |r0].
    + destruct (Z.eq_dec c r) as [->|Hn].
      * left. exists w. split; [exists os, []; split; [reflexivity|]; split; [intros []|intros ? []]|].
        cbn [wstep snd]. unfold SetCharWidth, effective. now rewrite (aget_aset_same Z.eqb Z.eqb_eq).
      * apply Hsame; [discriminate|intros w' [= H]; congruence|]. cbn [wstep snd]. unfold SetCharWidth, effective.
        now rewrite (aget_aset_other Z.eqb Z.eqb_eq).
    + right. split; [|reflexivity]. intros w (a & b & H & Hr & _). destruct b as [|x b _] using rev_ind.
      * apply app_inj_tail in H as [_ H]. discriminate.
      * rewrite app_comm_cons, app_assoc in H. apply app_inj_tail in H as [_ H]. subst x. apply Hr. apply in_or_app. right. left. reflexivity.
    + apply Hsame; [discriminate|discriminate|]. apply wstep_get.
Qed.
Lemma wrun_from_app a : forall m b, wrun_from rw0 m (a ++ b) = wrun_from rw0 m a ++ wrun_from rw0 (wstate m a) b.
Proof. induction a as [|o a IH]; intros m b; cbn; [reflexivity|]. destruct (wstep rw0 m o) as [x m']. cbn. now rewrite IH. Qed.
Lemma wrun_from_length a : forall m, List.length (wrun_from rw0 m a) = List.length a.
Proof. induction a as [|o a IH]; intros m; cbn; [reflexivity|]. destruct (wstep rw0 m o). cbn. now rewrite IH. Qed.
Lemma width_query os r os' : exists w, nth (List.length os) (wrun rw0 (os ++ WGet r :: os')) None = Some w /\
  (width_set os r w \/ ((forall w', ~ width_set os r w') /\ w = rw0 r)).
Proof.
  unfold wrun. rewrite wrun_from_app, app_nth2 by (rewrite wrun_from_length; lia). rewrite wrun_from_length, Nat.sub_diag.
  cbn [wrun_from]. destruct (wstep rw0 (wstate [] os) (WGet r)) as [x m'] eqn:Hx. cbn [nth].
  exists (effective (wstate [] os) r). split.
  - cbn [wstep] in Hx. unfold getWidth in Hx. unfold effective. destruct (aget Z.eqb (wstate [] os) r); now injection Hx as <- _.
  - destruct (effective_ok os r) as [(w & Hw & He)|[Hw He]]; rewrite He; auto.
Qed.
End Widths.
