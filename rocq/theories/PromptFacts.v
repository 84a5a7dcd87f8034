(** The width of prompts. *)
From Verif Require Import Base Utf8 Moji Color Prompt Buffer Commands KeyMap Session Spec SpecLib.
From Verif Require TextFacts.

Lemma rune_start_lo b : b < 128 -> rune_start b = true.
Proof. unfold rune_start, is_cont, in_range. lia. Qed.
Lemma index_back {A} (p q : list A) x k : zlen q + 1 = k -> index (p ++ x :: q) (zlen (p ++ x :: q) - k) = Some x.
Proof.
  intros <-. rewrite zlen_app, zlen_cons. replace (zlen p + (zlen q + 1) - (zlen q + 1)) with (zlen p) by lia. apply index_app_mid.
Qed.
Lemma skipn_back {A} (p q : list A) : skipn (Z.to_nat (zlen (p ++ q) - zlen q)) (p ++ q) = q.
Proof. rewrite zlen_app. replace (zlen p + zlen q - zlen q) with (zlen p) by lia. apply skipn_zlen_app. Qed.

Lemma decode_last p r : valid_rune r = true ->
  decode_last_rune (p ++ encode_rune r) = (r, List.length (encode_rune r)).
Proof.
  intros Hv. pose proof (decode_encode r [] Hv) as Hd. rewrite app_nil_r in Hd.
  pose proof (skipn_back p (encode_rune r)) as Hk. pose proof (zlen_nonneg p) as Hp.
  unfold encode_rune in *. rewrite Hv in *. apply valid_rune_spec in Hv.
  assert (R : decode_last_rune [] = (RuneError, 0%nat)) by reflexivity.
  destruct (r <? 128) eqn:E1.
  { unfold decode_last_rune. destruct (p ++ [r]) as [|x l] eqn:Hl; [destruct p; discriminate|]. rewrite <- Hl.
    rewrite index_back by reflexivity. now rewrite E1. }
  assert (M : forall a, 0 <= a mod 64 < 64) by (intros a; apply Z.mod_pos_bound; lia).
  assert (D1 : 0 <= r / 64) by (apply Z.div_pos; lia). assert (D2 : 0 <= r / 4096) by (apply Z.div_pos; lia). assert (D3 : 0 <= r / 262144) by (apply Z.div_pos; lia).
  assert (C : forall a, is_cont (128 + a mod 64) = true) by (intros a; unfold is_cont, in_range; specialize (M a); lia).
  destruct (r <? 2048) eqn:E2; [|destruct (r <? 65536) eqn:E3].
  - set (b0 := 192 + r / 64) in *. set (b1 := 128 + r mod 64) in *.
    unfold decode_last_rune. destruct (p ++ [b0; b1]) as [|x l] eqn:Hl; [destruct p; discriminate|]. rewrite <- Hl in *. clear x l Hl.
    replace (index (p ++ [b0; b1]) (zlen (p ++ [b0; b1]) - 1)) with (Some b1) by (symmetry; change (p ++ [b0; b1]) with (p ++ [b0] ++ [b1]); rewrite app_assoc; apply (index_back (p ++ [b0]) [] b1 1); reflexivity).
    replace (b1 <? 128) with false by (specialize (M r); lia).
    assert (S0 : last_start (p ++ [b0; b1]) (zlen (p ++ [b0; b1]) - 2) 3 = zlen p).
    { cbn [last_start]. rewrite (index_back p [b1] b0 2) by reflexivity. replace (rune_start b0) with true by (unfold rune_start, is_cont, in_range; lia).
      rewrite zlen_app, !zlen_cons, zlen_nil. replace (_ <? 0) with false by lia. lia. }
    rewrite S0. rewrite Z.max_r by lia. replace (zlen p) with (zlen (p ++ [b0; b1]) - zlen [b0; b1]) by (rewrite zlen_app; lia). rewrite Hk, Hd.
    cbn [List.length]. rewrite zlen_app. change (zlen [b0; b1]) with 2. replace (_ =? _) with true by lia. reflexivity.
  - set (b0 := 224 + r / 4096) in *. set (b1 := 128 + (r / 64) mod 64) in *. set (b2 := 128 + r mod 64) in *.
    unfold decode_last_rune. destruct (p ++ [b0; b1; b2]) as [|x l] eqn:Hl; [destruct p; discriminate|]. rewrite <- Hl in *. clear x l Hl.
    replace (index (p ++ [b0; b1; b2]) (zlen (p ++ [b0; b1; b2]) - 1)) with (Some b2) by (symmetry; change (p ++ [b0; b1; b2]) with (p ++ [b0; b1] ++ [b2]); rewrite app_assoc; apply (index_back (p ++ [b0; b1]) [] b2 1); reflexivity).
    replace (b2 <? 128) with false by (specialize (M r); lia).
    assert (S0 : last_start (p ++ [b0; b1; b2]) (zlen (p ++ [b0; b1; b2]) - 2) 3 = zlen p).
    { cbn [last_start].
      replace (index (p ++ [b0; b1; b2]) (zlen (p ++ [b0; b1; b2]) - 2)) with (Some b1) by (symmetry; change (p ++ [b0; b1; b2]) with (p ++ [b0] ++ [b1; b2]); rewrite app_assoc; apply (index_back (p ++ [b0]) [b2] b1 2); reflexivity).
      replace (rune_start b1) with false by (unfold rune_start, b1; now rewrite C).
      replace (zlen (p ++ [b0; b1; b2]) - 2 - 1) with (zlen (p ++ [b0; b1; b2]) - 3) by lia.
      rewrite (index_back p [b1; b2] b0 3) by reflexivity. replace (rune_start b0) with true by (unfold rune_start, is_cont, in_range; lia).
      rewrite zlen_app, !zlen_cons, zlen_nil. replace (_ <? 0) with false by lia. replace (_ <? 0) with false by lia. lia. }
    rewrite S0. rewrite Z.max_r by lia. replace (zlen p) with (zlen (p ++ [b0; b1; b2]) - zlen [b0; b1; b2]) by (rewrite zlen_app; lia). rewrite Hk, Hd.
    cbn [List.length]. rewrite zlen_app. change (zlen [b0; b1; b2]) with 3. replace (_ =? _) with true by lia. reflexivity.
  - set (b0 := 240 + r / 262144) in *. set (b1 := 128 + (r / 4096) mod 64) in *. set (b2 := 128 + (r / 64) mod 64) in *. set (b3 := 128 + r mod 64) in *.
    unfold decode_last_rune. destruct (p ++ [b0; b1; b2; b3]) as [|x l] eqn:Hl; [destruct p; discriminate|]. rewrite <- Hl in *. clear x l Hl.
    replace (index (p ++ [b0; b1; b2; b3]) (zlen (p ++ [b0; b1; b2; b3]) - 1)) with (Some b3) by (symmetry; change (p ++ [b0; b1; b2; b3]) with (p ++ [b0; b1; b2] ++ [b3]); rewrite app_assoc; apply (index_back (p ++ [b0; b1; b2]) [] b3 1); reflexivity).
    replace (b3 <? 128) with false by (specialize (M r); lia).
    assert (S0 : last_start (p ++ [b0; b1; b2; b3]) (zlen (p ++ [b0; b1; b2; b3]) - 2) 3 = zlen p).
    { cbn [last_start].
      replace (index (p ++ [b0; b1; b2; b3]) (zlen (p ++ [b0; b1; b2; b3]) - 2)) with (Some b2) by (symmetry; change (p ++ [b0; b1; b2; b3]) with (p ++ [b0; b1] ++ [b2; b3]); rewrite app_assoc; apply (index_back (p ++ [b0; b1]) [b3] b2 2); reflexivity).
      replace (rune_start b2) with false by (unfold rune_start, b2; now rewrite C).
      replace (zlen (p ++ [b0; b1; b2; b3]) - 2 - 1) with (zlen (p ++ [b0; b1; b2; b3]) - 3) by lia.
      replace (index (p ++ [b0; b1; b2; b3]) (zlen (p ++ [b0; b1; b2; b3]) - 3)) with (Some b1) by (symmetry; change (p ++ [b0; b1; b2; b3]) with (p ++ [b0] ++ [b1; b2; b3]); rewrite app_assoc; apply (index_back (p ++ [b0]) [b2; b3] b1 3); reflexivity).
      replace (rune_start b1) with false by (unfold rune_start, b1; now rewrite C).
      replace (zlen (p ++ [b0; b1; b2; b3]) - 3 - 1) with (zlen (p ++ [b0; b1; b2; b3]) - 4) by lia.
      rewrite (index_back p [b1; b2; b3] b0 4) by reflexivity. replace (rune_start b0) with true by (unfold rune_start, is_cont, in_range; lia).
      rewrite zlen_app, !zlen_cons, zlen_nil. replace (_ <? 0) with false by lia. replace (_ <? 0) with false by lia. replace (_ <? 0) with false by lia. lia. }
    rewrite S0. rewrite Z.max_r by lia. replace (zlen p) with (zlen (p ++ [b0; b1; b2; b3]) - zlen [b0; b1; b2; b3]) by (rewrite zlen_app; lia). rewrite Hk, Hd.
    cbn [List.length]. rewrite zlen_app. change (zlen [b0; b1; b2; b3]) with 4. replace (_ =? _) with true by lia. reflexivity.
Qed.

Definition plain_byte (x : Z) : Prop := x <> 13 /\ x <> 10 /\ x <> 27 /\ x <> 8.
Lemma cut_plain l : forall s b, Forall plain_byte l -> cut_loop (l ++ s) b false false = cut_loop s (b ++ l) false false.
Proof.
  induction l as [|x l IH]; intros s b H; [now rewrite app_nil_r|]. inversion H as [|? ? (H1 & H2 & H3 & H4) Hl]; subst. cbn [app cut_loop].
  replace ((x =? 13) || (x =? 10)) with false by lia. replace (x =? 27) with false by lia. replace (x =? 8) with false by lia.
  rewrite IH by exact Hl. now rewrite <- app_assoc.
Qed.
Lemma encode_plain c : valid_rune c = true -> ~ In c [8; 10; 13; 27; 65533] -> Forall plain_byte (encode_rune c).
Proof.
  intros Hv Hn. unfold encode_rune. rewrite Hv. apply valid_rune_spec in Hv. unfold plain_byte.
  assert (M : forall a, 0 <= a mod 64 < 64) by (intros a; apply Z.mod_pos_bound; lia).
  assert (D1 : 0 <= c / 64) by (apply Z.div_pos; lia). assert (D2 : 0 <= c / 4096) by (apply Z.div_pos; lia). assert (D3 : 0 <= c / 262144) by (apply Z.div_pos; lia).
  destruct (c <? 128); [constructor; [|constructor]; cbn in Hn; lia|].
  pose proof (M c). pose proof (M (c / 64)). pose proof (M (c / 4096)).
  destruct (c <? 2048); [|destruct (c <? 65536)]; repeat (apply Forall_cons; [lia|]); constructor.
Qed.
Lemma cut_csi body final : forall s b, Forall (fun x => ~ letter x /\ ~ In x [10; 13; 27; 93]) body -> letter final ->
  cut_loop (body ++ final :: s) b true false = cut_loop s b false false.
Proof.
  induction body as [|x body IH]; intros s b H Hf; unfold letter in *.
  - cbn [app cut_loop]. replace ((final =? 13) || (final =? 10)) with false by lia. replace (final =? 27) with false by lia. replace (final =? 93) with false by lia.
    replace (in_range final 65 90 || in_range final 97 122) with true by (unfold in_range; lia). reflexivity.
  - inversion H as [|? ? (H1 & H2) Hl]; subst. cbn [app cut_loop]. cbn in H2.
    replace ((x =? 13) || (x =? 10)) with false by lia. replace (x =? 27) with false by lia. replace (x =? 93) with false by lia.
    replace (in_range x 65 90 || in_range x 97 122) with false by (unfold in_range; lia). now apply IH.
Qed.
Lemma cut_title body : forall s b, Forall (fun x => ~ In x [7; 10; 13; 27]) body ->
  cut_loop (body ++ 7 :: s) b true true = cut_loop s b false false.
Proof.
  induction body as [|x body IH]; intros s b H; [reflexivity|]. inversion H as [|? ? H1 Hl]; subst. cbn [app cut_loop]. cbn in H1.
  replace ((x =? 13) || (x =? 10)) with false by lia. replace (x =? 27) with false by lia. replace (x =? 7) with false by lia. now apply IH.
Qed.
Definition seen_ok (seen : list Z) : Prop := Forall (fun c => valid_rune c = true /\ c <> 65533) seen.
Lemma cut_pieces ps : forall seen, seen_ok seen -> Forall piece_ok ps ->
  cut_loop (flat_map piece_bytes ps) (encode seen) false false = encode (fold_left see ps seen).
Proof.
  induction ps as [|p ps IH]; intros seen Hs H; [reflexivity|]. inversion H as [|? ? Hp Hl]; subst. cbn [flat_map fold_left].
  destruct p as [c|body final|body|b|]; cbn [piece_ok] in Hp; cbn [piece_bytes see].
  - destruct Hp as [Hv Hn]. replace (encode [c]) with (encode_rune c) by (cbn; now rewrite app_nil_r).
    rewrite cut_plain by now apply encode_plain. rewrite <- IH; auto.
    + f_equal. rewrite encode_app. cbn. now rewrite app_nil_r.
    + unfold seen_ok. apply Forall_app. split; [exact Hs|]. constructor; [|constructor]. split; [exact Hv|]. intros ->. apply Hn. cbn. tauto.
  - destruct Hp as [Hb Hf]. rewrite <- app_assoc. change ([27; 91] ++ (body ++ [final]) ++ flat_map piece_bytes ps) with (27 :: 91 :: (body ++ [final]) ++ flat_map piece_bytes ps).
    cbn [cut_loop Z.eqb Pos.eqb orb in_range Z.leb Z.compare Pos.compare Pos.compare_cont andb]. rewrite <- app_assoc. cbn [app]. rewrite cut_csi by assumption. now apply IH.
  - rewrite <- app_assoc. change ([27; 93] ++ (body ++ [7]) ++ flat_map piece_bytes ps) with (27 :: 93 :: (body ++ [7]) ++ flat_map piece_bytes ps).
    cbn [cut_loop Z.eqb Pos.eqb orb]. rewrite <- app_assoc. cbn [app]. rewrite cut_title by assumption. now apply IH.
  - cbn [app cut_loop]. replace ((b =? 13) || (b =? 10)) with true by lia. change [] with (encode []) at 1. apply IH; [constructor|exact Hl].
  - cbn [app cut_loop Z.eqb Pos.eqb orb]. destruct seen as [|c seen _] using rev_ind.
    + change (decode_last_rune (encode [])) with (RuneError, 0%nat). cbv beta iota zeta. rewrite Z.eqb_refl. now apply IH.
    + rewrite removelast_last. apply Forall_app in Hs as [Hs Hc]. inversion Hc as [|? ? [Hv Hn] _]; subst. rewrite encode_app.
      replace (encode [c]) with (encode_rune c) by (cbn; now rewrite app_nil_r). rewrite decode_last by exact Hv.
      replace (c =? RuneError) with false by (unfold RuneError; lia). rewrite app_length.
      replace (List.length (encode seen) + List.length (encode_rune c) - List.length (encode_rune c))%nat with (List.length (encode seen)) by lia.
      rewrite firstn_app, firstn_all, Nat.sub_diag. cbn [firstn]. rewrite app_nil_r. now apply IH.
Qed.
Lemma prompt_seen ps : Forall piece_ok ps -> cutEscapeSequenceAndOldLine (flat_map piece_bytes ps) = encode (visible ps).
Proof. intros H. unfold cutEscapeSequenceAndOldLine. change [] with (encode []). apply cut_pieces; [constructor|exact H]. Qed.

Lemma visible_valid ps : Forall piece_ok ps -> Forall (fun r => valid_rune r = true) (visible ps).
Proof.
  intros H. unfold visible. assert (G : forall seen, Forall (fun r => valid_rune r = true) seen -> Forall (fun r => valid_rune r = true) (fold_left see ps seen)); [|apply G; constructor].
  induction H as [|p ps Hp _ IH]; intros seen Hs; [exact Hs|]. cbn [fold_left]. apply IH. destruct p; cbn [see piece_ok] in *; auto.
  - apply Forall_app. split; [exact Hs|]. constructor; [apply Hp|constructor].
  - destruct seen as [|c seen _] using rev_ind; [constructor|]. rewrite removelast_last. now apply Forall_app in Hs.
Qed.
Lemma prompt_sum E ps : Forall piece_ok ps -> ~ In 9 (visible ps) ->
  callPromptWriter E (Some (flat_map piece_bytes ps))
  = (flat_map piece_bytes ps, total_width E (StringToMoji E (encode (visible ps)))).
Proof.
  intros H Ht. unfold callPromptWriter. rewrite prompt_seen by exact H. f_equal. apply TextFacts.string_width.
  rewrite runes_encode by now apply visible_valid. intros a b r Hr. exfalso. apply Ht. rewrite Hr. apply in_or_app. right. now left.
Qed.
