(** Lemmas for the properties about text and units. *)
From Verif Require Import Base Utf8 Moji MojiFacts Spec.

Lemma decode_rune_cases b t :
  (valid_rune (fst (decode_rune (b :: t))) = true /\
   b :: t = encode_rune (fst (decode_rune (b :: t))) ++ skipn (snd (decode_rune (b :: t))) (b :: t))
  \/ decode_rune (b :: t) = (RuneError, 1%nat).
Proof.
  cbn [decode_rune]. unfold is_cont, in_range.
  destruct ((0 <=? b) && (b <=? 127)) eqn:E1.
  { left. cbn [fst snd skipn]. rewrite ascii_encode by lia. split; [apply valid_rune_spec; lia|reflexivity]. }
  assert (R : forall r, encode_rune r = let r' := if valid_rune r then r else RuneError in
     if r' <? 128 then [r'] else if r' <? 2048 then [192 + r' / 64; 128 + r' mod 64]
     else if r' <? 65536 then [224 + r' / 4096; 128 + (r' / 64) mod 64; 128 + r' mod 64]
     else [240 + r' / 262144; 128 + (r' / 4096) mod 64; 128 + (r' / 64) mod 64; 128 + r' mod 64]) by reflexivity.
  destruct ((194 <=? b) && (b <=? 223)) eqn:E2.
  { destruct t as [|b1 t]; [now right|]. destruct ((128 <=? b1) && (b1 <=? 191)) eqn:E3; [|now right]. left.
    cbn [fst snd skipn]. set (r := (b - 192) * 64 + (b1 - 128)).
    assert (Hv : valid_rune r = true) by (apply valid_rune_spec; lia). split; [exact Hv|]. rewrite R, Hv. cbv zeta.
    replace (r <? 128) with false by lia. replace (r <? 2048) with true by lia. cbn [app].
    f_equal; [lia|]. f_equal. lia. }
  destruct ((224 <=? b) && (b <=? 239)) eqn:E3.
  { destruct t as [|b1 [|b2 t]]; try now right.
    match goal with |- context [if ?c then _ else (RuneError, 1%nat)] => destruct c eqn:E4 end; [|now right]. left.
    cbn [fst snd skipn]. set (r := (b - 224) * 4096 + (b1 - 128) * 64 + (b2 - 128)).
    assert (Hr : 2048 <= r < 55296 \/ 57343 < r < 65536) by (destruct (b =? 224) eqn:Ea, (b =? 237) eqn:Eb; lia).
    assert (Hv : valid_rune r = true) by (apply valid_rune_spec; lia). split; [exact Hv|]. rewrite R, Hv. cbv zeta.
    replace (r <? 128) with false by lia. replace (r <? 2048) with false by lia. replace (r <? 65536) with true by lia.
    assert (128 <= b1 <= 191 /\ 128 <= b2 <= 191) by (destruct (b =? 224) eqn:Ea, (b =? 237) eqn:Eb; lia).
    cbn [app]. f_equal; [lia|]. f_equal; [lia|]. f_equal. lia. }
  destruct ((240 <=? b) && (b <=? 244)) eqn:E4; [|now right].
  destruct t as [|b1 [|b2 [|b3 t]]]; try now right.
  match goal with |- context [if ?c then _ else (RuneError, 1%nat)] => destruct c eqn:E5 end; [|now right]. left.
  cbn [fst snd skipn]. set (r := (b - 240) * 262144 + (b1 - 128) * 4096 + (b2 - 128) * 64 + (b3 - 128)).
  assert (Hr : 65536 <= r <= 1114111) by (destruct (b =? 240) eqn:Ea, (b =? 244) eqn:Eb; lia).
  assert (Hv : valid_rune r = true) by (apply valid_rune_spec; lia). split; [exact Hv|]. rewrite R, Hv. cbv zeta.
  replace (r <? 128) with false by lia. replace (r <? 2048) with false by lia. replace (r <? 65536) with false by lia.
  assert (128 <= b1 <= 191 /\ 128 <= b2 <= 191 /\ 128 <= b3 <= 191) by (destruct (b =? 240) eqn:Ea, (b =? 244) eqn:Eb; lia).
  cbn [app]. f_equal; [lia|]. f_equal; [lia|]. f_equal; [lia|]. f_equal. lia.
Qed.

Lemma encode_runes_sanitized s : sanitized s (encode (runes s)).
Proof.
  remember (List.length s) as n eqn:Hn. assert (Hl : (List.length s <= n)%nat) by lia. clear Hn. revert s Hl.
  induction n as [|n IH]; intros s Hl.
  - destruct s; [constructor|cbn in Hl; lia].
  - destruct s as [|b t]; [constructor|]. rewrite runes_step, encode_cons.
    pose proof (decode_rune_size b t) as Hsz.
    destruct (decode_rune_cases b t) as [[Hv He]|He].
    + set (r := fst (decode_rune (b :: t))) in *. set (k := snd (decode_rune (b :: t))) in *.
      rewrite He at 1. apply San_char; [exact Hv|]. apply IH. rewrite skipn_length. cbn [List.length] in *. lia.
    + rewrite He. cbn [fst snd skipn]. apply San_bad; [|apply IH; cbn [List.length] in *; lia].
      intros r u Hr Heq. pose proof (decode_encode r u Hr) as HD. rewrite <- Heq, He in HD.
      injection HD as <- HD. vm_compute in HD. discriminate.
Qed.

(** Splitting what has been written back gives exactly the same units. *)
Section WithEnv.
Variable E : env.
Lemma s2m_some_zwj m pos r n rs : isZeroWidthJoin E r = true ->
  s2m E (Some m) pos (r :: n :: rs) = s2m E (Some (MZwj m (MRaw n))) pos rs.
Proof. intros H. rewrite s2m_some2, H. reflexivity. Qed.
Lemma s2m_some_other m pos r rs : isZeroWidthJoin E r = false ->
  s2m E (Some m) pos (r :: rs)
  = if isVariationSelectorLike E r then s2m E (Some (MVar m (MRaw r))) pos rs
    else if isEmojiModifier E r then s2m E (Some (MMod m (MRaw r))) pos rs
    else m :: s2m E (Some (rune2moji E r pos)) (pos + width E (rune2moji E r pos)) rs.
Proof. intros H. cbn [s2m]. rewrite H. reflexivity. Qed.
Lemma s2m_normal rs : forall last pos,
  s2m E last pos (normal E (match last with None => false | _ => true end) rs) = s2m E last pos rs.
Proof.
  induction rs as [|r|r n rs IH1 IH2] using rune_list_ind; intros last pos.
  - reflexivity.
  - rewrite normal1. destruct last as [m|]; [|reflexivity]. cbn [andb].
    destruct (isZeroWidthJoin E r) eqn:Hz; [|reflexivity].
    rewrite s2m_some_zwj by (eapply isZeroWidthJoin_zwj; eauto).
    rewrite s2m_some1, Hz. reflexivity.
  - rewrite normal2. destruct last as [m|]; cbn [andb].
    + destruct (isZeroWidthJoin E r) eqn:Hz.
      * rewrite !s2m_some_zwj by (try eapply isZeroWidthJoin_zwj; eauto). apply (IH1 (Some _)).
      * rewrite !s2m_some_other by exact Hz.
        destruct (isVariationSelectorLike E r); [apply (IH2 (Some _))|].
        destruct (isEmojiModifier E r); [apply (IH2 (Some _))|].
        f_equal. apply (IH2 (Some _)).
    + rewrite !s2m_none. apply (IH2 (Some _)).
Qed.
Lemma resplit s : StringToMoji E (written (StringToMoji E s)) = StringToMoji E s.
Proof.
  change (written (StringToMoji E s)) with (text (StringToMoji E s)). rewrite text_StringToMoji.
  unfold StringToMoji at 1. rewrite runes_encode by (apply normal_valid, runes_valid).
  apply (s2m_normal (runes s) None).
Qed.

Lemma written_off s : zwj_ok E = false \/ (~ In 8204 (runes s) /\ (forall rs, runes s <> rs ++ [8205])) ->
  sanitized s (written (StringToMoji E s)).
Proof.
  intros H. change (written (StringToMoji E s)) with (text (StringToMoji E s)). rewrite text_StringToMoji.
  assert (normal E false (runes s) = runes s) as ->.
  { destruct H as [H|[H1 H2]]; [now apply normal_off|now apply normal_id]. }
  apply encode_runes_sanitized.
Qed.
Lemma written_valid s : valid_utf8 s -> zwj_ok E = false \/ (~ In 8204 (runes s) /\ (forall rs, runes s <> rs ++ [8205])) ->
  written (StringToMoji E s) = s.
Proof.
  intros Hv H. change (written (StringToMoji E s)) with (text (StringToMoji E s)). rewrite text_StringToMoji.
  assert (normal E false (runes s) = runes s) as ->.
  { destruct H as [H|[H1 H2]]; [now apply normal_off|now apply normal_id]. }
  now apply encode_runes_valid.
Qed.
End WithEnv.

Lemma sanitized_fun s a : sanitized s a -> forall b, sanitized s b -> a = b.
Proof.
  induction 1 as [|r s s' Hv H IH|x s s' Hb H IH]; intros b Hs.
  - inversion Hs as [|r0 s0 s0' Hv0 H0 E1|]; [reflexivity|].
    exfalso. apply app_eq_nil in E1 as [E1 _]. pose proof (encode_rune_len r0) as L. rewrite E1 in L. cbn in L. lia.
  - inversion Hs as [E1|r0 s0 s0' Hv0 H0 E1|x0 s0 s0' Hb0 H0 E1]; subst.
    + exfalso. symmetry in E1. apply app_eq_nil in E1 as [E1 _]. pose proof (encode_rune_len r) as L. rewrite E1 in L. cbn in L. lia.
    + pose proof (decode_encode r s Hv) as D1. pose proof (decode_encode r0 s0 Hv0) as D2. rewrite E1 in D2.
      assert (r0 = r) as -> by congruence. apply app_inv_head in E1. subst s0. f_equal. now apply IH.
    + exfalso. exact (Hb0 r s Hv E1).
  - inversion Hs as [|r0 s0 s0' Hv0 H0 E1|x0 s0 s0' Hb0 H0 E1]; subst.
    + exfalso. symmetry in E1. exact (Hb r0 s0 Hv0 E1).
    + f_equal. now apply IH.
Qed.

Lemma normal_changed E rs : forall j, joiners_changed rs (normal E j rs).
Proof.
  assert (Hz : forall r, isZeroWidthJoin E r = true -> r = 8204 \/ r = 8205).
  { intros r H. unfold isZeroWidthJoin, is_join_control in H. lia. }
  assert (R : forall l, joiners_changed l l) by (induction l; constructor; auto).
  induction rs as [|r|r n rs IH1 IH2] using rune_list_ind; intros j.
  - constructor.
  - rewrite normal1. destruct (j && isZeroWidthJoin E r) eqn:H; [|apply R].
    apply andb_true_iff in H as [_ H]. apply JC_end. auto.
  - rewrite normal2. destruct (j && isZeroWidthJoin E r) eqn:H.
    + apply andb_true_iff in H as [_ H]. apply JC_join; [auto|]. constructor. apply IH1.
    + constructor. apply IH2.
Qed.
Lemma written_any E s : exists t rs', sanitized s t /\ joiners_changed (runes t) rs' /\
  written (StringToMoji E s) = encode rs'.
Proof.
  exists (encode (runes s)), (normal E false (runes s)). split; [apply encode_runes_sanitized|].
  rewrite runes_encode by apply runes_valid. split; [apply normal_changed|]. apply text_StringToMoji.
Qed.

Section Tabs.
Variable E : env.
Lemma joins_split r : joins E r = false ->
  isZeroWidthJoin E r = false /\ isVariationSelectorLike E r = false /\ isEmojiModifier E r = false.
Proof.
  unfold joins, isZeroWidthJoin, isVariationSelectorLike, isEmojiModifier, is_join_control, in_range. intros H.
  apply orb_false_iff in H as [H H3]. apply orb_false_iff in H as [H1 H2]. rewrite <- andb_assoc in H3. auto.
Qed.
Lemma has_tab_rune2moji r p : r <> 9 -> has_tab (rune2moji E r p) = false /\ composite (rune2moji E r p) = false.
Proof.
  intros H. unfold rune2moji. replace (r =? 9) with false by lia.
  destruct (r <? 32); [auto|]. destruct (_ && _); [auto|]. destruct (isToBeEscaped E r); [auto|].
  destruct (in_range r 127462 127487); [auto|]. destruct (in_range r 119808 120831); [auto|]. destruct (r =? 127987); auto.
Qed.
Lemma no_tabs rs : forall seen last pos, ~ In 9 rs ->
  (match last with None => False | Some m => has_tab m = true -> seen = true -> False end \/ last = None) ->
  tab_after_joined seen (s2m E last pos rs) = false.
Proof.
  induction rs as [|r|r n rs IH1 IH2] using rune_list_ind; intros seen last pos Hn Hl.
  - destruct last as [m|]; [|reflexivity]. destruct Hl as [Hl|Hl]; [|discriminate]. cbn.
    destruct (has_tab m), seen; cbn; auto. exfalso; auto.
  - assert (r <> 9) by (cbn in Hn; intuition). destruct (has_tab_rune2moji r pos H) as [T Cm]. destruct last as [m|].
    + destruct Hl as [Hl|Hl]; [|discriminate]. rewrite s2m_some1.
      assert (Hx : has_tab m && seen = false) by (destruct (has_tab m), seen; cbn; auto; exfalso; auto).
      destruct (isZeroWidthJoin E r); [cbn; rewrite ?orb_false_r, Hx; reflexivity|].
      destruct (isVariationSelectorLike E r); [cbn; rewrite ?orb_false_r, Hx; reflexivity|].
      destruct (isEmojiModifier E r); [cbn; rewrite ?orb_false_r, Hx; reflexivity|].
      cbn. rewrite Hx, T. reflexivity.
    + rewrite s2m_none. cbn. rewrite T. reflexivity.
  - assert (r <> 9) by (cbn in Hn; intuition). destruct (has_tab_rune2moji r pos H) as [T Cm].
    assert (Hn2 : ~ In 9 (n :: rs)) by (cbn in *; intuition). assert (Hn3 : ~ In 9 rs) by (cbn in *; intuition).
    destruct last as [m|].
    + destruct Hl as [Hl|Hl]; [|discriminate]. rewrite s2m_some2.
      assert (Hx : has_tab m && seen = false) by (destruct (has_tab m), seen; cbn; auto; exfalso; auto).
      destruct (isZeroWidthJoin E r); [apply IH1; [exact Hn3|]; left; cbn; rewrite orb_false_r; auto|].
      destruct (isVariationSelectorLike E r); [apply IH2; [exact Hn2|]; left; cbn; rewrite orb_false_r; auto|].
      destruct (isEmojiModifier E r); [apply IH2; [exact Hn2|]; left; cbn; rewrite orb_false_r; auto|].
      cbn [tab_after_joined]. rewrite Hx. cbn [orb]. apply IH2; [exact Hn2|]. left. rewrite T. discriminate.
    + rewrite s2m_none. apply IH2; [exact Hn2|]. left. rewrite T. discriminate.
Qed.

Lemma tabs_first rs : forall last pos,
  (forall m, last = Some m -> composite m = false) ->
  (forall a b r, rs = a ++ 9 :: b -> In r a -> joins E r = false) ->
  tab_after_joined false (s2m E last pos rs) = false.
Proof.
  induction rs as [|r rs IH]; intros last pos Hc Ht.
  - destruct last as [m|]; [|reflexivity]. cbn. now rewrite andb_false_r.
  - destruct (in_dec Z.eq_dec 9 (r :: rs)) as [Hi|Hi].
    2:{ apply no_tabs; [exact Hi|]. destruct last; [left; discriminate|now right]. }
    assert (Hr : r <> 9 -> joins E r = false).
    { intros Hr. destruct Hi as [Hi|Hi]; [congruence|]. apply in_split in Hi as (a & b & ->).
      apply (Ht (r :: a) b); [reflexivity|now left]. }
    assert (Ht' : forall a b x, rs = a ++ 9 :: b -> In x a -> joins E x = false).
    { intros a b x -> Hx. apply (Ht (r :: a) b); [reflexivity|now right]. }
    assert (Hc' : composite (rune2moji E r pos) = false).
    { destruct (Z.eq_dec r 9) as [->|Hn]; [reflexivity|]. exact (proj2 (has_tab_rune2moji r pos Hn)). }
    destruct last as [m|]; [|rewrite s2m_none; apply IH; [now intros ? [= <-]|exact Ht']].
    destruct (joins E r) eqn:Hj.
    + destruct (Z.eq_dec r 9) as [->|Hn]; [|discriminate (Hr Hn)].
      (* a tab that joins: then no tab can follow *)
      assert (H9 : ~ In 9 rs).
      { intros Hx. apply in_split in Hx as (a & b & ->). rewrite (Ht (9 :: a) b 9) in Hj; [discriminate|reflexivity|now left]. }
      destruct rs as [|n rs].
      * rewrite s2m_some1. destruct (isZeroWidthJoin E 9); [cbn; now rewrite andb_false_r|].
        destruct (isVariationSelectorLike E 9); [cbn; now rewrite andb_false_r|].
        destruct (isEmojiModifier E 9); [cbn; now rewrite andb_false_r|].
        cbn [tab_after_joined]. rewrite (Hc m eq_refl), andb_false_r; cbn; now rewrite ?andb_false_r.
      * rewrite s2m_some2. assert (~ In 9 rs) by (cbn in H9; intuition).
        destruct (isZeroWidthJoin E 9); [apply no_tabs; [auto|left; discriminate]|].
        destruct (isVariationSelectorLike E 9); [apply no_tabs; [auto|left; discriminate]|].
        destruct (isEmojiModifier E 9); [apply no_tabs; [auto|left; discriminate]|].
        cbn [tab_after_joined]. rewrite (Hc m eq_refl), andb_false_r. cbn [orb]. apply IH; [now intros ? [= <-]|exact Ht'].
    + apply joins_split in Hj as (J1 & J2 & J3).
      destruct rs as [|n rs].
      * rewrite s2m_some1, J1, J2, J3. cbn [tab_after_joined]. rewrite (Hc m eq_refl), andb_false_r; cbn; now rewrite ?andb_false_r.
      * rewrite s2m_some2, J1, J2, J3. cbn [tab_after_joined]. rewrite (Hc m eq_refl), andb_false_r. cbn [orb].
        apply IH; [now intros ? [= <-]|exact Ht'].
Qed.
Lemma string_width s : (forall a b r, runes s = a ++ 9 :: b -> In r a -> joins E r = false) ->
  fst (MojiWidthAndCountInString E s) = total_width E (StringToMoji E s).
Proof. intros H. apply GetStringWidth_sum, tabs_first; [discriminate|exact H]. Qed.
End Tabs.
