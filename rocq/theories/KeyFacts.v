(** Lemmas on key input, key maps and key names. *)
From Verif Require Import Base Utf8 Moji Color Prompt Buffer Commands KeyMap KeyInput Names SpecLib.

(** Lengths of lists of runes are lengths of lists of numbers. *)
Ltac lia := unfold rune in *; Lia.lia.
(** ** GetRawKey and GetKeys *)
Definition nz (rs : list Z) : list Z := filter (fun r => negb (r =? 0)) rs.
Definition pre (sur : Z) (l : list Z) : list Z := if 0 <? sur then sur :: l else l.
Lemma surrogate_iff r : is_surrogate r = true <-> 55296 <= r < 57344.
Proof. unfold is_surrogate. lia. Qed.
Lemma utf16_pair hi lo : 55296 <= hi < 56320 -> 56320 <= lo < 57344 -> utf16_decode hi lo = 65536 + (hi - 55296) * 1024 + (lo - 56320).
Proof. intros H1 H2. unfold utf16_decode. replace (_ && _) with true by lia. lia. Qed.

Definition grouped (bs : list bool) (n : nat) (rest : list bool) : Prop :=
  (forall i, (i < n)%nat -> nth i bs false = true) /\ nth n bs false = false /\ rest = skipn (Datatypes.S n) bs.

Lemma raw_spec honest rs : forall bs buf esc sur cs k t, (sur = 0 \/ 55296 <= sur < 56320) ->
  combined (pre sur (nz rs)) cs -> raw_loop honest (map Some rs) bs buf esc sur = Got k t ->
  exists c ds cs2 rs2, cs = c :: ds ++ cs2 /\ k = buf ++ encode (c :: ds) /\ input t = map Some rs2 /\
    characters rs2 cs2 /\ (List.length rs2 < List.length rs)%nat /\ (exists used, rs = used ++ rs2) /\
    (esc = false -> c <> 27 -> ds = [] /\ buffered t = bs) /\
    (honest = false -> esc = true \/ c = 27 -> grouped bs (List.length ds) (buffered t)).
Proof.
  induction rs as [|r rs IH]; intros bs buf esc sur cs k t Hs Hc H; [discriminate|].
  cbn [map raw_loop] in H. unfold nz in Hc. cbn [filter] in Hc. destruct (r =? 0) eqn:H0; cbn [negb] in Hc.
  { apply (IH _ _ _ _ cs) in H as (c & ds & cs2 & rs2 & H1 & H2 & H3 & H4 & H5 & (u & H5') & H6); auto.
    exists c, ds, cs2, rs2. repeat (split; [assumption|]). split; [cbn [List.length]; lia|]. split; [exists (r :: u); now rewrite H5'|assumption]. }
  destruct (negb (0 <? sur) && is_surrogate r) eqn:Hsur.
  { apply andb_true_iff in Hsur as [Hs0 Hr]. apply surrogate_iff in Hr. unfold pre in Hc. replace (0 <? sur) with false in Hc by (destruct (0 <? sur); [discriminate|reflexivity]).
    assert (Hhi : 55296 <= r < 56320) by (inversion Hc; subst; lia).
    apply (IH _ _ _ _ cs) in H as (c & ds & cs2 & rs2 & H1 & H2 & H3 & H4 & H5 & (u & H5') & H6); auto; [|unfold pre; replace (0 <? r) with true by lia; exact Hc].
    exists c, ds, cs2, rs2. repeat (split; [assumption|]). split; [cbn [List.length]; lia|]. split; [exists (r :: u); now rewrite H5'|assumption]. }
  set (r' := if 0 <? sur then utf16_decode sur r else r) in *.
  assert (Hc' : exists cs', cs = r' :: cs' /\ combined (nz rs) cs').
  { unfold pre in Hc. subst r'. destruct (0 <? sur) eqn:Hp.
    - assert (55296 <= sur < 56320) by lia. inversion Hc as [|? ? ? Hx|? ? ? ? Hhi Hlo Hrest]; subst; [lia|].
      rewrite utf16_pair by lia. exists cs0. auto.
    - cbn [negb andb] in Hsur. assert (~ 55296 <= r < 57344) by (rewrite <- surrogate_iff; congruence).
      inversion Hc as [|? ? ? Hx|? ? ? ? Hhi Hlo Hrest]; subst; [|lia]. exists cs0. auto. }
  destruct Hc' as (cs' & -> & Hc').
  destruct (esc || (r' =? 27)) eqn:He.
  - destruct (Buffered honest (mkXtty (map Some rs) bs)) as [b t'] eqn:Hb.
    assert (Hbt : input t' = map Some rs /\ buffered t' = skipn 1 bs /\ (honest = false -> b = nth 0 bs false)).
    { unfold Buffered in Hb. cbn [buffered input] in Hb. destruct bs as [|b0 bs'].
      - injection Hb as <- <-. cbn. auto.
      - injection Hb as <- <-. cbn. repeat split; auto. intros ->. destruct (map Some rs); cbn; now rewrite andb_true_r. }
    destruct Hbt as (Ht1 & Ht2 & Ht3). destruct b.
    + apply (IH _ _ _ _ cs') in H as (c & ds & cs2 & rs2 & H1 & H2 & H3 & H4 & H5 & (u & H5') & H6 & H7); auto.
      exists r', (c :: ds), cs2, rs2. split; [now rewrite H1|]. split; [rewrite H2, (encode_cons r'), <- app_assoc; reflexivity|].
      repeat (split; [assumption|]). split; [cbn [List.length]; lia|]. split; [exists (r :: u); now rewrite H5'|]. split.
      * intros -> Hne. apply orb_true_iff in He as [He|He]; [discriminate|apply Z.eqb_eq in He; congruence].
      * intros Hh _. destruct (H7 Hh) as (G1 & G2 & G3); [auto|]. rewrite Ht2 in *. specialize (Ht3 Hh).
        destruct bs as [|b0 bs']; [cbn in Ht3; discriminate|]. cbn in Ht3. subst b0. cbn [skipn] in *. split; [|split].
        -- intros [|i] Hi; [reflexivity|]. cbn in *. apply G1. lia.
        -- exact G2.
        -- exact G3.
    + injection H as <- <-. exists r', [], cs', rs. split; [reflexivity|]. split; [cbn [encode flat_map]; now rewrite app_nil_r|].
      split; [exact Ht1|]. split; [exact Hc'|]. split; [apply le_n|]. split; [now exists [r]|]. split.
      * intros -> Hne. apply orb_true_iff in He as [He|He]; [discriminate|apply Z.eqb_eq in He; congruence].
      * intros Hh _. specialize (Ht3 Hh). split; [intros i Hi; cbn in Hi; lia|]. split; [now cbn|]. exact Ht2.
  - injection H as <- <-. exists r', [], cs', rs. split; [reflexivity|]. split; [cbn [encode flat_map]; now rewrite app_nil_r|].
    split; [reflexivity|]. split; [exact Hc'|]. split; [apply le_n|]. split; [now exists [r]|]. apply orb_false_iff in He as [He1 He2]. split.
    + auto.
    + intros _ [Hx|Hx]; [congruence|apply Z.eqb_neq in He2; congruence].
Qed.

Lemma Buffered_input honest t : input (snd (Buffered honest t)) = input t.
Proof. unfold Buffered. destruct (buffered t); reflexivity. Qed.
Lemma raw_shorter honest inp : forall bs buf esc sur k t, raw_loop honest inp bs buf esc sur = Got k t ->
  (List.length (input t) < List.length inp)%nat.
Proof.
  induction inp as [|[r|] inp IH]; intros bs buf esc sur k t H; try discriminate. cbn [raw_loop] in H. cbn [List.length].
  destruct (r =? 0); [apply IH in H; lia|]. destruct (negb (0 <? sur) && is_surrogate r); [apply IH in H; lia|].
  destruct (esc || _).
  - destruct (Buffered honest _) as [b t'] eqn:Hb. destruct b; [apply IH in H; lia|].
    injection H as <- <-. pose proof (Buffered_input honest (mkXtty inp bs)) as Hi. rewrite Hb in Hi. cbn [snd input] in Hi. rewrite Hi. lia.
  - injection H as <- <-. cbn. lia.
Qed.
Lemma raw_nonempty honest inp : forall bs buf esc sur k t, raw_loop honest inp bs buf esc sur = Got k t -> k <> [].
Proof.
  assert (N : forall (b : str) r, b ++ encode_rune r <> []).
  { intros b r H. apply app_eq_nil in H as [_ H]. pose proof (encode_rune_len r). rewrite H in *. cbn in *. lia. }
  induction inp as [|[r|] inp IH]; intros bs buf esc sur k t H; try discriminate. cbn [raw_loop] in H.
  destruct (r =? 0); [now apply IH in H|]. destruct (negb (0 <? sur) && is_surrogate r); [now apply IH in H|].
  destruct (esc || _).
  - destruct (Buffered honest _) as [b t'] eqn:Hb. destruct b; [now apply IH in H|]. injection H as <- <-. apply N.
  - injection H as <- <-. apply N.
Qed.

Lemma keys_total honest f : forall t ks, (List.length (input t) < f)%nat -> keys_loop honest f t ks <> None.
Proof.
  induction f as [|f IH]; intros t ks Hf; [lia|]. cbn [keys_loop]. destruct (GetRawKey honest t) as [k t'|t'|] eqn:Hk; try discriminate.
  unfold GetRawKey in Hk. apply raw_shorter in Hk. pose proof (Buffered_input honest t') as Hi. destruct (Buffered honest t') as [b t'']. cbn [snd] in Hi.
  destruct b; [|discriminate]. apply IH. rewrite Hi. lia.
Qed.

Lemma keys_nonempty honest f : forall t ks0 ks t', Forall (fun k => k <> []) ks0 -> keys_loop honest f t ks0 = Some (Got ks t') -> ks <> [] /\ Forall (fun k => k <> []) ks.
Proof.
  induction f as [|f IH]; intros t ks0 ks t' H0 H; [discriminate|]. cbn [keys_loop] in H.
  destruct (GetRawKey honest t) as [k t1|t1|] eqn:E; [|discriminate|discriminate]. unfold GetRawKey in E. apply raw_nonempty in E.
  assert (H1 : Forall (fun k => k <> []) (ks0 ++ [k])) by (apply Forall_app; auto).
  destruct (Buffered honest t1) as [b t2]. destruct b; [now apply (IH _ _ _ _ H1 H)|]. injection H as <- _.
  split; [now destruct ks0|exact H1].
Qed.
Lemma tty8_nonempty honest n : forall m ks m', Forall (fun k => k <> []) (buf8 m) -> tty8_keys honest n m = Some (ks, m') -> Forall (fun k => k <> []) ks.
Proof.
  induction n as [|n IH]; intros m ks m' Hb H; [injection H as <- _; constructor|]. cbn [tty8_keys] in H.
  destruct (tty8_GetKey honest m) as [[[k| |] m1]|] eqn:E; try discriminate.
  destruct (tty8_keys honest n m1) as [[ks' m2]|] eqn:E2; [|discriminate]. injection H as <- <-.
  assert (G : k <> [] /\ Forall (fun k => k <> []) (buf8 m1)).
  { unfold tty8_GetKey in E. destruct (buf8 m) as [|k0 ks0] eqn:Eb.
    - destruct (GetKeys honest (xt m)) as [[l t| |]|] eqn:Eg; try discriminate. apply keys_nonempty in Eg as [G1 G2]; [|constructor].
      destruct l as [|k0 ks0]; [now destruct G1|]. injection E as <- <-. inversion G2; auto.
    - injection E as <- <-. inversion Hb; auto. }
  destruct G as [G1 G2]. constructor; [exact G1|]. exact (IH _ _ _ G2 E2).
Qed.
Lemma keys_spec honest f : forall t ks0 rs cs ks t', input t = map Some rs -> characters rs cs ->
  keys_loop honest f t ks0 = Some (Got ks t') ->
  exists new cs1 cs2 rs2, ks = ks0 ++ new /\ new <> [] /\ Forall (fun k => k <> []) new /\ cs = cs1 ++ cs2 /\
    List.concat new = encode cs1 /\ input t' = map Some rs2 /\ characters rs2 cs2 /\ (List.length rs2 < List.length rs)%nat /\
    (exists used, rs = used ++ rs2).
Proof.
  induction f as [|f IH]; intros t ks0 rs cs ks t' Hi Hc H; [discriminate|]. cbn [keys_loop] in H.
  destruct (GetRawKey honest t) as [k t1|t1|] eqn:Hk; try discriminate. pose proof Hk as Hk'. unfold GetRawKey in Hk. rewrite Hi in Hk.
  pose proof (raw_nonempty _ _ _ _ _ _ _ _ Hk) as Hne.
  apply (raw_spec honest rs (buffered t) [] false 0 cs) in Hk as (c & ds & cs2 & rs2 & H1 & H2 & H3 & H4 & H5 & (u & H5') & _); [|auto|exact Hc].
  pose proof (Buffered_input honest t1) as Hb. destruct (Buffered honest t1) as [b t2]. cbn [snd] in Hb. rewrite H3 in Hb. destruct b.
  - apply (IH t2 (ks0 ++ [k]) rs2 cs2) in H as (new & d1 & d2 & rs3 & G1 & G2 & G3 & G4 & G5 & G6 & G7 & G8 & (u2 & G9)); [|exact Hb|exact H4].
    exists (k :: new), (c :: ds ++ d1), d2, rs3. split; [now rewrite G1, <- app_assoc|]. split; [discriminate|].
    split; [constructor; assumption|]. split; [rewrite H1, G4; cbn; now rewrite <- app_assoc|].
    split; [cbn [List.concat]; rewrite G5, H2; cbn [app]; now rewrite <- encode_app|].
    repeat (split; [assumption|]). split; [lia|]. exists (u ++ u2). now rewrite H5', G9, app_assoc.
  - injection H as <- <-. exists [k], (c :: ds), cs2, rs2. split; [reflexivity|]. split; [discriminate|]. split; [repeat constructor; assumption|].
    split; [exact H1|]. split; [cbn [List.concat]; now rewrite app_nil_r, H2|]. repeat (split; [assumption|]). now exists u.
Qed.

(** The shape of a key: one character, or ESC with what was behind it. *)
Lemma keys_shape honest f : forall t ks0 rs cs ks t', input t = map Some rs -> characters rs cs ->
  keys_loop honest f t ks0 = Some (Got ks t') -> Forall one_key ks0 ->
  Forall one_key ks /\ exists rs2 cs2, input t' = map Some rs2 /\ characters rs2 cs2.
Proof.
  induction f as [|f IH]; intros t ks0 rs cs ks t' Hi Hc H H0; [discriminate|]. cbn [keys_loop] in H.
  destruct (GetRawKey honest t) as [k t1|t1|] eqn:Hk; try discriminate. unfold GetRawKey in Hk. rewrite Hi in Hk.
  apply (raw_spec honest rs (buffered t) [] false 0 cs) in Hk as (c & ds & cs2 & rs2 & H1 & H2 & H3 & H4 & _ & _ & H5 & _); [|auto|exact Hc].
  assert (Hone : one_key k).
  { destruct (Z.eq_dec c 27) as [->|Hn]; [right; now exists ds|]. left. destruct (H5 eq_refl Hn) as [-> _]. exists c. split; [exact Hn|]. rewrite H2. cbn. now rewrite app_nil_r. }
  assert (H0' : Forall one_key (ks0 ++ [k])) by (apply Forall_app; split; [exact H0|exact (Forall_cons _ Hone (Forall_nil _))]).
  pose proof (Buffered_input honest t1) as Hb. destruct (Buffered honest t1) as [b t2]. cbn [snd] in Hb. rewrite H3 in Hb. destruct b.
  - exact (IH t2 (ks0 ++ [k]) rs2 cs2 ks t' Hb H4 H H0').
  - injection H as <- <-. split; [exact H0'|]. now exists rs2, cs2.
Qed.
Lemma tty8_shape honest n : forall m rs cs ks m', input (xt m) = map Some rs -> characters rs cs -> Forall one_key (buf8 m) ->
  tty8_keys honest n m = Some (ks, m') -> Forall one_key ks.
Proof.
  induction n as [|n IH]; intros m rs cs ks m' Hi Hc Hb0 H.
  - injection H as <- <-. constructor.
  - cbn [tty8_keys] in H. destruct (tty8_GetKey honest m) as [[[k| |] m1]|] eqn:Hk; try discriminate.
    destruct (tty8_keys honest n m1) as [[ks1 m2]|] eqn:Hn; [|discriminate]. injection H as <- <-.
    unfold tty8_GetKey in Hk. destruct (buf8 m) as [|k0 kb] eqn:Hb.
    + destruct (GetKeys honest (xt m)) as [[ks0 t'|t'|]|] eqn:Hg; try discriminate. unfold GetKeys in Hg.
      pose proof Hg as Hg'. apply (keys_spec _ _ _ _ rs cs) in Hg' as (new & ? & ? & ? & G1 & G2 & _); auto.
      destruct (keys_shape _ _ _ _ rs cs _ _ Hi Hc Hg (Forall_nil _)) as (Hs & rs2 & cs2 & G3 & G4).
      cbn in G1. subst ks0. destruct new as [|k0 kb]; [congruence|]. injection Hk as <- <-. inversion Hs; subst.
      constructor; [assumption|]. exact (IH (mkTty8 t' kb) rs2 cs2 ks1 m2 G3 G4 ltac:(assumption) Hn).
    + injection Hk as <- <-. inversion Hb0; subst. constructor; [assumption|]. exact (IH (mkTty8 (xt m) kb) rs cs ks1 m2 Hi Hc ltac:(assumption) Hn).
Qed.

Definition keys_left (m : tty8) : str := List.concat (buf8 m).
Lemma tty8_order honest n : forall m rs cs ks m', input (xt m) = map Some rs -> characters rs cs ->
  tty8_keys honest n m = Some (ks, m') ->
  exists cs1 cs2 rs2, cs = cs1 ++ cs2 /\ List.concat ks ++ keys_left m' = keys_left m ++ encode cs1 /\
    input (xt m') = map Some rs2 /\ characters rs2 cs2.
Proof.
  induction n as [|n IH]; intros m rs cs ks m' Hi Hc H.
  - injection H as <- <-. exists [], cs, rs. cbn. rewrite app_nil_r. auto.
  - cbn [tty8_keys] in H. destruct (tty8_GetKey honest m) as [[[k| |] m1]|] eqn:Hk; try discriminate.
    destruct (tty8_keys honest n m1) as [[ks1 m2]|] eqn:Hn; [|discriminate]. injection H as <- <-.
    unfold tty8_GetKey in Hk. destruct (buf8 m) as [|k0 kb] eqn:Hb.
    + destruct (GetKeys honest (xt m)) as [[ks0 t'|t'|]|] eqn:Hg; try discriminate. unfold GetKeys in Hg.
      apply (keys_spec _ _ _ _ rs cs) in Hg as (new & cs1 & cs2 & rs2 & G1 & G2 & G3 & G4 & G5 & G6 & G7 & G8 & _); auto.
      cbn in G1. subst ks0. destruct new as [|k0 kb]; [congruence|]. injection Hk as <- <-.
      apply (IH _ rs2 cs2) in Hn as (d1 & d2 & rs3 & K1 & K2 & K3 & K4); auto.
      exists (cs1 ++ d1), d2, rs3. split; [now rewrite G4, K1, app_assoc|]. split; [|auto]. cbn [List.concat]. rewrite <- app_assoc, K2.
      unfold keys_left. rewrite Hb. cbn [buf8 List.concat app]. rewrite encode_app, <- G5. cbn [List.concat]. now rewrite <- app_assoc.
    + injection Hk as <- <-. apply (IH _ rs cs) in Hn as (d1 & d2 & rs3 & K1 & K2 & K3 & K4); auto.
      exists d1, d2, rs3. split; [exact K1|]. split; [|auto]. cbn [List.concat]. rewrite <- app_assoc, K2. unfold keys_left. rewrite Hb.
      cbn [buf8 List.concat]. now rewrite app_assoc.
Qed.

Lemma combined_nil_inv cs : combined [] cs -> cs = [].
Proof. inversion 1; reflexivity. Qed.
Lemma nz_id rs : ~ In 0 rs -> nz rs = rs.
Proof.
  induction rs as [|r rs IH]; intros H; [reflexivity|]. unfold nz in *. cbn [filter]. destruct (r =? 0) eqn:E; [exfalso; apply H; left; lia|].
  cbn [negb]. f_equal. apply IH. intros Hx. apply H. now right.
Qed.
Lemma raw_progress rs : forall bs buf esc sur cs, ~ In 0 rs -> (sur = 0 \/ 55296 <= sur < 56320) -> combined (pre sur rs) cs -> cs <> [] ->
  exists k t, raw_loop true (map Some rs) bs buf esc sur = Got k t.
Proof.
  induction rs as [|r rs IH]; intros bs buf esc sur cs Hz Hs Hc Hne.
  - exfalso. unfold pre in Hc. destruct (0 <? sur) eqn:E; [|apply combined_nil_inv in Hc; congruence]. inversion Hc; subst; lia.
  - assert (Hz' : ~ In 0 rs) by (intros Hx; apply Hz; now right). assert (r <> 0) by (intros ->; apply Hz; now left).
    cbn [map raw_loop]. replace (r =? 0) with false by lia.
    destruct (negb (0 <? sur) && is_surrogate r) eqn:Hsur.
    { apply andb_true_iff in Hsur as [Hs0 Hr]. apply surrogate_iff in Hr. unfold pre in Hc. replace (0 <? sur) with false in Hc by (destruct (0 <? sur); [discriminate|reflexivity]).
      assert (Hhi : 55296 <= r < 56320) by (inversion Hc; subst; lia).
      apply (IH _ _ _ r cs); auto. unfold pre. replace (0 <? r) with true by lia. exact Hc. }
    assert (Hc' : exists cs', combined rs cs').
    { unfold pre in Hc. destruct (0 <? sur) eqn:Hp.
      - inversion Hc as [|? ? ? Hx|? ? ? ? Hhi Hlo Hrest]; subst; [lia|]. eauto.
      - cbn [negb andb] in Hsur. assert (~ 55296 <= r < 57344) by (rewrite <- surrogate_iff; congruence).
        inversion Hc as [|? ? ? Hx|? ? ? ? Hhi Hlo Hrest]; subst; [|lia]. eauto. }
    destruct Hc' as (cs' & Hc').
    destruct (esc || _); [|eauto]. destruct (Buffered true (mkXtty (map Some rs) bs)) as [b t'] eqn:Hb. destruct b; [|eauto].
    apply (IH _ _ _ 0 cs'); auto. intros ->. inversion Hc'; subst. unfold Buffered in Hb. cbn in Hb. destruct bs; injection Hb as Hb <-; [discriminate|].
    rewrite andb_false_r in Hb. discriminate.
Qed.
Lemma tty8_progress m rs cs : buf8 m = [] -> input (xt m) = map Some rs -> ~ In 0 rs -> combined rs cs -> cs <> [] ->
  exists k ks t', tty8_GetKey true m = Some (Key k, mkTty8 t' ks) /\ exists ks', GetKeys true (xt m) = Some (Got ks' t') /\ ks' = k :: ks.
Proof.
  intros Hb Hi Hz Hc Hne. unfold tty8_GetKey. rewrite Hb.
  assert (K : forall f t ks0 rs cs, (List.length (input t) < f)%nat -> input t = map Some rs -> ~ In 0 rs -> combined rs cs -> cs <> [] ->
     exists k ks t', keys_loop true f t ks0 = Some (Got (ks0 ++ k :: ks) t')).
  { clear. induction f as [|f IH]; intros t ks0 rs cs Hf Hi Hz Hc Hne; [lia|]. cbn [keys_loop].
    destruct (raw_progress rs (buffered t) [] false 0 cs Hz (or_introl eq_refl) Hc Hne) as (k & t1 & Hk).
    unfold GetRawKey. unfold rune in *. rewrite Hi, Hk. pose proof (raw_spec true rs _ _ _ _ cs _ _ (or_introl eq_refl) ltac:(unfold pre; cbn [Z.ltb Z.compare]; rewrite nz_id by exact Hz; exact Hc) Hk)
      as (c & ds & cs2 & rs2 & H1 & H2 & H3 & H4 & H5 & (u & H5') & _).
    destruct (Buffered true t1) as [b t2] eqn:Hb. pose proof (Buffered_input true t1) as Hbi. rewrite Hb in Hbi. cbn [snd] in Hbi. destruct b.
    - assert (Hz2 : ~ In 0 rs2) by (intros Hx; apply Hz; rewrite H5'; apply in_or_app; auto).
      unfold characters in H4. fold (nz rs2) in H4. rewrite nz_id in H4 by exact Hz2.
      destruct (IH t2 (ks0 ++ [k]) rs2 cs2) as (k2 & ks2 & t3 & Hx); auto.
      + rewrite Hbi, H3, map_length. rewrite Hi, map_length in Hf. lia.
      + now rewrite Hbi.
      + intros ->. inversion H4. subst rs2. unfold Buffered in Hb. rewrite H3 in Hb. cbn in Hb. destruct (buffered t1); injection Hb as Hb _; [discriminate|].
        rewrite andb_false_r in Hb. discriminate.
      + exists k, (k2 :: ks2), t3. rewrite Hx, <- app_assoc. reflexivity.
    - exists k, [], t2. reflexivity. }
  destruct (K (Datatypes.S (List.length (input (xt m)))) (xt m) [] rs cs) as (k & ks & t' & Hk); auto. unfold GetKeys. rewrite Hk. cbn [app]. exists k, ks, t'. split; [reflexivity|]. eauto.
Qed.
Lemma tty8_all n : forall m rs cs, (List.length rs < n)%nat -> input (xt m) = map Some rs -> ~ In 0 rs -> combined rs cs ->
  exists j ks m', tty8_keys true j m = Some (ks, m') /\ List.concat ks = keys_left m ++ encode cs /\ input (xt m') = [] /\ buf8 m' = [].
Proof.
  induction n as [|n IHn]; intros m rs cs Hn; [lia|]. destruct m as [t kb]. revert t Hn. induction kb as [|k kb IHk]; intros t Hn Hi Hz Hc; cbn [xt] in Hi.
  - destruct cs as [|c cs].
    + inversion Hc; subst. exists 0%nat, [], (mkTty8 t []). cbn. auto.
    + destruct (tty8_progress (mkTty8 t []) rs (c :: cs)) as (k & ks & t' & Hg & ks' & Hk & ->); auto; [discriminate|].
      cbn [xt] in Hk. unfold GetKeys in Hk. apply (keys_spec _ _ _ _ rs (c :: cs)) in Hk as (new & d1 & d2 & rs2 & G1 & G2 & G3 & G4 & G5 & G6 & G7 & G8 & (u & G9)); auto;
        [|unfold characters; fold (nz rs); now rewrite nz_id].
      cbn in G1. subst new. assert (Hz2 : ~ In 0 rs2) by (intros Hx; apply Hz; rewrite G9; apply in_or_app; auto).
      unfold characters in G7. fold (nz rs2) in G7. rewrite nz_id in G7 by exact Hz2.
      destruct (IHn (mkTty8 t' ks) rs2 d2) as (j & kk & m' & J1 & J2 & J3 & J4); auto; [lia|].
      exists (Datatypes.S j), (k :: kk), m'. cbn [tty8_keys]. rewrite Hg, J1. split; [reflexivity|]. split; [|auto]. cbn [List.concat].
      rewrite J2. unfold keys_left. cbn [buf8 List.concat app]. rewrite G4, encode_app, <- G5. cbn [List.concat]. now rewrite <- app_assoc.
  - destruct (IHk t) as (j & kk & m' & J1 & J2 & J3 & J4); auto. exists (Datatypes.S j), (k :: kk), m'.
    cbn [tty8_keys tty8_GetKey buf8 xt]. cbn [tty8_GetKey] in *. unfold tty8_GetKey. cbn [buf8 xt]. rewrite J1. split; [reflexivity|]. split; [|auto].
    cbn [List.concat]. rewrite J2. unfold keys_left. cbn [buf8 List.concat]. now rewrite app_assoc.
Qed.

(** ** tty10 *)
Fixpoint texts (rs : list (option str)) : str := match rs with [] => [] | Some b :: rs' => b ++ texts rs' | None :: rs' => texts rs' end.
Lemma tty10_cut_ok b rs k m : b <> [] -> tty10_cut b rs = (Key10 k, m) -> k ++ buf10 m = b /\ reads m = rs /\ k <> [].
Proof.
  intros Hb. unfold tty10_cut. destruct b as [|b0 b]; [congruence|]. pose proof (decode_rune_size b0 b) as Hs.
  destruct (decode_rune (b0 :: b)) as [r size]. cbn [snd] in Hs. destruct (r =? 27); intros H; injection H as <- <-; cbn [buf10 reads].
  - rewrite app_nil_r. repeat split. discriminate.
  - rewrite firstn_skipn. repeat split. destruct size; [lia|]. discriminate.
Qed.
Lemma tty10_order n : forall m ks m', tty10_keys n m = Some (ks, m') ->
  exists used, reads m = map Some used ++ reads m' /\ List.concat ks ++ buf10 m' = buf10 m ++ List.concat used.
Proof.
  induction n as [|n IH]; intros m ks m' H.
  - injection H as <- <-. exists []. cbn. now rewrite app_nil_r.
  - cbn [tty10_keys] in H. destruct (tty10_GetKey m) as [[k| |] m1] eqn:Hk; try discriminate.
    destruct (tty10_keys n m1) as [[ks1 m2]|] eqn:Hn; [|discriminate]. injection H as <- <-.
    apply IH in Hn as (u & H1 & H2). cbn [List.concat]. rewrite <- app_assoc, H2. unfold tty10_GetKey in Hk.
    destruct (buf10 m) as [|b0 b] eqn:Hb.
    + destruct (reads m) as [|[[|c0 c]|] rs]; try discriminate.
      * injection Hk as <- <-. cbn [buf10 reads] in *. exists ([] :: u). cbn. now rewrite H1.
      * apply tty10_cut_ok in Hk as (K1 & K2 & _); [|discriminate]. exists ((c0 :: c) :: u). rewrite K2 in H1. cbn [map app List.concat]. rewrite H1. split; [reflexivity|].
        rewrite app_assoc, K1. reflexivity.
    + apply tty10_cut_ok in Hk as (K1 & K2 & _); [|discriminate]. exists u. rewrite K2 in H1. split; [exact H1|]. now rewrite app_assoc, K1.
Qed.
(** Text without ESC that came in one read: one key per character. *)
Lemma tty10_chars cs : forall rs, Forall (fun c => valid_rune c = true /\ c <> 27) cs ->
  tty10_keys (List.length cs) (mkTty10 (encode cs) rs) = Some (map encode_rune cs, mkTty10 [] rs).
Proof.
  induction cs as [|c cs IH]; intros rs H; [reflexivity|]. inversion H as [|? ? [Hv Hn] Hr]; subst.
  cbn [List.length tty10_keys map]. unfold tty10_GetKey. cbn [buf10 reads]. rewrite encode_cons. pose proof (encode_rune_len c) as Hl.
  destruct (encode_rune c ++ encode cs) as [|b0 b] eqn:Hb; [apply app_eq_nil in Hb as [Hb _]; rewrite Hb in Hl; cbn in Hl; lia|]. rewrite <- Hb. clear b0 b Hb.
  unfold tty10_cut. rewrite decode_encode by exact Hv. replace (c =? 27) with false by lia.
  rewrite firstn_app, firstn_all, skipn_app, skipn_all, Nat.sub_diag. cbn [app skipn firstn].
  rewrite IH by exact Hr. now rewrite app_nil_r.
Qed.
Lemma tty10_first b rs : b <> [] -> tty10_GetKey (mkTty10 [] (Some b :: rs)) = tty10_GetKey (mkTty10 b rs).
Proof. intros H. unfold tty10_GetKey. cbn [buf10 reads]. destruct b; [congruence|reflexivity]. Qed.
Lemma tty10_read cs rs : cs <> [] -> Forall (fun c => valid_rune c = true /\ c <> 27) cs ->
  tty10_keys (List.length cs) (mkTty10 [] (Some (encode cs) :: rs)) = Some (map encode_rune cs, mkTty10 [] rs).
Proof.
  intros Hne H. rewrite <- (tty10_chars cs rs H). destruct cs as [|c cs]; [congruence|]. cbn [List.length tty10_keys].
  rewrite tty10_first; [reflexivity|]. intros Hx. pose proof (proj1 (encode_nil_iff (c :: cs)) Hx) as Hy. discriminate Hy.
Qed.
Lemma tty10_escape cs b rs : Forall (fun c => valid_rune c = true /\ c <> 27) cs ->
  tty10_keys (List.length cs + 1) (mkTty10 [] (Some (encode cs ++ 27 :: b) :: rs)) = Some (map encode_rune cs ++ [27 :: b], mkTty10 [] rs).
Proof.
  intros H. assert (E : forall n, (0 < n)%nat -> tty10_keys n (mkTty10 [] (Some (encode cs ++ 27 :: b) :: rs)) = tty10_keys n (mkTty10 (encode cs ++ 27 :: b) rs)).
  { intros n Hn. destruct n; [lia|]. cbn [tty10_keys]. rewrite tty10_first; [reflexivity|]. intros Hx. apply app_eq_nil in Hx as [_ Hx]. discriminate. }
  rewrite E by lia. clear E. induction cs as [|c cs IH].
  - reflexivity.
  - inversion H as [|? ? [Hv Hn] Hr]; subst. cbn [List.length Nat.add tty10_keys map]. unfold tty10_GetKey. cbn [buf10 reads].
    rewrite encode_cons, <- app_assoc. pose proof (encode_rune_len c) as Hl.
    destruct (encode_rune c ++ encode cs ++ 27 :: b) as [|b0 b'] eqn:Hb; [apply app_eq_nil in Hb as [Hb _]; rewrite Hb in Hl; cbn in Hl; lia|]. rewrite <- Hb. clear b0 b' Hb.
    unfold tty10_cut. rewrite decode_encode by exact Hv. replace (c =? 27) with false by lia.
    rewrite firstn_app, firstn_all, skipn_app, skipn_all, Nat.sub_diag. cbn [app skipn firstn].
    rewrite IH by exact Hr. now rewrite app_nil_r.
Qed.

(** ** Pilot *)
Lemma pilot_keys n : forall script i, (i < n)%nat -> nth i (Pilot_keys n script) [] = nth i script [13].
Proof.
  induction n as [|n IH]; intros script i Hi; [lia|]. destruct script as [|k rest]; cbn [Pilot_keys Pilot_GetKey].
  - destruct i as [|i]; [reflexivity|]. cbn [nth]. rewrite IH by lia. destruct i; reflexivity.
  - destruct i as [|i]; [reflexivity|]. cbn [nth]. apply IH. lia.
Qed.
Lemma pilot_list n : forall script, Pilot_keys (List.length script + n) script = script ++ repeat [13] n.
Proof.
  assert (R : forall n, Pilot_keys n [] = repeat [13] n) by (induction n0 as [|n0 IH]; [reflexivity|]; cbn; now rewrite IH).
  induction script as [|k script IH]; [apply R|]. cbn. now rewrite IH.
Qed.

(** ** Key maps *)
Lemma bind_same km k f : Lookup (BindKey km k f) k = f.
Proof.
  unfold Lookup, BindKey. destruct f as [c|]; [now rewrite (aget_aset_same str_eqb str_eqb_eq)|apply aget_adel_same].
Qed.
Lemma bind_other km k k' f : k <> k' -> Lookup (BindKey km k f) k' = Lookup km k'.
Proof.
  intros H. unfold Lookup, BindKey. destruct f as [c|]; [now rewrite (aget_aset_other str_eqb str_eqb_eq)|now apply (aget_adel_other str_eqb str_eqb_eq)].
Qed.
Definition binds (km : keymap) (ops : list (str * option cmd)) : keymap := fold_left (fun m o => BindKey m (fst o) (snd o)) ops km.
Lemma binds_other ops : forall km k, ~ In k (map fst ops) -> Lookup (binds km ops) k = Lookup km k.
Proof.
  induction ops as [|[k0 f] ops IH]; intros km k H; [reflexivity|]. cbn [binds fold_left]. change (fold_left _ ops _) with (binds (BindKey km k0 f) ops).
  rewrite IH by (intros Hx; apply H; now right). apply bind_other. intros ->. apply H. now left.
Qed.
Lemma binds_last km ops1 k f ops2 : ~ In k (map fst ops2) -> Lookup (binds km (ops1 ++ (k, f) :: ops2)) k = f.
Proof.
  intros H. unfold binds. rewrite fold_left_app. cbn [fold_left fst snd]. change (fold_left _ ops2 _) with (binds (BindKey (binds km ops1) k f) ops2).
  rewrite binds_other by exact H. apply bind_same.
Qed.

(** ** Names *)
Lemma is_ascii_spec s : ascii s -> is_ascii s = true.
Proof. intros H. unfold is_ascii. apply forallb_forall. intros x Hx. unfold ascii in H. rewrite Forall_forall in H. apply H in Hx. lia. Qed.
Definition norm1 (b : Z) : Z := dash (ascii_up b).
Lemma norm1_same x y : norm1 x = norm1 y <-> same_char x y.
Proof.
  unfold norm1, dash, ascii_up, same_char.
  destruct ((97 <=? x) && (x <=? 122)) eqn:H1, ((97 <=? y) && (y <=? 122)) eqn:H2;
  [destruct (x - 32 =? 45) eqn:H3, (y - 32 =? 45) eqn:H4|destruct (x - 32 =? 45) eqn:H3, (y =? 45) eqn:H4|
   destruct (x =? 45) eqn:H3, (y - 32 =? 45) eqn:H4|destruct (x =? 45) eqn:H3, (y =? 45) eqn:H4]; lia.
Qed.
Lemma normalize_ascii up s : ascii s -> NormalizeName up s = map norm1 s.
Proof. intros H. unfold NormalizeName, ToUpper. rewrite is_ascii_spec by exact H. now rewrite map_map. Qed.
Lemma normalize_same up a b : ascii a -> ascii b -> NormalizeName up a = NormalizeName up b <-> same_name a b.
Proof.
  intros Ha Hb. rewrite !normalize_ascii by assumption. unfold same_name. clear. revert b. induction a as [|x a IH]; intros [|y b]; split; intros H; try discriminate; try constructor; try (inversion H; fail).
  - injection H as H _. now apply norm1_same.
  - injection H as _ H. now apply IH.
  - inversion H; subst. cbn [map]. f_equal; [now apply norm1_same|now apply IH].
Qed.
Lemma map_dash_encode rs : map dash (encode rs) = encode (map dash rs).
Proof.
  induction rs as [|r rs IH]; [reflexivity|]. cbn [map]. rewrite !encode_cons, map_app, IH. f_equal.
  destruct (Z.eq_dec r 45) as [->|Hn]; [reflexivity|].
  unfold dash at 2. replace (r =? 45) with false by lia. clear IH.
  assert (G : Forall (fun b => b <> 45) (encode_rune r)).
  { unfold encode_rune. remember (if valid_rune r then r else RuneError) as q.
    assert (Hq : q <> 45 /\ 0 <= q).
    { subst q. destruct (valid_rune r) eqn:Hv; [apply valid_rune_spec in Hv; lia|unfold RuneError; lia]. }
    destruct (q <? 128) eqn:E1; [repeat constructor; tauto|].
    assert (M : forall a, 0 <= a mod 64) by (intros a; apply Z.mod_pos_bound; lia).
    destruct (q <? 2048); [|destruct (q <? 65536)]; repeat constructor; repeat match goal with |- context [?a mod 64] => pose proof (M a); generalize dependent (a mod 64); intros end;
      try lia; assert (0 <= q / 64) by (apply Z.div_pos; lia); assert (0 <= q / 4096) by (apply Z.div_pos; lia); assert (0 <= q / 262144) by (apply Z.div_pos; lia); lia. }
  induction (encode_rune r) as [|b l IHl]; [reflexivity|]. inversion G; subst. cbn [map]. unfold dash at 1. replace (b =? 45) with false by lia. f_equal. auto.
Qed.
(** Normalising a name twice is the same as once, if unicode.ToUpper is what it should be. *)
Lemma normalize_idem up s : (forall r, up (up r) = up r) -> (forall r, 0 <= r < 128 -> up r = ascii_up r) ->
  (forall r, valid_rune r = true -> valid_rune (up r) = true) ->
  bytes_ok s -> NormalizeName up (NormalizeName up s) = NormalizeName up s.
Proof.
  intros H1 H2 H3 Hb. assert (I1 : forall b, norm1 (norm1 b) = norm1 b).
  { intros b. unfold norm1, dash, ascii_up. destruct ((97 <=? b) && (b <=? 122)) eqn:E1;
      [destruct (b - 32 =? 45) eqn:E2|destruct (b =? 45) eqn:E2]; try reflexivity;
      [replace ((97 <=? b - 32) && (b - 32 <=? 122)) with false by lia|rewrite E1]; now rewrite E2. }
  assert (A : forall t, is_ascii t = true -> bytes_ok t -> NormalizeName up t = map norm1 t).
  { intros t Ht Hbt. apply normalize_ascii. unfold ascii. unfold is_ascii in Ht. rewrite forallb_forall in Ht. unfold bytes_ok in Hbt. rewrite Forall_forall in *.
    intros x Hx. specialize (Ht x Hx). specialize (Hbt x Hx). lia. }
  destruct (is_ascii s) eqn:Hs.
  - rewrite (A s Hs Hb). rewrite A.
    + rewrite map_map. apply map_ext. exact I1.
    + unfold is_ascii in *. rewrite forallb_forall in *. intros x Hx. apply in_map_iff in Hx as (y & <- & Hy). specialize (Hs y Hy).
      unfold norm1, dash, ascii_up. destruct ((97 <=? y) && (y <=? 122)) eqn:E1; [destruct (y - 32 =? 45); lia|destruct (y =? 45); lia].
    + unfold bytes_ok in *. rewrite Forall_forall in *. intros x Hx. apply in_map_iff in Hx as (y & <- & Hy). specialize (Hb y Hy).
      unfold norm1, dash, ascii_up. destruct ((97 <=? y) && (y <=? 122)) eqn:E1; [destruct (y - 32 =? 45); lia|destruct (y =? 45); lia].
  - unfold NormalizeName at 2 3. unfold ToUpper. rewrite Hs, map_dash_encode, map_map. set (f := fun r => dash (up r)).
    assert (Hd : forall r, up (dash (up r)) = dash (up r)).
    { intros r. unfold dash at 2. unfold dash. destruct (up r =? 45) eqn:E; [rewrite H2 by lia; reflexivity|apply H1]. }
    assert (Hdd : forall r, f (f r) = f r).
    { intros r. unfold f. rewrite Hd. unfold dash. destruct (up r =? 45) eqn:E; [reflexivity|]. now rewrite E. }
    assert (Hv : forall r, valid_rune r = true -> valid_rune (f r) = true).
    { intros r Hr. unfold f, dash. destruct (up r =? 45); [reflexivity|auto]. }
    pose proof (runes_valid s) as Hrs. set (q := map f (runes s)).
    assert (Hq : Forall (fun r => valid_rune r = true) q) by (unfold q; apply Forall_map; eapply Forall_impl; [|exact Hrs]; auto).
    change (NormalizeName up (encode q) = encode q). destruct (is_ascii (encode q)) eqn:Hq2.
    + rewrite A by (auto; apply encode_bytes).
      assert (Hq3 : encode q = q /\ Forall (fun r => 0 <= r < 128) q).
      { clear - Hq Hq2. induction q as [|r q IH]; [split; [reflexivity|constructor]|]. inversion Hq; subst. rewrite encode_cons in *. unfold is_ascii in Hq2.
        rewrite forallb_app in Hq2. apply andb_true_iff in Hq2 as [Ha Hb]. destruct (IH H2 Hb) as [I1 I2].
        assert (Hr : 0 <= r < 128).
        { apply valid_rune_spec in H1 as Hv. unfold encode_rune in Ha. rewrite H1 in Ha. destruct (r <? 128) eqn:E; [lia|]. exfalso.
          destruct (r <? 2048); [|destruct (r <? 65536)]; cbn [forallb] in Ha; apply andb_true_iff in Ha as [Ha _];
          assert (0 <= r / 64) by (apply Z.div_pos; lia); assert (0 <= r / 4096) by (apply Z.div_pos; lia); assert (0 <= r / 262144) by (apply Z.div_pos; lia); lia. }
        split; [rewrite ascii_encode by exact Hr; cbn; now rewrite I1|constructor; assumption]. }
      destruct Hq3 as [-> Hq3]. unfold q. rewrite map_map. apply map_ext_in. intros r Hr.
      assert (Hfr : 0 <= f r < 128). { rewrite Forall_forall in Hq3. apply Hq3. unfold q. apply in_map_iff. eauto. }
      unfold norm1. rewrite <- H2 by exact Hfr. apply Hdd.
    + unfold NormalizeName, ToUpper. rewrite Hq2, runes_encode by exact Hq. rewrite map_dash_encode, map_map. f_equal. unfold q. rewrite map_map. apply map_ext. exact Hdd.
Qed.

Fixpoint keysb (t : list (str * str)) : bool :=
  match t with [] => true | (k, _) :: t' => negb (existsb (fun p => str_eqb k (fst p)) t') && keysb t' end.
Lemma aget_in {V} (t : list (str * V)) k v : aget str_eqb t k = Some v -> In (k, v) t.
Proof.
  induction t as [|[k0 v0] t IH]; cbn; [discriminate|]. destruct (str_eqb k k0) eqn:E; intros H.
  - apply str_eqb_eq in E. injection H as <-. subst. now left.
  - right. auto.
Qed.
Lemma aget_notin {V} (t : list (str * V)) k : aget str_eqb t k = None -> ~ In k (map fst t).
Proof.
  induction t as [|[k0 v0] t IH]; cbn; [auto|]. destruct (str_eqb k k0) eqn:E; [discriminate|]. intros H [Hx|Hx].
  - subst. now rewrite str_eqb_refl in E.
  - now apply IH in H.
Qed.
Lemma names_ascii : Forall (fun p => ascii (fst p) /\ map norm1 (fst p) = fst p) NameToCode.
Proof.
  assert (H : forallb (fun p => forallb (fun b => (0 <=? b) && (b <? 128)) (fst p) && str_eqb (map norm1 (fst p)) (fst p)) NameToCode = true) by (vm_compute; reflexivity).
  rewrite forallb_forall in H. apply Forall_forall. intros p Hp. apply H in Hp. apply andb_true_iff in Hp as [H1 H2]. split; [|now apply str_eqb_eq].
  unfold ascii. rewrite forallb_forall in H1. apply Forall_forall. intros b Hb. apply H1 in Hb. lia.
Qed.

Lemma bind_named up km key f km' ok : BindKeyFunc up km key f = (km', ok) ->
  (ok = true /\ exists name code, In (name, code) NameToCode /\ name = NormalizeName up key /\ (ascii key -> same_name key name) /\
     Lookup km' code = f /\ forall k, k <> code -> Lookup km' k = Lookup km k) \/
  (ok = false /\ km' = km /\ ~ In (NormalizeName up key) (map fst NameToCode) /\
     (ascii key -> forall name code, In (name, code) NameToCode -> ~ same_name key name)).
Proof.
  unfold BindKeyFunc. pose proof names_ascii as HN. rewrite Forall_forall in HN.
  assert (Nn : forall name code, In (name, code) NameToCode -> ascii name /\ NormalizeName up name = name).
  { intros name code Hin. destruct (HN _ Hin) as [Ha Hm]. cbn [fst] in *. split; [exact Ha|]. now rewrite normalize_ascii. }
  destruct (aget str_eqb NameToCode (NormalizeName up key)) as [code|] eqn:Hg; intros H; injection H as <- <-.
  - left. split; [reflexivity|]. apply aget_in in Hg. exists (NormalizeName up key), code. split; [exact Hg|]. split; [reflexivity|]. split.
    + intros Ha. destruct (Nn _ _ Hg) as [Ha' Hn]. apply (normalize_same up); auto.
    + split; [apply bind_same|]. intros k Hk. apply bind_other. congruence.
  - right. split; [reflexivity|]. split; [reflexivity|]. apply aget_notin in Hg. split; [exact Hg|]. intros Ha name code Hin Hs.
    destruct (Nn _ _ Hin) as [Ha' Hn]. apply (normalize_same up) in Hs; auto. apply Hg. rewrite Hs, Hn. apply in_map_iff. exists (name, code). auto.
Qed.
Lemma bind_names_ok up km key f : ascii key -> (exists name code, In (name, code) NameToCode /\ same_name key name) -> snd (BindKeyFunc up km key f) = true.
Proof.
  intros Ha (name & code & Hin & Hs). destruct (BindKeyFunc up km key f) as [km' ok] eqn:H. apply bind_named in H as [[-> _]|(_ & _ & _ & H)]; [reflexivity|].
  exfalso. exact (H Ha name code Hin Hs).
Qed.
Lemma symbol_fails up km key fn : BindKeySymbol up NameToFunc km key fn = (km, false).
Proof.
  unfold BindKeySymbol, GetFunc. destruct (aget str_eqb NameToFunc (NormalizeName up key)) as [f|] eqn:Hf; [|reflexivity].
  unfold BindKeyFunc. destruct (aget str_eqb NameToCode (NormalizeName up key)) as [code|] eqn:Hc; [|reflexivity]. exfalso.
  assert (D : forallb (fun p => match aget str_eqb NameToCode (fst p) with None => true | _ => false end) NameToFunc = true) by (vm_compute; reflexivity).
  rewrite forallb_forall in D. apply aget_in in Hf. apply D in Hf. cbn [fst] in Hf. now rewrite Hc in Hf.
Qed.

(** Names with a code of their own. *)
Definition shared_names : list str := map s2l ["CTRL_DOWN"; "DOWN"; "M_BACKSPACE"; "BACKSPACE"; "F16"; "CLEAR"; "C_L"; "CTRL"; "C_Q"; "CTRL_BREAK"; "C_C"; "PAUSE"; "C_S"; "ENTER"; "C_M"; "ESCAPE"; "C_["]%string.
Definition odd_names : list str := map s2l ["F13"; "F14"; "F15"; "F17"; "F18"; "F19"; "F20"; "F21"; "F22"; "F23"; "F24"]%string.
Definition memb (x : str) (l : list str) : bool := existsb (str_eqb x) l.
Lemma memb_in x l : memb x l = true <-> In x l.
Proof.
  unfold memb. rewrite existsb_exists. split; [intros (y & H1 & H2); apply str_eqb_eq in H2; now subst|]. intros H. exists x. split; [exact H|apply str_eqb_refl].
Qed.
Lemma codes_distinct n1 c1 n2 c2 : In (n1, c1) NameToCode -> In (n2, c2) NameToCode -> n1 <> n2 ->
  ~ In n1 shared_names -> c1 <> c2.
Proof.
  intros H1 H2 Hn Hs.
  assert (D : forallb (fun p => forallb (fun q => str_eqb (fst p) (fst q) || memb (fst p) shared_names || negb (str_eqb (snd p) (snd q))) NameToCode) NameToCode = true) by (vm_compute; reflexivity).
  rewrite forallb_forall in D. apply D in H1. rewrite forallb_forall in H1. apply H1 in H2. cbn [fst snd] in H2.
  apply orb_true_iff in H2 as [H2|H2]; [apply orb_true_iff in H2 as [H2|H2]|].
  - apply str_eqb_eq in H2. congruence.
  - apply memb_in in H2. contradiction.
  - intros ->. now rewrite str_eqb_refl in H2.
Qed.
(** No other code is a character: it starts with a control character. *)
Lemma codes_control n c : In (n, c) NameToCode -> ~ In n odd_names -> exists b t, c = b :: t /\ (0 <= b < 32 \/ (b = 127 /\ t = [])) /\ (t <> [] -> b = 27).
Proof.
  intros H Hs.
  assert (D : forallb (fun p => memb (fst p) odd_names || match snd p with b :: t => (((0 <=? b) && (b <? 32)) || ((b =? 127) && match t with [] => true | _ => false end))
     && match t with [] => true | _ => b =? 27 end | [] => false end) NameToCode = true) by (vm_compute; reflexivity).
  rewrite forallb_forall in D. apply D in H. cbn [fst snd] in H. apply orb_true_iff in H as [H|H]; [apply memb_in in H; contradiction|].
  destruct c as [|b t]; [discriminate|]. exists b, t. split; [reflexivity|]. apply andb_true_iff in H as [H1 H2]. split.
  - apply orb_true_iff in H1 as [H1|H1]; [left; lia|]. right. apply andb_true_iff in H1 as [H1 H3]. split; [lia|]. destruct t; [reflexivity|discriminate].
  - intros Ht. destruct t; [congruence|lia].
Qed.
