(** The word before the cursor. *)
From Verif Require Import Base Utf8 Moji Color Prompt Buffer Commands KeyMap Session MojiFacts
  Abs AbsRef AbsSess AbsSafe AbsInv Spec CmdFacts.

Lemma open_quote_snoc l m : open_quote (l ++ [m]) = quote_step (open_quote l) m.
Proof. unfold open_quote. now rewrite fold_left_app. Qed.
Lemma is_space_noquote r : is_space r = true -> (r =? 34) || (r =? 39) = false.
Proof. unfold is_space, in_range. lia. Qed.
Lemma quote_step_blank q m : blank m = true -> q = 0 \/ q = 34 \/ q = 39 -> quote_step q m = q.
Proof.
  unfold blank, IsSpaceMoji, quote_step. destruct (MojiToRune m) as [r|]; [|discriminate]. intros H Hq.
  pose proof (is_space_noquote _ H) as Hn. apply orb_false_iff in Hn as [H1 H2].
  destruct (q =? 0) eqn:H0; [rewrite H1, H2; cbn; lia|]. destruct (r =? q) eqn:Hr; [lia|reflexivity].
Qed.
Lemma quote_range l : open_quote l = 0 \/ open_quote l = 34 \/ open_quote l = 39.
Proof.
  induction l as [|m l IH] using rev_ind; [now left|]. rewrite open_quote_snoc. unfold quote_step.
  destruct (MojiToRune m) as [ch|]; [|exact IH]. destruct (open_quote l =? 0).
  - destruct ((ch =? 34) || (ch =? 39)) eqn:Hc; lia.
  - destruct (ch =? open_quote l); [now left|exact IH].
Qed.

(** The loop of CurrentWordTop: after reading [pre] with the word start [top]. *)
Definition top_ok (pre : list moji) (top : Z) : Prop :=
  (top < 0 /\ top = -1 /\ exists a sk, pre = a ++ sk /\ word_boundary a /\ forallb (fun m => negb (single m)) sk = true) \/
  (0 <= top /\ exists a sk w, pre = a ++ sk ++ w /\ top = zlen (a ++ sk) /\ word_boundary a /\
     forallb (fun m => negb (single m)) sk = true /\ one_word (a ++ sk) w /\
     exists m w', w = m :: w' /\ single m = true).

Lemma forallb_single_quote l q : forallb (fun m => negb (single m)) l = true -> fold_left quote_step l q = q.
Proof.
  revert q. induction l as [|m l IH]; intros q H; [reflexivity|]. cbn in *. apply andb_true_iff in H as [H1 H2].
  rewrite IH by exact H2. unfold single, quote_step in *. destruct (MojiToRune m); [discriminate|reflexivity].
Qed.

Lemma one_word_snoc pre w m : one_word pre w -> (blank m = true -> open_quote (pre ++ w) <> 0) -> one_word pre (w ++ [m]).
Proof.
  intros H Hm a x b Heq Hx. destruct (@exists_last _ (x :: b)) as (b' & y & Hy); [discriminate|].
  destruct b as [|b0 b].
  - apply app_inj_tail in Heq as [<- <-]. now apply Hm.
  - assert (exists z b'', b0 :: b = b'' ++ [z]) as (z & b'' & Hz).
    { destruct (@exists_last _ (b0 :: b)) as (u & v & ->); [discriminate|]. eauto. }
    rewrite Hz in Heq. change (a ++ x :: b'' ++ [z]) with (a ++ (x :: b'') ++ [z]) in Heq.
    rewrite app_assoc in Heq. apply app_inj_tail in Heq as [-> _]. eapply H; [reflexivity|exact Hx].
Qed.

Lemma word_loop_ok l : forall pre top, top_ok pre top ->
  top_ok (pre ++ l) (word_loop (zlen pre) (open_quote pre) top l).
Proof.
  induction l as [|m l IH]; intros pre top H; cbn [word_loop].
  - now rewrite app_nil_r.
  - assert (Hz : zlen pre + 1 = zlen (pre ++ [m])) by (rewrite zlen_app; reflexivity).
    replace (pre ++ m :: l) with ((pre ++ [m]) ++ l) by (rewrite <- app_assoc; reflexivity).
    pose proof (open_quote_snoc pre m) as Hq. unfold quote_step in Hq.
    destruct (MojiToRune m) as [ch|] eqn:Hm.
    + set (q := if open_quote pre =? 0 then if is_delimiter ch then ch else open_quote pre
                else if ch =? open_quote pre then 0 else open_quote pre) in *.
      assert (Hqq : q = open_quote (pre ++ [m])).
      { subst q. rewrite Hq. unfold is_delimiter. destruct (open_quote pre =? 0) eqn:H0; [|reflexivity].
        destruct ((ch =? 34) || (ch =? 39)); [reflexivity|lia]. }
      rewrite Hz, Hqq. apply IH. clear IH.
      assert (Hb : blank m = is_space ch) by (unfold blank, IsSpaceMoji; now rewrite Hm).
      destruct (is_space ch && (open_quote (pre ++ [m]) =? 0)) eqn:Hs.
      * apply andb_true_iff in Hs as [Hs1 Hs2].
        assert (Ho : open_quote pre = 0).
        { rewrite open_quote_snoc, quote_step_blank in Hs2; [lia|congruence|apply quote_range]. }
        left. split; [lia|]. split; [reflexivity|]. exists (pre ++ [m]), []. rewrite app_nil_r. split; [reflexivity|].
        split; [|reflexivity]. right. exists pre, m. split; [reflexivity|]. split; [congruence|exact Ho].
      * assert (Hnb : blank m = true -> open_quote pre <> 0).
        { intros Hbl Ho. rewrite <- Hb, Hbl in Hs. rewrite open_quote_snoc, quote_step_blank, Ho in Hs; [discriminate|exact Hbl|apply quote_range]. }
        destruct H as [(H1 & -> & a & sk & Hp & Ha & Hsk)|(H1 & a & sk & w & Hp & Ht & Ha & Hsk & Hw & Hx)].
        -- change (-1 <? 0) with true. cbn iota. right. split; [apply zlen_nonneg|].
           exists a, sk, [m]. rewrite app_assoc, <- Hp. split; [reflexivity|]. split; [reflexivity|]. split; [exact Ha|].
           split; [exact Hsk|]. split.
           ++ intros a0 x b Heq Hx. destruct a0 as [|y a0]; [|destruct a0; discriminate]. injection Heq as -> _.
              rewrite app_nil_r. now apply Hnb.
           ++ exists m, []. split; [reflexivity|]. unfold single. now rewrite Hm.
        -- replace (top <? 0) with false by lia. right. split; [exact H1|].
           exists a, sk, (w ++ [m]). split; [rewrite Hp, <- !app_assoc; reflexivity|]. split; [exact Ht|]. split; [exact Ha|].
           split; [exact Hsk|]. split.
           ++ apply one_word_snoc; [exact Hw|]. rewrite <- app_assoc, <- Hp. exact Hnb.
           ++ destruct Hx as (y & w' & -> & Hy). exists y, (w' ++ [m]). auto.
    + rewrite Hz. replace (open_quote pre) with (open_quote (pre ++ [m])) by (rewrite Hq; reflexivity).
      apply IH. clear IH.
      assert (Hsm : single m = false) by (unfold single; now rewrite Hm).
      assert (Hbm : blank m = false) by (unfold blank, IsSpaceMoji; now rewrite Hm).
      destruct H as [(H1 & -> & a & sk & Hp & Ha & Hsk)|(H1 & a & sk & w & Hp & Ht & Ha & Hsk & Hw & Hx)].
      * left. split; [lia|]. split; [reflexivity|]. exists a, (sk ++ [m]). split; [now rewrite Hp, <- app_assoc|]. split; [exact Ha|].
        rewrite forallb_app, Hsk. cbn. now rewrite Hsm.
      * right. split; [exact H1|]. exists a, sk, (w ++ [m]). split; [rewrite Hp, <- !app_assoc; reflexivity|]. split; [exact Ht|].
        split; [exact Ha|]. split; [exact Hsk|]. split; [apply one_word_snoc; [exact Hw|congruence]|].
        destruct Hx as (y & w' & -> & Hy). exists y, (w' ++ [m]). auto.
Qed.

Lemma aWordTop_split a0 p q : aline a0 = p ++ q -> acur a0 = zlen p ->
  exists a sk w, word_split p a sk w /\ aWordTop a0 = Some (zlen (a ++ sk)).
Proof.
  intros Hl Hc. unfold aWordTop. rewrite Hl, Hc, slice_pre.
  assert (H0 : top_ok [] (-1)). { left. split; [lia|]. split; [reflexivity|]. exists [], []. split; [reflexivity|]. split; [now left|reflexivity]. }
  pose proof (word_loop_ok p [] (-1) H0) as H. cbn [app] in H. change (zlen (@nil moji)) with 0 in H. change (open_quote []) with 0 in H.
  destruct H as [(H1 & H2 & a & sk & Hp & Ha & Hsk)|(H1 & a & sk & w & Hp & Ht & Ha & Hsk & Hw & Hx)].
  - rewrite H2. change (-1 <? 0) with true. cbn iota. exists a, sk, []. split.
    + split; [now rewrite app_nil_r|]. split; [exact Ha|]. split; [exact Hsk|]. split; [|now left].
      intros b m c Heq. destruct b; discriminate.
    + now rewrite Hp.
  - replace (word_loop 0 0 (-1) p <? 0) with false by lia. exists a, sk, w. split; [|now rewrite Ht].
    split; [exact Hp|]. split; [exact Ha|]. split; [exact Hsk|]. split; [exact Hw|now right].
Qed.

Lemma CurrentWordTop_split s p q : at_split s p q ->
  exists a sk w, word_split p a sk w /\ CurrentWordTop s = Some (zlen (a ++ sk)).
Proof.
  intros [Hl Hc]. destruct (aWordTop_split (abs s) p q Hl Hc) as (a & sk & w & Hw & Ht).
  exists a, sk, w. split; [exact Hw|].
  assert (Hz : zlen (cells s) = zlen p + zlen q) by (rewrite <- zlen_app, <- Hl; unfold line; now rewrite zlen_map).
  unfold CurrentWordTop. destruct (slice_ex (cells s) 0 (cursor s)) as (d & _ & _ & Hd & _); [pose proof (zlen_nonneg p); lia|pose proof (zlen_nonneg q); lia|].
  rewrite Hd. rewrite <- Ht. unfold aWordTop. cbn [aline acur abs]. rewrite slice_emojis, Hd. cbn [option_map].
  assert (Hw2 : word_loop 0 0 (-1) (emojis d) = word_loop 0 0 (-1) (map c_moji d)).
  { rewrite <- (word_loop_erase (map c_moji d)). unfold emojis, emoji. now rewrite map_map. }
  now rewrite Hw2.
Qed.

Lemma CurrentWord_split s p q : at_split s p q ->
  exists a sk w, word_split p a sk w /\ CurrentWord s = Some (written w, zlen (a ++ sk)).
Proof.
  intros H. destruct (CurrentWordTop_split s p q H) as (a & sk & w & Hw & Ht). exists a, sk, w. split; [exact Hw|].
  unfold CurrentWord. rewrite Ht. destruct H as [Hl Hc].
  assert (Hz : zlen (cells s) = zlen p + zlen q) by (rewrite <- zlen_app, <- Hl; unfold line; now rewrite zlen_map).
  destruct Hw as (Hp & _). rewrite app_assoc in Hp.
  assert (Hzp : zlen p = zlen (a ++ sk) + zlen w) by (rewrite Hp at 1; apply zlen_app).
  pose proof (zlen_nonneg (a ++ sk)). pose proof (zlen_nonneg w). pose proof (zlen_nonneg q).
  unfold SubString. destruct (slice_ex (cells s) (zlen (a ++ sk)) (cursor s)) as (d & _ & _ & Hd & _); [lia|lia|].
  rewrite Hd. do 3 f_equal.
  assert (Hs : slice (emojis (cells s)) (zlen (a ++ sk)) (cursor s) = Some w).
  { change (emojis (cells s)) with (line s). rewrite Hl, Hc, Hp, <- (app_assoc (a ++ sk) w q), (zlen_app (a ++ sk) w). apply slice_app_mid. }
  rewrite slice_emojis, Hd in Hs. injection Hs as <-. apply cell2string_text.
Qed.

(** Without composite units the skipped part is empty. *)
Lemma single_skip a sk w : forallb single (a ++ sk ++ w) = true -> forallb (fun m => negb (single m)) sk = true -> sk = [].
Proof.
  intros H Hs. destruct sk as [|m sk]; [reflexivity|]. rewrite !forallb_app in H. cbn in *.
  destruct (single m); [discriminate|]. rewrite andb_false_r in H. discriminate.
Qed.
Lemma CurrentWord_single s p q : at_split s p q -> forallb single p = true ->
  exists a w, p = a ++ w /\ word_boundary a /\ one_word a w /\ CurrentWord s = Some (written w, zlen a).
Proof.
  intros H Hp. destruct (CurrentWord_split s p q H) as (a & sk & w & (Hw & Hb & Hsk & Ho & _) & Hc).
  assert (sk = []) by (apply (single_skip a sk w); [now rewrite <- Hw|exact Hsk]). subst sk.
  rewrite app_nil_r in *. exists a, w. auto.
Qed.
