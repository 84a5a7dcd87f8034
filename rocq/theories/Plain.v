(** Sessions in which no string contains a tab or a joining code point: they never
    panic.  Intermediate step of the proofs. *)
From Verif Require Import Base Utf8 Moji Color Prompt Buffer Commands KeyMap Session MojiFacts Abs AbsRef AbsSess AbsSafe AbsInv Safe SafeSess.

(** * An ASCII byte is a boundary for decoding *)
Lemma decode_ascii_boundary x a b t : 0 <= b < 128 ->
  decode_rune (x :: a ++ b :: t) = decode_rune (x :: a).
Proof.
  intros Hb. cbn [decode_rune]. unfold is_cont, in_range.
  destruct ((0 <=? x) && (x <=? 127)); [reflexivity|].
  destruct ((194 <=? x) && (x <=? 223)).
  { destruct a as [|y a]; cbn [app]; [|reflexivity]. replace ((128 <=? b) && (b <=? 191)) with false by lia. reflexivity. }
  destruct ((224 <=? x) && (x <=? 239)).
  { destruct a as [|y [|z a]]; cbn [app]; [|now rewrite (proj2 (andb_false_iff _ _)); [|right; lia]|reflexivity].
    destruct t; [reflexivity|]. rewrite (proj2 (andb_false_iff _ _)); [reflexivity|left]. destruct (x =? 224), (x =? 237); lia. }
  destruct ((240 <=? x) && (x <=? 244)); [|reflexivity].
  destruct a as [|y [|z [|u a]]]; cbn [app]; [| | |reflexivity].
  - destruct t as [|? [|? ?]]; try reflexivity. replace (_ && (b <=? _)) with false by (destruct (x =? 240), (x =? 244); lia). reflexivity.
  - destruct t as [|? ?]; try reflexivity. replace ((128 <=? b) && (b <=? 191)) with false by lia. now rewrite !andb_false_r.
  - replace ((128 <=? b) && (b <=? 191)) with false by lia. now rewrite !andb_false_r.
Qed.

Lemma runes_ascii_split b t : 0 <= b < 128 -> forall a, runes (a ++ b :: t) = runes a ++ b :: runes t.
Proof.
  intros Hb a. remember (List.length a) as n eqn:Hn. assert (Hl : (List.length a <= n)%nat) by lia. clear Hn. revert a Hl.
  induction n as [|n IH]; intros a Hl.
  - destruct a; [|cbn in Hl; lia]. cbn [app]. rewrite runes_step.
    unfold decode_rune. replace (in_range b 0 127) with true by (unfold in_range; lia). reflexivity.
  - destruct a as [|x a]; [apply (IH []); cbn; lia|]. cbn [app].
    rewrite (runes_step x (a ++ b :: t)), decode_ascii_boundary by exact Hb.
    rewrite (runes_step x a). cbn [app]. f_equal.
    pose proof (decode_rune_size x a) as Hs. set (k := snd (decode_rune (x :: a))) in *.
    change (x :: a ++ b :: t) with ((x :: a) ++ b :: t). rewrite skipn_app.
    replace (k - List.length (x :: a))%nat with 0%nat by (cbn [List.length]; lia). cbn [skipn].
    apply IH. rewrite skipn_length. cbn [List.length] in *. lia.
Qed.

Lemma runes_tab s : In 9 (runes s) <-> In 9 s.
Proof.
  split.
  - remember (List.length s) as n eqn:Hn. assert (Hl : (List.length s <= n)%nat) by lia. clear Hn. revert s Hl.
    induction n as [|n IH]; intros s Hl H.
    + destruct s; [destruct H|cbn in Hl; lia].
    + destruct s as [|b t]; [destruct H|]. rewrite runes_step in H. destruct H as [H|H].
      * left. revert H. cbn [decode_rune]. unfold is_cont, in_range, RuneError.
        destruct ((0 <=? b) && (b <=? 127)); [cbn; congruence|].
        destruct ((194 <=? b) && (b <=? 223)) eqn:E2.
        { destruct t as [|b1 t]; [cbn; lia|]. destruct ((128 <=? b1) && (b1 <=? 191)) eqn:E3; cbn [fst]; lia. }
        destruct ((224 <=? b) && (b <=? 239)) eqn:E3.
        { destruct t as [|b1 [|b2 t]]; cbn [fst]; try lia.
          match goal with |- context [if ?c then _ else (_, 1%nat)] => destruct c eqn:E4 end; cbn [fst]; [|lia].
          destruct (b =? 224) eqn:Ea, (b =? 237) eqn:Eb; lia. }
        destruct ((240 <=? b) && (b <=? 244)) eqn:E4; [|cbn; lia].
        destruct t as [|b1 [|b2 [|b3 t]]]; cbn [fst]; try lia.
        match goal with |- context [if ?c then _ else (_, 1%nat)] => destruct c eqn:E5 end; cbn [fst]; [|lia].
        destruct (b =? 240) eqn:Ea, (b =? 244) eqn:Eb; lia.
      * apply IH in H.
        -- rewrite <- (firstn_skipn (snd (decode_rune (b :: t))) (b :: t)). apply in_or_app. now right.
        -- pose proof (decode_rune_size b t). rewrite skipn_length. cbn [List.length] in *. lia.
  - intros H. apply in_split in H as (a & c & ->). rewrite runes_ascii_split by lia.
    apply in_or_app. right. now left.
Qed.

(** * Strings all of whose code points satisfy some condition *)
Section Runes.
Variable P : rune -> Prop.
Definition all_runes (s : str) : Prop := Forall P (runes s).

Lemma all_nil : all_runes []. Proof. constructor. Qed.
Lemma all_ascii_split a b t : 0 <= b < 128 -> all_runes (a ++ b :: t) <-> all_runes a /\ P b /\ all_runes t.
Proof.
  intros Hb. unfold all_runes. rewrite runes_ascii_split by exact Hb. rewrite Forall_app. split.
  - intros [H1 H2]. inversion H2; subst. auto.
  - intros (H1 & H2 & H3). split; [exact H1|now constructor].
Qed.
Lemma all_trim_right t : all_runes t -> all_runes (trim_right t).
Proof.
  unfold trim_right. rewrite <- (rev_involutive t) at 1. induction (rev t) as [|b l IH]; [cbn; auto|].
  cbn [drop_while]. destruct (is_trim b) eqn:Hb; [|auto]. intros H. apply IH. cbn [rev] in H.
  apply (all_ascii_split (rev l) b []) in H; [tauto|]. revert Hb. unfold is_trim. cbn. lia.
Qed.

Lemma first_occ (b : Z) t : ~ In b t \/ exists a c, t = a ++ b :: c /\ ~ In b a.
Proof.
  induction t as [|x t IH]; [left; intros []|]. destruct (Z.eq_dec x b) as [->|Hx].
  - right. exists [], t. auto.
  - destruct IH as [IH|(a & c & -> & Ha)].
    + left. intros [H|H]; auto.
    + right. exists (x :: a), c. split; [reflexivity|]. intros [H|H]; auto.
Qed.
Lemma double_quotes_app a b : double_quotes (a ++ b) = double_quotes a ++ double_quotes b.
Proof. apply flat_map_app. Qed.
Lemma double_quotes_none a : ~ In 34 a -> double_quotes a = a.
Proof.
  induction a as [|x a IH]; [reflexivity|]. intros H. unfold double_quotes in *. cbn [flat_map].
  destruct (x =? 34) eqn:Hx; [exfalso; apply H; left; lia|]. cbn [app]. rewrite IH; [reflexivity|].
  intros Hi. apply H. now right.
Qed.
Lemma all_double_quotes t : all_runes t -> all_runes (double_quotes t).
Proof.
  remember (List.length t) as n eqn:Hn. assert (Hl : (List.length t <= n)%nat) by lia. clear Hn. revert t Hl.
  induction n as [|n IH]; intros t Hl H.
  - destruct t; [exact H|cbn in Hl; lia].
  - destruct (first_occ 34 t) as [Hf|(a & c & -> & Hf)]; [now rewrite double_quotes_none|].
    rewrite double_quotes_app, (double_quotes_none a Hf).
    change (double_quotes (34 :: c)) with (34 :: 34 :: double_quotes c).
    apply all_ascii_split in H; [|lia]. destruct H as (H1 & H2 & H3). apply all_ascii_split; [lia|].
    split; [exact H1|]. split; [exact H2|]. apply (all_ascii_split [] 34); [lia|]. split; [constructor|]. split; [exact H2|].
    apply IH; [|exact H3]. rewrite app_length in Hl. cbn in Hl. lia.
Qed.

Lemma quote_lines_cons2 b c t : quote_lines (b :: c :: t)
  = if (b =? 13) && (c =? 10) then [34; 13; 10; 34] ++ quote_lines t else b :: quote_lines (c :: t).
Proof. reflexivity. Qed.
Lemma all_quote_lines t : P 34 -> all_runes t -> all_runes (quote_lines t).
Proof.
  intros P34.
  (* a ++ t where a is already passed and contains nothing to quote at its end *)
  assert (G : forall n a t, (List.length t <= n)%nat -> all_runes (a ++ t) -> all_runes (a ++ quote_lines t)).
  { induction n as [|n IH]; intros a l Hl H.
    - destruct l; [exact H|cbn in Hl; lia].
    - destruct l as [|b [|c l]]; [exact H|exact H|]. rewrite quote_lines_cons2.
      destruct ((b =? 13) && (c =? 10)) eqn:Hbc.
      + assert (b = 13) by lia. assert (c = 10) by lia. subst.
        apply all_ascii_split in H as (H1 & H2 & H3); [|lia]. apply (all_ascii_split [] 10) in H3 as (_ & H4 & H5); [|lia].
        cbn [app]. repeat (first [apply all_ascii_split; [lia|]; split; [exact H1|]|apply (all_ascii_split []); [lia|]; split; [constructor|]]; split; [assumption|]).
        apply (IH []); [cbn in Hl; lia|exact H5].
      + replace (a ++ b :: quote_lines (c :: l)) with ((a ++ [b]) ++ quote_lines (c :: l)) by (rewrite <- app_assoc; reflexivity).
        apply IH; [cbn [List.length] in *; lia|]. now rewrite <- app_assoc. }
  intros H. apply (G (List.length t) []); [lia|exact H].
Qed.
Lemma all_yank_quote t : P 34 -> all_runes t -> all_runes (yank_quote t).
Proof.
  intros P34 H. unfold yank_quote. destruct (_ && _); [|exact H]. apply all_quote_lines; [exact P34|].
  apply (all_ascii_split [] 34); [lia|]. split; [constructor|]. split; [exact P34|].
  apply (all_ascii_split _ 34 []); [lia|]. split; [now apply all_double_quotes|]. split; [exact P34|constructor].
Qed.
Lemma all_altgr k : all_runes k -> all_runes (altgr k).
Proof.
  intros H. unfold altgr. destruct k as [|a [|x [|y k]]]; try exact H. destruct (a =? 27) eqn:Ha; [|exact H].
  assert (a = 27) by lia. subst. now apply (all_ascii_split [] 27) in H; [|lia].
Qed.
End Runes.

Section WithSess.
Variable S : scfg.
Notation C := (base S).
Notation E := (cE C).

(** A code point that makes up a unit of its own and is no tab. *)
Definition plain_rune (r : rune) : Prop := r <> 9 /\ joinlike E r = false.
Definition plain (s : str) : Prop := all_runes plain_rune s.
Definition pm (m : moji) : Prop := exists r, m = rune2moji E r 0 /\ plain_rune r /\ valid_rune r = true.

Lemma units_plain rs : Forall plain_rune rs -> forall m, units_from E (Some m) rs = m :: map (fun r => rune2moji E r 0) rs.
Proof.
  induction rs as [|r|r n rs IH1 IH2] using rune_list_ind; intros H m.
  - reflexivity.
  - apply Forall_cons_iff in H as [[_ Hj] _]. rewrite units_some1. unfold joinlike in Hj.
    apply orb_false_iff in Hj as [Hj ->]. apply orb_false_iff in Hj as [-> ->]. reflexivity.
  - apply Forall_cons_iff in H as [[_ Hj] H]. rewrite units_some2. unfold joinlike in Hj.
    apply orb_false_iff in Hj as [Hj ->]. apply orb_false_iff in Hj as [-> ->].
    rewrite (IH2 H). reflexivity.
Qed.
Lemma plain_units s : plain s -> Forall pm (units E s).
Proof.
  unfold plain, all_runes, units. intros H. pose proof (runes_valid s) as HV. destruct (runes s) as [|r rs]; [constructor|].
  apply Forall_cons_iff in H as [Hr H]. apply Forall_cons_iff in HV as [Vr HV]. rewrite units_none, units_plain by exact H. constructor.
  - exists r. auto.
  - apply Forall_map. rewrite Forall_forall in *. intros x Hx. exists x. auto.
Qed.
Lemma pm_self m : pm m -> self E m.
Proof. intros (r & -> & _ & H). now apply self_rune2moji. Qed.
Lemma pm_head m : pm m -> headok E m.
Proof. intros (r & -> & H & _). unfold headok. rewrite mrunes_rune2moji. apply H. Qed.
Lemma plain_text l : Forall pm l -> plain (text l).
Proof.
  intros H. unfold plain, all_runes. rewrite runes_text with (E := E).
  - induction H as [|m l (r & -> & Hr & _) _ IH]; [constructor|]. cbn [flat_map]. rewrite mrunes_rune2moji. now constructor.
  - eapply Forall_impl; [|exact H]. apply pm_self.
Qed.
Lemma pm_notab m : pm m -> has_tab m = false.
Proof.
  intros (r & -> & (H & _) & _). unfold rune2moji. replace (r =? 9) with false by lia.
  destruct (r <? 32); [reflexivity|]. destruct (_ && _); [reflexivity|]. destruct (isToBeEscaped E r); [reflexivity|].
  destruct (in_range r 127462 127487); [reflexivity|]. destruct (in_range r 119808 120831); [reflexivity|].
  destruct (r =? 127987); reflexivity.
Qed.

Hypothesis HVe : joinlike E RuneError = false.
Hypothesis HV34 : plain_rune 34.
Hypothesis Hpred : pcolor0 C = [] \/ forall t c, plain (predictor C t c).
Hypothesis Hhist : Forall plain (hist C).

Definition NA (a : astate) : Prop :=
  Forall pm (aline a) /\ Forall (fun u => plain (u_text u)) (aundo a) /\ apend a = [] /\
  (forall k t, In (k, t) (amodh a) -> plain t) /\ (forall t, aclip a = Some t -> plain t) /\ Forall pm (asuf a).

Lemma NA_set_cur a c : NA a -> NA (aset_cur a c). Proof. exact (fun H => H). Qed.
Lemma NA_set_hptr a c : NA a -> NA (aset_hptr a c). Proof. exact (fun H => H). Qed.
Lemma NA_set_line a l : NA a -> Forall pm l -> NA (aset_line a l).
Proof. intros (_ & H) Hl. split; [exact Hl|exact H]. Qed.
Lemma NA_push a u : NA a -> plain (u_text u) -> NA (apush a u).
Proof. intros (H1 & H2 & H3) Hu. split; [exact H1|]. split; [now constructor|exact H3]. Qed.
Lemma NA_clip a t : NA a -> plain t -> NA (aset_clip a (Some t)).
Proof.
  intros (H1 & H2 & H3 & H4 & H5 & H6) Ht. repeat (split; [assumption|]). split; [|exact H6].
  intros t0 H; injection H as <-. exact Ht.
Qed.
Lemma NA_aclip_write a t : NA a -> plain t -> NA (aclip_write a t).
Proof. intros H Ht. unfold aclip_write. destruct (aclip a); [now apply NA_clip|exact H]. Qed.
Lemma NA_set_suf a l : NA a -> Forall pm l -> NA (aset_suf a l).
Proof. intros (H1 & H2 & H3 & H4 & H5 & H6) Hl. repeat (split; [assumption|]). exact Hl. Qed.
Lemma NA_aupdate a : NA a -> NA (aupdate C a).
Proof.
  intros H. unfold aupdate. destruct Hpred as [->|Hp]; [exact H|]. destruct (pcolor0 C); [exact H|].
  destruct (aline a); [now apply NA_set_suf|]. apply NA_set_suf; [exact H|]. apply plain_units, Hp.
Qed.
Lemma NA_ains a pos l a' : NA a -> Forall pm l -> ains a pos l = Some a' -> NA a'.
Proof.
  intros H Hl Hi. unfold ains in Hi. opt Hi. injection Hi as <-. apply NA_push; [|constructor].
  apply NA_set_line; [exact H|]. eapply Forall_sliceInsert; eauto. apply H.
Qed.
Lemma NA_adelete a pos n a' : NA a -> adelete a pos n = Some a' -> NA a'.
Proof.
  intros H Hd. unfold adelete in Hd. destruct ((n <=? 0) || (zlen (aline a) <? pos + n)) eqn:Hc; [injection Hd as <-; exact H|].
  opt Hd. injection Hd as <-. apply NA_set_line.
  - apply NA_push; [exact H|]. apply plain_text. eapply Forall_slice; [exact Ev|apply H].
  - eapply Forall_sliceDelete; [|exact Ev0|apply H]. lia.
Qed.
Lemma NA_ajoin a : NA a -> NA (ajoin a).
Proof.
  intros H. unfold ajoin. destruct (aundo a) as [|u2 [|u1 st]] eqn:Hu; try exact H.
  destruct (join2 u1 u2) as [u|] eqn:Hj; [|exact H].
  pose proof H as (H1 & H2 & H3). rewrite Hu in H2. apply Forall_cons_iff in H2 as [P2 H2]. apply Forall_cons_iff in H2 as [P1 H2].
  split; [exact H1|]. split; [|exact H3]. constructor; [|exact H2].
  unfold join2 in Hj. destruct (negb (u_pos u1 =? u_pos u2)); [discriminate|]. destruct (_ && _); [discriminate|].
  destruct (_ && _); [discriminate|]. injection Hj as <-. cbn. destruct (str_eqb _ _); assumption.
Qed.
Lemma NA_areplace a pos t a' : NA a -> plain t -> areplace C a pos t = Some a' -> NA a'.
Proof.
  intros H Ht Hr. unfold areplace in Hr. opt Hr. injection Hr as <-. apply NA_aupdate, NA_ajoin, NA_set_cur.
  eapply NA_ains; [|apply plain_units; exact Ht|exact Ev0]. eapply NA_adelete; eauto.
Qed.
Lemma NA_self k a a' : NA a -> plain k -> aselfInsert C k a = Some a' -> NA a'.
Proof.
  intros H Hk Hs. unfold aselfInsert in Hs. pose proof (all_altgr _ _ Hk) as Hk'.
  assert (Hj : joinlike E (fst (decode_rune (altgr k))) = false).
  { destruct (altgr k) as [|x t] eqn:Hal; [exact HVe|]. unfold all_runes in Hk'. rewrite runes_step in Hk'.
    apply Forall_cons_iff in Hk' as [[_ Hx] _]. exact Hx. }
  unfold AreZeroWidthJoin, AreVariationSelectorLike, AreEmojiModifier in Hs. unfold joinlike in Hj.
  apply orb_false_iff in Hj as [Hj Hj3]. apply orb_false_iff in Hj as [Hj1 Hj2]. rewrite Hj1, Hj2, Hj3, !andb_false_r in Hs.
  cbn [andb orb] in Hs. destruct H as (H1 & H2 & H3 & H4). rewrite H3 in Hs. unfold aself_tail in Hs. opt Hs. injection Hs as <-.
  apply NA_aupdate, NA_set_cur. eapply NA_ains; [|apply plain_units; exact Hk'|exact Ev]. repeat (split; [assumption|]). exact H4.
Qed.
Lemma NA_BackwardDelete a a' : NA a -> aBackwardDelete C a = Some a' -> NA a'.
Proof.
  intros H Hb. unfold aBackwardDelete in Hb. destruct (0 <? acur a); [|injection Hb as <-; exact H].
  opt Hb. injection Hb as <-. apply NA_aupdate. eapply NA_adelete; [|exact Ev]. exact H.
Qed.
Lemma NA_KillWhole a : NA a -> NA (aKillWhole a).
Proof.
  intros H. unfold aKillWhole. apply NA_set_cur, NA_set_line; [|constructor]. apply NA_push; [exact H|]. apply plain_text, H.
Qed.
Lemma In_aset (m : list (Z * str)) k v k' v' : In (k', v') (aset Z.eqb m k v) -> In (k', v') m \/ v' = v.
Proof.
  unfold aset, adel. intros [H|H]; [injection H as _ <-; now right|]. apply filter_In in H. left. apply H.
Qed.
Lemma NA_save a a' : NA a -> asave C a = Some a' -> NA a'.
Proof.
  intros H Hs. unfold asave in Hs.
  assert (G : NA (aset_modh a (aset Z.eqb (amodh a) (ahptr a) (atext a)))).
  { destruct H as (H1 & H2 & H3 & H4 & H5 & H6). repeat (split; [assumption|]). split; [|auto].
    intros k t Hi. apply In_aset in Hi as [Hi| ->]; [now apply H4 in Hi|]. now apply plain_text. }
  destruct (_ <? _); [|injection Hs as <-; exact G]. opt Hs. destruct (str_eqb _ _); injection Hs as <-; [exact H|exact G].
Qed.
Lemma aget_In (m : list (Z * str)) k v : aget Z.eqb m k = Some v -> exists k', In (k', v) m.
Proof.
  induction m as [|[k0 v0] m IH]; cbn [aget]; [discriminate|]. destruct (Z.eqb k k0).
  - intros H; injection H as ->. exists k0. now left.
  - intros H. apply IH in H as [k' H]. exists k'. now right.
Qed.
Lemma NA_show a a' : NA a -> ashow C a = Some a' -> NA a'.
Proof.
  intros H Hs. unfold ashow in Hs. apply NA_KillWhole in H. opt Hs.
  assert (Hp : plain s).
  { unfold agetHistory in Ev. destruct (aget Z.eqb _ _) eqn:Hg.
    - injection Ev as <-. apply aget_In in Hg as [k' Hk']. destruct H as (_ & _ & _ & H & _). eapply H. exact Hk'.
    - destruct (_ || _); [injection Ev as <-; constructor|]. eapply Forall_index; [exact Ev|exact Hhist]. }
  destruct s as [|x t]; [injection Hs as <-; exact H|]. opt Hs. injection Hs as <-. apply NA_set_cur.
  eapply NA_ains; [exact H|apply plain_units; exact Hp|exact Ev0].
Qed.
Lemma NA_Previous a a' : NA a -> aPrevious C a = Some a' -> NA a'.
Proof.
  intros H Hs. unfold aPrevious in Hs. destruct (_ <=? 0); [injection Hs as <-; exact H|].
  destruct (_ <=? 0); [destruct (negb _); [injection Hs as <-; exact H|]|]; opt Hs;
  (eapply NA_show; [|exact Hs]; apply NA_set_hptr; eapply NA_save; [|exact Ev]; exact H).
Qed.
Lemma NA_Next a a' : NA a -> aNext C a = Some a' -> NA a'.
Proof.
  intros H Hs. unfold aNext in Hs. destruct (_ <=? 0); [injection Hs as <-; exact H|].
  destruct (_ <? _); [injection Hs as <-; exact H|]. opt Hs.
  eapply NA_show; [|exact Hs]. apply NA_set_hptr. eapply NA_save; [|exact Ev]. exact H.
Qed.
Lemma Forall_aswap l i j l' : Forall pm l -> aswap l i j = Some l' -> Forall pm l'.
Proof.
  intros H Hs. unfold aswap in Hs. opt Hs.
  pose proof (Forall_index _ _ _ _ Ev H). pose proof (Forall_index _ _ _ _ Ev0 H).
  destruct (Forall_set_index _ _ _ _ _ Ev1 H) as [G _]; [assumption|].
  now destruct (Forall_set_index _ _ _ _ _ Hs G).
Qed.

Lemma NA_exec b c a a' r : NA a -> (forall k, c = CSelfInsert k -> plain k) -> aexec C b c a = Some (a', r) -> NA a'.
Proof.
  intros H Hk He.
  assert (G : forall o, (forall a0, o = Some a0 -> NA a0) -> acontinue o = Some (a', r) -> NA a').
  { intros o Ho Hc. unfold acontinue in Hc. opt Hc. injection Hc as <- _. now apply Ho. }
  destruct c; cbn [aexec] in He.
  - injection He as <- _. exact H.
  - injection He as <- _. destruct H as (H1 & H2 & H3). split; [constructor|]. split; [constructor|exact H3].
  - injection He as <- _. now apply NA_aupdate.
  - injection He as <- _. unfold aBackwardChar. destruct (_ <=? _); [exact H|now apply NA_aupdate].
  - injection He as <- _. exact H.
  - eapply G; [|exact He]. intros a0 Ha. unfold aForwardChar in Ha. destruct (_ <=? _); [|injection Ha as <-; exact H].
    destruct (asuf a) as [|m l] eqn:Hsuf; [injection Ha as <-; exact H|]. eapply NA_areplace; [exact H| |exact Ha].
    apply plain_text. rewrite <- Hsuf. apply H.
  - eapply G; [|exact He]. intros a0 Ha. eapply NA_BackwardDelete; eauto.
  - eapply G; [|exact He]. intros a0 Ha. unfold aDelete in Ha. opt Ha. injection Ha as <-. apply NA_aupdate. eapply NA_adelete; eauto.
  - destruct (_ <? _); [|injection He as <- _; exact H]. eapply G; [|exact He]. intros a0 Ha. unfold aDelete in Ha. opt Ha.
    injection Ha as <-. apply NA_aupdate. eapply NA_adelete; eauto.
  - eapply G; [|exact He]. intros a0 Ha. unfold aKillLine in Ha. opt Ha. injection Ha as <-.
    assert (Hp : plain (text l)) by (apply plain_text; eapply Forall_slice; [exact Ev|apply H]).
    apply NA_set_line; [|eapply Forall_slice; [exact Ev0|apply H]]. apply NA_push; [|exact Hp]. now apply NA_aclip_write.
  - injection He as <- _. now apply NA_KillWhole.
  - eapply G; [|exact He]. intros a0 Ha. unfold aWordRubout in Ha. opt Ha. injection Ha as <-.
    apply NA_aupdate, NA_set_cur. eapply NA_adelete; [|exact Ev2]. apply NA_aclip_write; [exact H|].
    apply plain_text. eapply Forall_slice; [exact Ev1|apply H].
  - eapply G; [|exact He]. intros a0 Ha. unfold aLineDiscard in Ha. opt Ha. injection Ha as <-.
    apply NA_aupdate, NA_set_cur. eapply NA_adelete; [|exact Ev0]. apply NA_aclip_write; [exact H|].
    apply plain_text. eapply Forall_slice; [exact Ev|apply H].
  - injection He as <- _. now apply NA_aupdate.
  - injection He as <- _. now apply NA_aupdate.
  - injection He as <- _. exact H.
  - eapply G; [|exact He]. intros a0 Ha. unfold aYank in Ha. destruct (aclip a) as [t|] eqn:Hcl; [|injection Ha as <-; exact H].
    eapply NA_areplace; [exact H| |exact Ha]. apply all_trim_right. now apply H.
  - eapply G; [|exact He]. intros a0 Ha. unfold aYank in Ha. destruct (aclip a) as [t|] eqn:Hcl; [|injection Ha as <-; exact H].
    eapply NA_areplace; [exact H| |exact Ha]. apply all_yank_quote; [exact HV34|]. now apply H.
  - eapply G; [|exact He]. intros a0 Ha. unfold aSwapChar in Ha.
    destruct (_ =? _); (destruct (_ <? _); [injection Ha as <-; exact H|]); opt Ha; injection Ha as <-;
      try apply NA_set_cur; (apply NA_set_line; [|eapply Forall_aswap; [|exact Ev0]; apply H]);
      (apply NA_push; [exact H|]); cbn; (apply plain_text; eapply Forall_slice; [exact Ev|apply H]).
  - eapply G; [|exact He]. intros a0 Ha. unfold aBackwardWord in Ha. opt Ha. injection Ha as <-. now apply NA_aupdate.
  - eapply G; [|exact He]. intros a0 Ha. unfold aForwardWord in Ha. opt Ha. injection Ha as <-. destruct b; [now apply NA_aupdate|exact H].
  - eapply G; [|exact He]. intros a0 Ha. unfold aUndo in Ha. destruct (aundo a) as [|u st] eqn:Hu; [injection Ha as <-; exact H|].
    opt Ha. injection Ha as <-. apply NA_aupdate.
    assert (H0 : Forall pm l).
    { destruct (0 <? u_del u) eqn:Hd; [eapply Forall_sliceDelete; [|exact Ev|apply H]; lia|injection Ev as <-; apply H]. }
    pose proof H as (H1 & H2 & H3). rewrite Hu in H2. apply Forall_cons_iff in H2 as [Hp H2].
    assert (H5 : NA (aset_line (aset_undo a st) l)).
    { apply NA_set_line; [|exact H0]. split; [exact H1|]. split; [exact H2|exact H3]. }
    destruct (u_text u) as [|x t] eqn:Ht; [injection Ev0 as <-; exact H5|].
    opt Ev0. injection Ev0 as <-. apply NA_set_cur, NA_set_line; [exact H5|].
    eapply Forall_sliceInsert; [exact Ev1|exact H0|]. now apply plain_units.
  - eapply G; [|exact He]. intros a0 Ha. eapply NA_Previous; eauto.
  - eapply G; [|exact He]. intros a0 Ha. eapply NA_Next; eauto.
  - injection He as <- _. exact H.
  - eapply G; [|exact He]. intros a0 Ha. eapply NA_self; [exact H|now apply Hk|exact Ha].
  - discriminate.
Qed.

(** Search strings never contain a tab. *)
Definition SSN (ss : search) : Prop := ~ In 9 (ss_str ss) /\ plain (ss_found ss).
Definition notab (s : str) : Prop := ~ In 9 s.
Lemma plain_notab s : plain s -> notab s.
Proof. intros H Hi. apply runes_tab in Hi. unfold plain, all_runes in H. rewrite Forall_forall in H. now apply H in Hi as [Hi _]. Qed.
Lemma hist_notab l : incl l (hist C) -> forall x, In x l -> plain x.
Proof. intros Hi x Hx. rewrite Forall_forall in Hhist. apply Hhist, Hi, Hx. Qed.
Lemma SSN_update_loop l : (forall x, In x l -> plain x) -> forall i ss, ~ In 9 (ss_str ss) -> SSN (search_update S l i ss).
Proof.
  induction l as [|h l IH]; intros Hl i ss Hs; cbn [search_update]; [split; cbn; [exact Hs|constructor]|].
  destruct (ci_contains S h (ss_str ss)).
  - split; [exact Hs|]. apply Hl. now left.
  - apply IH; [|exact Hs]. intros x Hx. apply Hl. now right.
Qed.
Lemma SSN_update ss : ~ In 9 (ss_str ss) -> SSN (update S ss).
Proof. intros H. apply SSN_update_loop; [|exact H]. apply hist_notab. intros x Hx. now apply in_rev. Qed.
Lemma SSN_older f : forall i ss ss', SSN ss -> search_older S f i ss = Some ss' -> SSN ss'.
Proof.
  induction f as [|f IH]; intros i ss ss' H Hs; [discriminate|]. cbn [search_older] in Hs.
  set (j := if i <? 0 then zlen (hist C) - 1 else i) in *.
  destruct (j =? ss_pos ss); [injection Hs as <-; exact H|]. opt Hs. destruct (_ && _).
  - injection Hs as <-. split; [apply H|]. cbn. exact (Forall_index plain _ _ _ Ev Hhist).
  - eapply IH; eauto.
Qed.
Lemma SSN_newer f : forall i ss ss', SSN ss -> search_newer S f i ss = Some ss' -> SSN ss'.
Proof.
  induction f as [|f IH]; intros i ss ss' H Hs; [discriminate|]. cbn [search_newer] in Hs.
  destruct (_ <=? _); [injection Hs as <-; exact H|].
  destruct (i =? ss_pos ss); [injection Hs as <-; exact H|]. opt Hs. destruct (_ && _).
  - injection Hs as <-. split; [apply H|]. cbn. exact (Forall_index plain _ _ _ Ev Hhist).
  - eapply IH; eauto.
Qed.
Lemma notab_encode_rune r : is_control r = false -> notab (encode_rune r).
Proof.
  intros H Hi. apply runes_tab in Hi. rewrite encode_rune_fix in Hi.
  set (x := if valid_rune r then r else RuneError) in *.
  assert (Hx : valid_rune x = true) by (unfold x; destruct (valid_rune r) eqn:Hv; [exact Hv|reflexivity]).
  rewrite <- (app_nil_r (encode_rune x)), runes_encode_rune in Hi by exact Hx.
  destruct Hi as [Hi|[]]. unfold x in Hi. destruct (valid_rune r); [|discriminate]. subst. discriminate.
Qed.
Lemma notab_chop t : notab t -> notab (chop t).
Proof.
  intros H Hi. apply runes_tab in Hi. unfold chop in Hi. rewrite runes_encode in Hi.
  - apply H, runes_tab. rewrite <- (rev_involutive (runes t)) in Hi |- *. destruct (rev (runes t)) as [|x l]; [exact Hi|].
    cbn [rev] in *. rewrite removelast_last in Hi. apply in_or_app. now left.
  - pose proof (runes_valid t) as HV. rewrite <- (rev_involutive (runes t)) in HV |- *. destruct (rev (runes t)) as [|x l]; [exact HV|].
    cbn [rev] in *. rewrite removelast_last. now apply Forall_app in HV.
Qed.
Lemma SSN_key k ss ss' : SSN ss -> search_key S k ss = Some (SContinue ss') -> SSN ss'.
Proof.
  intros H Hs. unfold search_key in Hs.
  destruct (_ || _); [injection Hs as <-; apply SSN_update; cbn; apply notab_chop, H|].
  destruct (str_eqb k [13]); [discriminate|]. destruct (_ || _); [discriminate|].
  destruct (str_eqb k [18]); [opt Hs; injection Hs as <-; eapply SSN_older; eauto|].
  destruct (str_eqb k [19]); [opt Hs; injection Hs as <-; eapply SSN_newer; eauto|].
  destruct (decode_rune k) as [r n]. destruct (is_control r) eqn:Hc; injection Hs as <-; [exact H|].
  apply SSN_update. cbn. intros Hi. apply in_app_or in Hi as [Hi|Hi]; [now apply H in Hi|]. now apply notab_encode_rune in Hi.
Qed.

Hypothesis HE : env_ok E.
Hypothesis Hrw : forall r, rw E r <= 8.
Hypothesis HB : builtin_keys S.

Lemma pm_width m : pm m -> width E m <= 8.
Proof.
  intros (r & -> & Hr & Hv). apply valid_rune_spec in Hv.
  assert (Hl : lenEscaped r <= 8).
  { unfold lenEscaped. cbn [lenEscaped_loop].
    destruct (15 <? r); [|lia]. assert (H1 : 0 <= r / 16 <= 69631) by lia. set (r1 := r / 16) in *. clearbody r1.
    destruct (15 <? r1); [|lia]. assert (H2 : 0 <= r1 / 16 <= 4351) by lia. set (r2 := r1 / 16) in *. clearbody r2.
    destruct (15 <? r2); [|lia]. assert (H3 : 0 <= r2 / 16 <= 271) by lia. set (r3 := r2 / 16) in *. clearbody r3.
    destruct (15 <? r3); [|lia]. assert (H4 : 0 <= r3 / 16 <= 16) by lia. set (r4 := r3 / 16) in *. clearbody r4.
    destruct (15 <? r4); [|lia]. assert (H5 : 0 <= r4 / 16 <= 1) by lia. set (r5 := r4 / 16) in *. clearbody r5.
    replace (15 <? r5) with false by lia. lia. }
  unfold rune2moji. destruct (r =? 9); [vm_compute; discriminate|].
  destruct (r <? 32); [cbn; lia|]. destruct (_ && _); [cbn; lia|]. destruct (isToBeEscaped E r); [exact Hl|].
  destruct (in_range r 127462 127487); [cbn; lia|]. destruct (in_range r 119808 120831); [cbn; lia|].
  destruct (r =? 127987); [cbn; lia|apply Hrw].
Qed.

Definition NS (x : asess) : Prop :=
  match x with
  | ARunning m a => NA a /\ match m with MSearch ss => SSN ss | _ => True end
  | AFinished a _ _ => NA a
  end.

(** Every string an event brings is plain, every width is large enough. *)
Definition plain_event (e : event) : Prop :=
  match e with
  | EKey k => plain k /\ LookupCommand (kmap S) (gmap S) k <> CSwapChar /\
      (forall k', LookupCommand (kmap S) (gmap S) k = CSelfInsert k' -> plain k')
  | EKeyErr => True
  | EResize w => PW C + 3 + 8 < w
  | EClip c => match c with Some t => plain t | None => True end
  end.

Lemma NS_after o x : (forall a r, o = Some (a, r) -> NA a) -> aafter o = Some x -> NS x.
Proof.
  intros Ho H. unfold aafter in H. opt H. subst. specialize (Ho _ _ eq_refl).
  destruct r; injection H as <-; cbn; try (apply NA_set_suf; [exact Ho|constructor]). auto.
Qed.

Lemma NS_step b e x x' : NS x -> plain_event e -> astep S b e x = Some x' -> NS x'.
Proof.
  intros H He Hs. destruct x as [m a|a t r]; cbn [astep] in Hs; [|injection Hs as <-; exact H].
  destruct H as [H Hm]. destruct e as [k| |w|c].
  - destruct He as (Hk & Hsw & Hself). destruct m as [| |ss].
    + unfold akey_normal in Hs. remember (LookupCommand (kmap S) (gmap S) k) as c eqn:Hc.
      assert (G : aafter (aexec C b c a) = Some x' -> NS x').
      { apply NS_after. intros a0 r0 H0. eapply NA_exec; [exact H| |exact H0]. exact Hself. }
      destruct c; try (apply G; exact Hs).
      * injection Hs as <-. split; [exact H|exact I].
      * injection Hs as <-. split; [exact H|]. split; [intros []|constructor].
    + opt Hs. injection Hs as <-. split; [|exact I]. eapply NA_self; [exact H|exact Hk|exact Ev].
    + unfold akey_search in Hs. opt Hs. destruct s as [ss'| |].
      * injection Hs as <-. split; [exact H|]. eapply SSN_key; eauto.
      * opt Hs. injection Hs as <-. split; [|exact I].
        unfold aaccept in Ev0. destruct Hm as [_ Hf].
        eapply NA_areplace; [|exact Hf|exact Ev0]. exact (NA_KillWhole a H).
      * injection Hs as <-. split; [exact H|exact I].
  - destruct m; injection Hs as <-; cbn; auto.
  - destruct m; injection Hs as <-; cbn; auto using NA_aupdate.
  - injection Hs as <-. split; [|exact Hm]. destruct H as (H1 & H2 & H3 & H4 & H5 & H6).
    repeat (split; [assumption|]). split; [|exact H6]. cbn. intros t ->. exact He.
Qed.

Lemma lim_notab l : Forall pm l -> lim E l.
Proof.
  intros H. left. apply forallb_forall. intros m Hm. rewrite Forall_forall in H. now rewrite (pm_notab m (H m Hm)).
Qed.

Lemma units_notab rs : ~ In 9 rs -> forall o, match o with Some m => has_tab m = false | None => True end ->
  forallb (fun m => negb (has_tab m)) (units_from E o rs) = true.
Proof.
  assert (R : forall r, r <> 9 -> has_tab (rune2moji E r 0) = false).
  { intros r H. unfold rune2moji. replace (r =? 9) with false by lia.
    destruct (r <? 32); [reflexivity|]. destruct (_ && _); [reflexivity|]. destruct (isToBeEscaped E r); [reflexivity|].
    destruct (in_range r 127462 127487); [reflexivity|]. destruct (in_range r 119808 120831); [reflexivity|].
    destruct (r =? 127987); reflexivity. }
  induction rs as [|r|r n rs IH1 IH2] using rune_list_ind; intros H o Ho.
  - destruct o as [m|]; [cbn; now rewrite Ho|reflexivity].
  - destruct o as [m|]; [|rewrite units_none; cbn; rewrite R; [reflexivity|intros ->; apply H; now left]].
    rewrite units_some1. repeat (match goal with |- context [if ?c then _ else _] => destruct c end; [cbn; now rewrite Ho|]).
    cbn [forallb]. rewrite Ho, R; [reflexivity|intros ->; apply H; now left].
  - assert (Hr : r <> 9) by (intros ->; apply H; now left).
    assert (H' : ~ In 9 (n :: rs)) by (intros Hi; apply H; now right).
    destruct o as [m|]; [|rewrite units_none; apply IH2; [exact H'|now apply R]].
    rewrite units_some2. destruct (isZeroWidthJoin E r); [apply IH1; [intros Hi; apply H'; now right|cbn; now rewrite Ho]|].
    destruct (isVariationSelectorLike E r); [apply (IH2 H'); cbn; now rewrite Ho|].
    destruct (isEmojiModifier E r); [apply (IH2 H'); cbn; now rewrite Ho|].
    cbn [forallb]. rewrite Ho. apply (IH2 H'). now apply R.
Qed.

Lemma NS_fits w x : PW C + 3 + 8 < w -> NS x -> fits S w x /\ sheads S x.
Proof.
  intros Hw H.
  assert (G : forall a, NA a -> line_ok C (w - PW C - 3) (aline a)).
  { intros a (Ha & _). split; [lia|]. split; [|now apply lim_notab]. eapply Forall_impl; [|exact Ha].
    intros m Hm. apply pm_width in Hm. lia. }
  destruct x as [m a|a t r]; cbn in H; [|split; [now apply G|exact I]]. destruct H as [H Hm]. split.
  - split; [now apply G|]. destruct m as [| |ss]; try exact I. destruct Hm as [H1 H2]. left. unfold units. apply units_notab; [|exact I].
    intros Hi. apply (proj1 (runes_tab _)) in Hi. unfold search_line in Hi. apply in_app_or in Hi as [Hi|Hi].
    { cbn in Hi. repeat destruct Hi as [Hi|Hi]; try discriminate; destruct Hi. }
    apply in_app_or in Hi as [Hi|Hi]; [now apply H1|]. apply in_app_or in Hi as [Hi|Hi].
    { cbn in Hi. repeat destruct Hi as [Hi|Hi]; try discriminate; destruct Hi. }
    now apply plain_notab in H2.
  - destruct H as (H & _). unfold sheads, heads. eapply Forall_impl; [|exact H]. apply pm_head.
Qed.

Lemma NS_guarded es : Forall plain_event es -> forall w x, PW C + 3 + 8 < w -> NS x -> guarded S w x es.
Proof.
  induction 1 as [|e es He _ IH]; intros w x Hw H; destruct (NS_fits w x Hw H) as [Hf Hh]; cbn [guarded]; split; auto; split; auto.
  split.
  - destruct e as [k| |w'|c]; destruct x as [[| |ss] a|a t r]; cbn; try (intros []; fail); try (intros H0; exact H0).
    destruct He as (_ & He & _). intros [H1 _]. now apply He.
  - intros b x' Hx'. apply IH.
    + destruct e as [k| |w'|c]; try exact Hw. destruct x as [[| |ss] a|a t r]; try exact Hw. exact He.
    + eapply NS_step; eauto.
Qed.

Lemma pred_plain : pred_ok C.
Proof. destruct Hpred as [H|H]; [now left|right]. intros t c. apply lim_notab, plain_units, H. Qed.

Lemma plain_readline default cur w cl es : 0 <= cur -> PW C + 3 + 8 < w -> plain default ->
  match cl with Some t => plain t | None => True end -> Forall plain_event es ->
  exists x' w', readline S default cur w cl es = Some x' /\ SC S w' x' /\ sInv S (abss x').
Proof.
  intros Hc Hw Hd Hcl Hes. apply readline_safe; auto using pred_plain.
  apply NS_guarded; auto. split; [|exact I]. unfold astart. apply NA_aupdate.
  split; [now apply plain_units|]. split; [repeat constructor|]. split; [reflexivity|].
  split; [intros k t []|]. split; [|constructor]. cbn. intros t ->. exact Hcl.
Qed.

End WithSess.
