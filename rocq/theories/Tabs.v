(** Sessions in which no string contains a joining code point, tabs are allowed and nothing
    is longer than 800 characters: they never panic.  Intermediate step of the proofs. *)
From Verif Require Import Base Utf8 Moji Color Prompt Buffer Commands KeyMap Session MojiFacts Abs AbsRef AbsSess AbsSafe AbsInv Safe SafeSess Plain.
Ltac lia := unfold rune in *; Lia.lia.

(** * Lengths *)
Lemma zlen_ins {A} (l : list A) i x l' : sliceInsert l i x = Some l' -> zlen l' = zlen l + zlen x.
Proof.
  intros H. destruct (Z_le_dec 0 i) as [H1|H1]; [destruct (Z_le_dec i (zlen l)) as [H2|H2]|].
  - rewrite sliceInsert_firstn in H by lia. injection H as <-. rewrite !zlen_app, zlen_firstn, zlen_skipn. lia.
  - rewrite sliceInsert_none in H by lia. discriminate.
  - rewrite sliceInsert_none in H by lia. discriminate.
Qed.
Lemma zlen_del {A} (l : list A) i n l' : 0 <= n -> sliceDelete l i n = Some l' -> zlen l' <= zlen l.
Proof.
  intros Hn H. destruct (Z_le_dec 0 i) as [H1|H1]; [destruct (Z_le_dec (i + n) (zlen l)) as [H2|H2]|].
  - rewrite sliceDelete_firstn in H by lia. injection H as <-. rewrite !zlen_app, zlen_firstn, zlen_skipn. lia.
  - rewrite sliceDelete_none in H by lia. discriminate.
  - rewrite sliceDelete_none in H by lia. discriminate.
Qed.
Lemma zlen_cut {A} (l : list A) a b d : slice l a b = Some d -> zlen d <= zlen l.
Proof.
  intros H. apply slice_split in H as (p & q & -> & _ & _). rewrite !zlen_app. pose proof (zlen_nonneg p). pose proof (zlen_nonneg q). lia.
Qed.

(** Numbers of code points. *)
Definition nr (s : str) : Z := zlen (runes s).
Lemma nr_nonneg s : 0 <= nr s. Proof. apply zlen_nonneg. Qed.
Lemma nr_split a b t : 0 <= b < 128 -> nr (a ++ b :: t) = nr a + 1 + nr t.
Proof. intros H. unfold nr. rewrite runes_ascii_split by exact H. rewrite zlen_app, zlen_cons. lia. Qed.
Lemma nr_cons b t : 0 <= b < 128 -> nr (b :: t) = 1 + nr t.
Proof. intros H. change (b :: t) with ([] ++ b :: t). rewrite nr_split by exact H. reflexivity. Qed.
Lemma nr_trim_right t : nr (trim_right t) <= nr t.
Proof.
  unfold trim_right. rewrite <- (rev_involutive t) at 2. induction (rev t) as [|b l IH]; [change (0 <= 0); lia|].
  cbn [drop_while]. destruct (is_trim b) eqn:Hb; [|lia]. cbn [rev]. rewrite (nr_split (rev l) b []); [change (nr []) with 0; lia|].
  revert Hb. unfold is_trim. cbn. lia.
Qed.
Lemma nr_double_quotes t : nr (double_quotes t) <= 2 * nr t.
Proof.
  remember (List.length t) as n eqn:Hn. assert (Hl : (List.length t <= n)%nat) by lia. clear Hn. revert t Hl.
  induction n as [|n IH]; intros t Hl.
  - destruct t; [change (0 <= 0); lia|cbn in Hl; lia].
  - destruct (first_occ 34 t) as [Hf|(a & c & -> & Hf)]; [rewrite (double_quotes_none (fun _ => True) _ Hf); pose proof (nr_nonneg t); lia|].
    rewrite double_quotes_app, (double_quotes_none (fun _ => True) a Hf).
    change (double_quotes (34 :: c)) with (34 :: 34 :: double_quotes c).
    rewrite !nr_split, nr_cons by lia. rewrite app_length in Hl. cbn in Hl. specialize (IH c ltac:(lia)). pose proof (nr_nonneg a). lia.
Qed.
Lemma nr_quote_lines t : nr (quote_lines t) <= 2 * nr t.
Proof.
  assert (G : forall n a t, (List.length t <= n)%nat -> nr (a ++ quote_lines t) <= 2 * nr (a ++ t)).
  { induction n as [|n IH]; intros a l Hl.
    - destruct l; [|cbn in Hl; lia]. cbn [quote_lines]. pose proof (nr_nonneg (a ++ [])). lia.
    - destruct l as [|b [|c l]]; [pose proof (nr_nonneg (a ++ [])); cbn [quote_lines]; lia|pose proof (nr_nonneg (a ++ [b])); cbn [quote_lines]; lia|].
      rewrite quote_lines_cons2. destruct ((b =? 13) && (c =? 10)) eqn:Hbc.
      + assert (b = 13) by lia. assert (c = 10) by lia. subst. cbn [app]. rewrite !nr_split, !nr_cons by lia.
        specialize (IH [] l ltac:(cbn in Hl; lia)). cbn [app] in IH. pose proof (nr_nonneg a). lia.
      + replace (a ++ b :: quote_lines (c :: l)) with ((a ++ [b]) ++ quote_lines (c :: l)) by (rewrite <- app_assoc; reflexivity).
        replace (a ++ b :: c :: l) with ((a ++ [b]) ++ c :: l) by (rewrite <- app_assoc; reflexivity).
        apply IH. cbn [List.length] in *. lia. }
  exact (G (List.length t) [] t (le_n _)).
Qed.
Lemma nr_yank_quote t : nr (yank_quote t) <= 4 * nr t + 4.
Proof.
  unfold yank_quote. destruct (_ && _); [|pose proof (nr_nonneg t); lia].
  etransitivity; [apply nr_quote_lines|]. pose proof (nr_double_quotes t) as H. cbn [app]. rewrite nr_cons by lia.
  rewrite (nr_split _ 34 []) by lia. change (nr []) with 0. lia.
Qed.
Lemma nr_altgr k : nr (altgr k) <= nr k.
Proof.
  unfold altgr. destruct k as [|a [|x [|y k]]]; try apply Z.le_refl. destruct (a =? 27) eqn:Ha; [|apply Z.le_refl].
  assert (a = 27) by lia. subst. rewrite (nr_cons 27) by lia. pose proof (nr_nonneg [x]). lia.
Qed.

Ltac z0 := cbn -[Z.le zlen]; rewrite ?zlen_nil; lia.
Section WithSess.
Variable S : scfg.
Notation C := (base S).
Notation E := (cE C).

(** A code point that makes up a unit of its own. *)
Definition sr (r : rune) : Prop := joinlike E r = false.
Definition single (s : str) : Prop := all_runes sr s.
Definition sh (s : str) : Prop := single s /\ nr s <= 800.
Definition sm (m : moji) : Prop := exists r, m = rune2moji E r 0 /\ sr r /\ valid_rune r = true.

Lemma units_single rs : Forall sr rs -> forall m, units_from E (Some m) rs = m :: map (fun r => rune2moji E r 0) rs.
Proof.
  induction rs as [|r|r n rs IH1 IH2] using rune_list_ind; intros H m.
  - reflexivity.
  - apply Forall_cons_iff in H as [Hj _]. rewrite units_some1. unfold sr, joinlike in Hj.
    apply orb_false_iff in Hj as [Hj ->]. apply orb_false_iff in Hj as [-> ->]. reflexivity.
  - apply Forall_cons_iff in H as [Hj H]. rewrite units_some2. unfold sr, joinlike in Hj.
    apply orb_false_iff in Hj as [Hj ->]. apply orb_false_iff in Hj as [-> ->].
    rewrite (IH2 H). reflexivity.
Qed.
Lemma single_units s : single s -> Forall sm (units E s) /\ zlen (units E s) = nr s.
Proof.
  unfold single, all_runes, units, nr. intros H. pose proof (runes_valid s) as HV. destruct (runes s) as [|r rs]; [split; [constructor|reflexivity]|].
  apply Forall_cons_iff in H as [Hr H]. apply Forall_cons_iff in HV as [Vr HV]. rewrite units_none, units_single by exact H. split.
  - constructor; [exists r; auto|]. apply Forall_map. rewrite Forall_forall in *. intros x Hx. exists x. auto.
  - rewrite !zlen_cons, zlen_map. reflexivity.
Qed.
Lemma sm_self m : sm m -> self E m.
Proof. intros (r & -> & _ & H). now apply self_rune2moji. Qed.
Lemma sm_head m : sm m -> headok E m.
Proof. intros (r & -> & H & _). unfold headok. rewrite mrunes_rune2moji. apply H. Qed.
Lemma sm_text l : Forall sm l -> single (text l) /\ nr (text l) = zlen l.
Proof.
  intros H. unfold single, all_runes, nr. rewrite runes_text with (E := E).
  - induction H as [|m l (r & -> & Hr & _) _ [IH1 IH2]]; [split; [constructor|reflexivity]|]. cbn [flat_map]. rewrite mrunes_rune2moji. cbn [app].
    split; [now constructor|]. rewrite !zlen_cons. lia.
  - eapply Forall_impl; [|exact H]. apply sm_self.
Qed.
Lemma sh_text l : Forall sm l -> zlen l <= 800 -> sh (text l).
Proof. intros H1 H2. apply sm_text in H1 as [H H1]. split; [exact H|lia]. Qed.
Lemma sh_nil : sh []. Proof. split; [constructor|change (0 <= 800); lia]. Qed.

Hypothesis HVe : joinlike E RuneError = false.
Hypothesis HVa : forall r, 32 <= r < 127 -> joinlike E r = false.
Hypothesis Hpred : pcolor0 C = [] \/ forall t c, sh (predictor C t c).
Hypothesis Hhist : Forall sh (hist C).

(** The line has at most [n] units. *)
Definition TA (n : Z) (a : astate) : Prop :=
  Forall sm (aline a) /\ zlen (aline a) <= n /\ Forall (fun u => sh (u_text u)) (aundo a) /\ apend a = [] /\
  (forall k t, In (k, t) (amodh a) -> sh t) /\ (forall t, aclip a = Some t -> sh t) /\ (Forall sm (asuf a) /\ zlen (asuf a) <= 800).

Lemma TA_more n n' a : TA n a -> n <= n' -> TA n' a.
Proof. intros (H1 & H2 & H3) H. split; [exact H1|]. split; [lia|exact H3]. Qed.
Lemma TA_set_cur n a c : TA n a -> TA n (aset_cur a c). Proof. exact (fun H => H). Qed.
Lemma TA_set_hptr n a c : TA n a -> TA n (aset_hptr a c). Proof. exact (fun H => H). Qed.
Lemma TA_set_line n n' a l : TA n a -> Forall sm l -> zlen l <= n' -> TA n' (aset_line a l).
Proof. intros (_ & _ & H) Hl Hn. split; [exact Hl|]. split; [exact Hn|exact H]. Qed.
Lemma TA_push n a u : TA n a -> sh (u_text u) -> TA n (apush a u).
Proof. intros (H1 & H2 & H3 & H4) Hu. split; [exact H1|]. split; [exact H2|]. split; [now constructor|exact H4]. Qed.
Lemma TA_clip n a t : TA n a -> sh t -> TA n (aset_clip a (Some t)).
Proof.
  intros (H1 & H2 & H3 & H4 & H5 & H6 & H7) Ht. repeat (split; [assumption|]). split; [|exact H7].
  intros t0 H; injection H as <-. exact Ht.
Qed.
Lemma TA_aclip_write n a t : TA n a -> sh t -> TA n (aclip_write a t).
Proof. intros H Ht. unfold aclip_write. destruct (aclip a); [now apply TA_clip|exact H]. Qed.
Lemma TA_set_suf n a l : TA n a -> Forall sm l -> zlen l <= 800 -> TA n (aset_suf a l).
Proof. intros (H1 & H2 & H3 & H4 & H5 & H6 & H7) Hl Hn. do 6 (split; [assumption|]). split; [exact Hl|exact Hn]. Qed.
Lemma TA_aupdate n a : TA n a -> TA n (aupdate C a).
Proof.
  intros H. unfold aupdate. destruct Hpred as [->|Hp]; [exact H|]. destruct (pcolor0 C); [exact H|].
  destruct (aline a); [apply TA_set_suf; [exact H|exact (Forall_nil sm)|change (0 <= 800); lia]|].
  match goal with |- context [predictor C ?t ?c] => destruct (Hp t c) as [G1 G2] end. apply single_units in G1 as [G1 G3].
  apply TA_set_suf; [exact H|exact G1|lia].
Qed.
Lemma TA_ains n k a pos l a' : TA n a -> Forall sm l -> zlen l <= k -> ains a pos l = Some a' -> TA (n + k) a'.
Proof.
  intros H Hl Hk Hi. unfold ains in Hi. opt Hi. injection Hi as <-. apply TA_push; [|apply sh_nil].
  eapply TA_set_line; [exact H| |].
  - eapply Forall_sliceInsert; eauto. apply H.
  - rewrite (zlen_ins _ _ _ _ Ev). pose proof (proj1 (proj2 H)). lia.
Qed.
Lemma TA_adelete n a pos k a' : n <= 800 -> TA n a -> adelete a pos k = Some a' -> TA n a'.
Proof.
  intros Hn H Hd. unfold adelete in Hd. destruct ((k <=? 0) || (zlen (aline a) <? pos + k)) eqn:Hc; [injection Hd as <-; exact H|].
  opt Hd. injection Hd as <-. pose proof (proj1 (proj2 H)) as Hz. eapply TA_set_line.
  - apply TA_push; [exact H|]. cbn [u_text]. apply sh_text; [eapply Forall_slice; [exact Ev|apply H]|]. apply zlen_cut in Ev. lia.
  - eapply Forall_sliceDelete; [|exact Ev0|apply H]. lia.
  - apply zlen_del in Ev0; lia.
Qed.
Lemma TA_ajoin n a : TA n a -> TA n (ajoin a).
Proof.
  intros H. unfold ajoin. destruct (aundo a) as [|u2 [|u1 st]] eqn:Hu; try exact H.
  destruct (join2 u1 u2) as [u|] eqn:Hj; [|exact H].
  pose proof H as (H1 & H2 & H3 & H4). rewrite Hu in H3. apply Forall_cons_iff in H3 as [P2 H3]. apply Forall_cons_iff in H3 as [P1 H3].
  split; [exact H1|]. split; [exact H2|]. split; [|exact H4]. constructor; [|exact H3].
  unfold join2 in Hj. destruct (negb (u_pos u1 =? u_pos u2)); [discriminate|]. destruct (_ && _); [discriminate|].
  destruct (_ && _); [discriminate|]. injection Hj as <-. cbn. destruct (str_eqb _ _); assumption.
Qed.
Lemma TA_areplace n k a pos t a' : n <= 800 -> TA n a -> single t -> nr t <= k -> areplace C a pos t = Some a' -> TA (n + k) a'.
Proof.
  intros Hn H Ht Hk Hr. unfold areplace in Hr. opt Hr. injection Hr as <-. apply TA_aupdate, TA_ajoin, TA_set_cur.
  apply single_units in Ht as [G1 G2]. eapply TA_ains; [eapply TA_adelete; eauto|exact G1| |exact Ev0]. lia.
Qed.
Lemma TA_self n k a a' : TA n a -> sh k -> aselfInsert C k a = Some a' -> TA (n + 800) a'.
Proof.
  intros H [Hk Hn] Hs. unfold aselfInsert in Hs. pose proof (all_altgr _ _ Hk) as Hk'. pose proof (nr_altgr k) as Hn'.
  assert (Hj : joinlike E (fst (decode_rune (altgr k))) = false).
  { destruct (altgr k) as [|x t] eqn:Hal; [exact HVe|]. unfold all_runes in Hk'. rewrite runes_step in Hk'.
    apply Forall_cons_iff in Hk' as [Hx _]. exact Hx. }
  unfold AreZeroWidthJoin, AreVariationSelectorLike, AreEmojiModifier in Hs. unfold joinlike in Hj.
  apply orb_false_iff in Hj as [Hj Hj3]. apply orb_false_iff in Hj as [Hj1 Hj2]. rewrite Hj1, Hj2, Hj3, !andb_false_r in Hs.
  cbn [andb orb] in Hs. pose proof H as (_ & _ & _ & H3 & _). rewrite H3 in Hs. unfold aself_tail in Hs. opt Hs. injection Hs as <-.
  apply single_units in Hk' as [G1 G2]. apply TA_aupdate, TA_set_cur. eapply TA_ains; [exact H|exact G1| |exact Ev]. lia.
Qed.
Lemma TA_KillWhole n a : n <= 800 -> TA n a -> TA 0 (aKillWhole a).
Proof.
  intros Hn H. unfold aKillWhole. apply TA_set_cur. eapply TA_set_line; [|constructor|z0]. apply TA_push; [exact H|].
  cbn [u_text]. apply sh_text; [apply H|]. pose proof (proj1 (proj2 H)). lia.
Qed.
Lemma TA_save n a a' : n <= 800 -> TA n a -> asave C a = Some a' -> TA n a'.
Proof.
  intros Hn H Hs. unfold asave in Hs.
  assert (G : TA n (aset_modh a (aset Z.eqb (amodh a) (ahptr a) (atext a)))).
  { destruct H as (H1 & H2 & H3 & H4 & H5 & H6). repeat (split; [assumption|]). split; [|auto].
    intros k t Hi. apply In_aset in Hi as [Hi| ->]; [now apply H5 in Hi|]. apply sh_text; [exact H1|lia]. }
  destruct (_ <? _); [|injection Hs as <-; exact G]. opt Hs. destruct (str_eqb _ _); injection Hs as <-; [exact H|exact G].
Qed.
Lemma TA_show n a a' : n <= 800 -> TA n a -> ashow C a = Some a' -> TA 800 a'.
Proof.
  intros Hn H Hs. unfold ashow in Hs. apply (TA_KillWhole _ _ Hn) in H. opt Hs.
  assert (Hp : sh s).
  { unfold agetHistory in Ev. destruct (aget Z.eqb _ _) eqn:Hg.
    - injection Ev as <-. apply aget_In in Hg as [k' Hk']. destruct H as (_ & _ & _ & _ & H & _). eapply H. exact Hk'.
    - destruct (_ || _); [injection Ev as <-; apply sh_nil|]. eapply Forall_index; [exact Ev|exact Hhist]. }
  destruct s as [|x t]; [injection Hs as <-; eapply TA_more; [exact H|lia]|]. opt Hs. injection Hs as <-. apply TA_set_cur.
  destruct Hp as [P1 P2]. apply single_units in P1 as [G1 G2].
  eapply TA_more; [eapply (TA_ains 0 800); [exact H|exact G1|lia|exact Ev0]|lia].
Qed.
Lemma TA_Previous a a' : TA 800 a -> aPrevious C a = Some a' -> TA 800 a'.
Proof.
  intros H Hs. unfold aPrevious in Hs. destruct (_ <=? 0); [injection Hs as <-; exact H|].
  destruct (_ <=? 0); [destruct (negb _); [injection Hs as <-; exact H|]|]; opt Hs;
  (eapply (TA_show 800); [lia| |exact Hs]; apply TA_set_hptr; eapply TA_save; [lia| |exact Ev]; exact H).
Qed.
Lemma TA_Next a a' : TA 800 a -> aNext C a = Some a' -> TA 800 a'.
Proof.
  intros H Hs. unfold aNext in Hs. destruct (_ <=? 0); [injection Hs as <-; exact H|].
  destruct (_ <? _); [injection Hs as <-; exact H|]. opt Hs.
  eapply (TA_show 800); [lia| |exact Hs]. apply TA_set_hptr. eapply TA_save; [lia| |exact Ev]. exact H.
Qed.
Lemma sm_aswap l i j l' : Forall sm l -> aswap l i j = Some l' -> Forall sm l' /\ zlen l' = zlen l.
Proof.
  intros H Hs. unfold aswap in Hs. opt Hs.
  pose proof (Forall_index _ _ _ _ Ev H). pose proof (Forall_index _ _ _ _ Ev0 H).
  destruct (Forall_set_index _ _ _ _ _ Ev1 H) as [G G']; [assumption|].
  destruct (Forall_set_index _ _ _ _ _ Hs G) as [G1 G2]; [assumption|]. split; [exact G1|lia].
Qed.

(** One command: 800 units, and at most 3204 more from the clipboard with its quotes. *)
Lemma TA_exec b c a a' r : TA 800 a -> (forall k, c = CSelfInsert k -> sh k) -> aexec C b c a = Some (a', r) -> TA 4004 a'.
Proof.
  intros H Hk He. pose proof (TA_more 800 4004 a H ltac:(lia)) as H'. pose proof (proj1 (proj2 H)) as Hz.
  assert (G : forall o, (forall a0, o = Some a0 -> exists n, TA n a0 /\ n <= 4004) -> acontinue o = Some (a', r) -> TA 4004 a').
  { intros o Ho Hc. unfold acontinue in Hc. opt Hc. injection Hc as <- _. destruct (Ho _ eq_refl) as (n & G1 & G2). eapply TA_more; eauto. }
  destruct c; cbn [aexec] in He.
  - injection He as <- _. exact H'.
  - injection He as <- _. destruct H as (H1 & H2 & H3 & H4). split; [constructor|]. split; [z0|]. split; [constructor|exact H4].
  - injection He as <- _. now apply TA_aupdate.
  - injection He as <- _. unfold aBackwardChar. destruct (_ <=? _); [exact H'|now apply TA_aupdate].
  - injection He as <- _. exact H'.
  - eapply G; [|exact He]. intros a0 Ha. unfold aForwardChar in Ha. destruct (_ <=? _); [|injection Ha as <-; exists 800; split; [exact H|lia]].
    destruct (asuf a) as [|m l] eqn:Hsuf; [injection Ha as <-; exists 800; split; [exact H|lia]|].
    pose proof H as (_ & _ & _ & _ & _ & _ & Q1 & Q2). rewrite Hsuf in Q1, Q2.
    destruct (sm_text _ Q1) as [T1 T2]. exists (800 + 800). split; [|lia]. eapply TA_areplace; [lia|exact H|exact T1| |exact Ha]. lia.
  - eapply G; [|exact He]. intros a0 Ha. exists 800. split; [|lia]. unfold aBackwardDelete in Ha. destruct (0 <? acur a); [|injection Ha as <-; exact H].
    opt Ha. injection Ha as <-. apply TA_aupdate. eapply (TA_adelete 800); [lia| |exact Ev]. exact H.
  - eapply G; [|exact He]. intros a0 Ha. exists 800. split; [|lia]. unfold aDelete in Ha. opt Ha. injection Ha as <-. apply TA_aupdate. eapply TA_adelete; [lia| |exact Ev]. exact H.
  - destruct (_ <? _); [|injection He as <- _; exact H']. eapply G; [|exact He]. intros a0 Ha. exists 800. split; [|lia]. unfold aDelete in Ha. opt Ha.
    injection Ha as <-. apply TA_aupdate. eapply TA_adelete; [lia| |exact Ev]. exact H.
  - eapply G; [|exact He]. intros a0 Ha. exists 800. split; [|lia]. unfold aKillLine in Ha. opt Ha. injection Ha as <-.
    assert (Hp : sh (text l)) by (apply sh_text; [eapply Forall_slice; [exact Ev|apply H]|exact (Z.le_trans _ _ _ (zlen_cut _ _ _ _ Ev) Hz)]).
    eapply TA_set_line; [|eapply Forall_slice; [exact Ev0|apply H]|exact (Z.le_trans _ _ _ (zlen_cut _ _ _ _ Ev0) Hz)]. apply TA_push; [|exact Hp]. apply TA_aclip_write; [exact H|exact Hp].
  - injection He as <- _. eapply TA_more; [eapply (TA_KillWhole 800); [lia|exact H]|lia].
  - eapply G; [|exact He]. intros a0 Ha. exists 800. split; [|lia]. unfold aWordRubout in Ha. opt Ha. injection Ha as <-.
    apply TA_aupdate, TA_set_cur. eapply TA_adelete; [lia| |exact Ev2]. apply TA_aclip_write; [exact H|].
    apply sh_text; [eapply Forall_slice; [exact Ev1|apply H]|exact (Z.le_trans _ _ _ (zlen_cut _ _ _ _ Ev1) Hz)].
  - eapply G; [|exact He]. intros a0 Ha. exists 800. split; [|lia]. unfold aLineDiscard in Ha. opt Ha. injection Ha as <-.
    apply TA_aupdate, TA_set_cur. eapply TA_adelete; [lia| |exact Ev0]. apply TA_aclip_write; [exact H|].
    apply sh_text; [eapply Forall_slice; [exact Ev|apply H]|exact (Z.le_trans _ _ _ (zlen_cut _ _ _ _ Ev) Hz)].
  - injection He as <- _. now apply TA_aupdate.
  - injection He as <- _. now apply TA_aupdate.
  - injection He as <- _. exact H'.
  - eapply G; [|exact He]. intros a0 Ha. exists (800 + 800). split; [|lia]. unfold aYank in Ha.
    destruct (aclip a) as [t|] eqn:Hcl; [|injection Ha as <-; eapply TA_more; [exact H|lia]].
    pose proof H as (_ & _ & _ & _ & _ & Q & _). destruct (Q t Hcl) as [Q1 Q2].
    eapply TA_areplace; [lia|exact H|apply all_trim_right; exact Q1| |exact Ha]. pose proof (nr_trim_right t). lia.
  - eapply G; [|exact He]. intros a0 Ha. exists (800 + 3204). split; [|lia]. unfold aYank in Ha.
    destruct (aclip a) as [t|] eqn:Hcl; [|injection Ha as <-; eapply TA_more; [exact H|lia]].
    pose proof H as (_ & _ & _ & _ & _ & Q & _). destruct (Q t Hcl) as [Q1 Q2].
    eapply TA_areplace; [lia|exact H|apply all_yank_quote; [apply HVa; lia|exact Q1]| |exact Ha]. pose proof (nr_yank_quote t). lia.
  - eapply G; [|exact He]. intros a0 Ha. exists 800. split; [|lia]. unfold aSwapChar in Ha.
    destruct (_ =? _); (destruct (_ <? _); [injection Ha as <-; exact H|]); opt Ha; injection Ha as <-;
      destruct (sm_aswap _ _ _ _ (proj1 H) Ev0) as [W1 W2];
      try apply TA_set_cur; (eapply TA_set_line; [|exact W1|lia]);
      (apply TA_push; [exact H|]); cbn [u_text]; (apply sh_text; [eapply Forall_slice; [exact Ev|apply H]|exact (Z.le_trans _ _ _ (zlen_cut _ _ _ _ Ev) Hz)]).
  - eapply G; [|exact He]. intros a0 Ha. exists 800. split; [|lia]. unfold aBackwardWord in Ha. opt Ha. injection Ha as <-. now apply TA_aupdate.
  - eapply G; [|exact He]. intros a0 Ha. exists 800. split; [|lia]. unfold aForwardWord in Ha. opt Ha. injection Ha as <-. destruct b; [now apply TA_aupdate|exact H].
  - eapply G; [|exact He]. intros a0 Ha. exists (800 + 800). split; [|lia]. unfold aUndo in Ha.
    destruct (aundo a) as [|u st] eqn:Hu; [injection Ha as <-; eapply TA_more; [exact H|lia]|].
    opt Ha. injection Ha as <-. apply TA_aupdate.
    assert (H0 : Forall sm l /\ zlen l <= 800).
    { destruct (0 <? u_del u) eqn:Hd; [|injection Ev as <-; split; [apply H|lia]].
      split; [eapply Forall_sliceDelete; [|exact Ev|apply H]; lia|]. apply zlen_del in Ev; lia. }
    destruct H0 as [H0 H0'].
    pose proof H as (H1 & H2 & H3 & H4). rewrite Hu in H3. apply Forall_cons_iff in H3 as [[Hp Hp'] H3].
    assert (H5 : TA 800 (aset_line (aset_undo a st) l)).
    { eapply (TA_set_line 800); [|exact H0|exact H0']. split; [exact H1|]. split; [exact H2|]. split; [exact H3|exact H4]. }
    destruct (u_text u) as [|x t] eqn:Ht; [injection Ev0 as <-; eapply TA_more; [exact H5|lia]|].
    opt Ev0. injection Ev0 as <-. apply single_units in Hp as [P1 P2]. apply TA_set_cur. eapply TA_set_line; [exact H5| |].
    + eapply Forall_sliceInsert; [exact Ev1|exact H0|exact P1].
    + rewrite (zlen_ins _ _ _ _ Ev1). lia.
  - eapply G; [|exact He]. intros a0 Ha. exists 800. split; [|lia]. eapply TA_Previous; eauto.
  - eapply G; [|exact He]. intros a0 Ha. exists 800. split; [|lia]. eapply TA_Next; eauto.
  - injection He as <- _. exact H'.
  - eapply G; [|exact He]. intros a0 Ha. exists (800 + 800). split; [|lia]. eapply TA_self; [exact H|now apply Hk|exact Ha].
  - discriminate.
Qed.

(** * Incremental search *)
Definition TSS (n : Z) (ss : search) : Prop :=
  (exists rs, ss_str ss = encode rs /\ Forall (fun r => sr r /\ valid_rune r = true) rs /\ zlen rs <= n) /\ sh (ss_found ss).
Definition sstr (n : Z) (t : str) : Prop := exists rs, t = encode rs /\ Forall (fun r => sr r /\ valid_rune r = true) rs /\ zlen rs <= n.
Lemma TSS_update_loop n l : (forall x, In x l -> sh x) -> forall i ss, sstr n (ss_str ss) -> TSS n (search_update S l i ss).
Proof.
  induction l as [|h l IH]; intros Hl i ss Hs; cbn [search_update]; [split; cbn; [exact Hs|apply sh_nil]|].
  destruct (ci_contains S h (ss_str ss)).
  - split; [exact Hs|]. apply Hl. now left.
  - apply IH; [|exact Hs]. intros x Hx. apply Hl. now right.
Qed.
Lemma TSS_update n ss : sstr n (ss_str ss) -> TSS n (update S ss).
Proof. intros H. apply TSS_update_loop; [|exact H]. intros x Hx. rewrite Forall_forall in Hhist. apply Hhist. now apply in_rev. Qed.
Lemma TSS_older n f : forall i ss ss', TSS n ss -> search_older S f i ss = Some ss' -> TSS n ss'.
Proof.
  induction f as [|f IH]; intros i ss ss' H Hs; [discriminate|]. cbn [search_older] in Hs.
  set (j := if i <? 0 then zlen (hist C) - 1 else i) in *.
  destruct (j =? ss_pos ss); [injection Hs as <-; exact H|]. opt Hs. destruct (_ && _).
  - injection Hs as <-. split; [apply H|]. cbn. exact (Forall_index sh _ _ _ Ev Hhist).
  - eapply IH; eauto.
Qed.
Lemma TSS_newer n f : forall i ss ss', TSS n ss -> search_newer S f i ss = Some ss' -> TSS n ss'.
Proof.
  induction f as [|f IH]; intros i ss ss' H Hs; [discriminate|]. cbn [search_newer] in Hs.
  destruct (_ <=? _); [injection Hs as <-; exact H|].
  destruct (i =? ss_pos ss); [injection Hs as <-; exact H|]. opt Hs. destruct (_ && _).
  - injection Hs as <-. split; [apply H|]. cbn. exact (Forall_index sh _ _ _ Ev Hhist).
  - eapply IH; eauto.
Qed.
Lemma sstr_chop n t : sstr n t -> sstr n (chop t).
Proof.
  intros (rs & -> & H & Hn). unfold chop. rewrite runes_encode.
  - exists (removelast rs). split; [reflexivity|]. rewrite <- (rev_involutive rs) in *. destruct (rev rs) as [|x l]; [auto|].
    cbn [rev] in *. rewrite removelast_last. apply Forall_app in H as [H _]. rewrite zlen_app in Hn. split; [exact H|]. pose proof (zlen_nonneg [x]). lia.
  - eapply Forall_impl; [|exact H]. intros r [_ Hr]. exact Hr.
Qed.
Lemma sstr_typed n t k : sstr n t -> single k -> sstr (n + 1) (t ++ encode_rune (fst (decode_rune k))).
Proof.
  intros (rs & -> & H & Hn) Hk. set (r := fst (decode_rune k)).
  assert (Hr : sr (if valid_rune r then r else RuneError) /\ valid_rune (if valid_rune r then r else RuneError) = true).
  { destruct (valid_rune r) eqn:Hv; [|split; [exact HVe|reflexivity]]. split; [|exact Hv]. unfold r in *.
    destruct k as [|x t]; [exact HVe|]. unfold single, all_runes in Hk. rewrite runes_step in Hk. now apply Forall_cons_iff in Hk as [Hx _]. }
  exists (rs ++ [if valid_rune r then r else RuneError]). split; [|split].
  - rewrite encode_rune_fix. unfold encode. rewrite flat_map_app. cbn. now rewrite app_nil_r.
  - apply Forall_app. split; [exact H|]. now constructor.
  - rewrite zlen_app. change (zlen [if valid_rune r then r else RuneError]) with 1. lia.
Qed.
Lemma TSS_key n k ss ss' : TSS n ss -> single k -> search_key S k ss = Some (SContinue ss') -> TSS (n + 1) ss'.
Proof.
  intros H Hk Hs.
  assert (M : forall s0, TSS n s0 -> TSS (n + 1) s0).
  { intros s0 [(rs & H1 & H2 & H3) H4]. split; [|exact H4]. exists rs. split; [exact H1|]. split; [exact H2|lia]. }
  unfold search_key in Hs.
  destruct (_ || _); [injection Hs as <-; apply M, TSS_update; cbn; apply sstr_chop, H|].
  destruct (str_eqb k [13]); [discriminate|]. destruct (_ || _); [discriminate|].
  destruct (str_eqb k [18]); [opt Hs; injection Hs as <-; apply M; eapply TSS_older; eauto|].
  destruct (str_eqb k [19]); [opt Hs; injection Hs as <-; apply M; eapply TSS_newer; eauto|].
  pose proof (sstr_typed n (ss_str ss) k (proj1 H) Hk) as Ht. destruct (decode_rune k) as [r i]. cbn [fst] in Ht.
  destruct (is_control r) eqn:Hc; injection Hs as <-; [now apply M|]. apply TSS_update. exact Ht.
Qed.

Hypothesis HE : env_ok E.
Hypothesis Hrw : forall r, rw E r <= 8.
Hypothesis HB : builtin_keys S.

Lemma sm_width m : sm m -> width E (erase m) <= 8 /\ width E m <= 8.
Proof.
  intros (r & -> & Hr & Hv). rewrite erase_rune2moji. apply valid_rune_spec in Hv.
  assert (Hl : lenEscaped r <= 8).
  { unfold lenEscaped. cbn [lenEscaped_loop].
    destruct (15 <? r); [|lia]. assert (H1 : 0 <= r / 16 <= 69631) by lia. set (r1 := r / 16) in *. clearbody r1.
    destruct (15 <? r1); [|lia]. assert (H2 : 0 <= r1 / 16 <= 4351) by lia. set (r2 := r1 / 16) in *. clearbody r2.
    destruct (15 <? r2); [|lia]. assert (H3 : 0 <= r2 / 16 <= 271) by lia. set (r3 := r2 / 16) in *. clearbody r3.
    destruct (15 <? r3); [|lia]. assert (H4 : 0 <= r3 / 16 <= 16) by lia. set (r4 := r3 / 16) in *. clearbody r4.
    destruct (15 <? r4); [|lia]. assert (H5 : 0 <= r4 / 16 <= 1) by lia. set (r5 := r4 / 16) in *. clearbody r5.
    replace (15 <? r5) with false by lia. lia. }
  assert (G : width E (rune2moji E r 0) <= 8); [|auto].
  unfold rune2moji. destruct (r =? 9); [vm_compute; discriminate|].
  destruct (r <? 32); [cbn; lia|]. destruct (_ && _); [cbn; lia|]. destruct (isToBeEscaped E r); [exact Hl|].
  destruct (in_range r 127462 127487); [cbn; lia|]. destruct (in_range r 119808 120831); [cbn; lia|].
  destruct (r =? 127987); [cbn; lia|apply Hrw].
Qed.
Lemma sm_esum l : Forall sm l -> esum E l <= 8 * zlen l.
Proof.
  induction 1 as [|m l Hm _ IH]; [change (0 <= 0); lia|]. rewrite esum_cons, zlen_cons. destruct (sm_width m Hm). lia.
Qed.
Lemma sm_lim l : Forall sm l -> zlen l <= 4090 -> lim E l.
Proof. intros H Hn. right. apply sm_esum in H. lia. Qed.
Lemma pred_tabs : pred_ok C.
Proof. destruct Hpred as [H|H]; [now left|right]. intros t c. destruct (H t c) as [H1 H2]. apply single_units in H1 as [H1 H3]. apply sm_lim; [exact H1|lia]. Qed.

(** The search line. *)
Lemma search_sm ss n : TSS n ss -> n <= 3000 -> lim E (units E (search_line ss)).
Proof.
  intros [(rs & Hs & Hr & Hn) [Hf Hfn]] H3.
  assert (Hss : runes (ss_str ss) = rs).
  { rewrite Hs. apply runes_encode. eapply Forall_impl; [|exact Hr]. intros r [_ X]. exact X. }
  assert (HR : runes (search_line ss) = s2l "(i-search)[" ++ rs ++ s2l "]:" ++ runes (ss_found ss)).
  { unfold search_line. change (s2l "(i-search)[") with (s2l "(i-search)" ++ [91]). rewrite <- app_assoc. cbn [app].
    change (s2l "]:" ++ ss_found ss) with (93 :: 58 :: ss_found ss).
    change (s2l "(i-search)" ++ 91 :: ss_str ss ++ 93 :: 58 :: ss_found ss) with ([40;105;45;115;101;97;114;99;104;41] ++ 91 :: (ss_str ss ++ 93 :: 58 :: ss_found ss)).
    rewrite runes_ascii_split by lia. rewrite runes_ascii_split by lia.
    change (58 :: ss_found ss) with ([] ++ 58 :: ss_found ss). rewrite runes_ascii_split by lia. rewrite Hss.
    replace (runes [40;105;45;115;101;97;114;99;104;41]) with [40;105;45;115;101;97;114;99;104;41] by (vm_compute; reflexivity).
    cbn [app]. reflexivity. }
  assert (Ha : Forall sr (s2l "(i-search)[") /\ Forall sr (s2l "]:")).
  { split; repeat (constructor; [apply HVa; vm_compute; split; congruence|]); constructor. }
  assert (Hsing : single (search_line ss)).
  { unfold single, all_runes. rewrite HR. rewrite !Forall_app. split; [apply Ha|]. split; [|split; [apply Ha|exact Hf]].
    eapply Forall_impl; [|exact Hr]. intros r [X _]. exact X. }
  apply single_units in Hsing as [G1 G2]. apply sm_lim; [exact G1|]. rewrite G2. unfold nr in *. rewrite HR, !zlen_app.
  change (zlen (s2l "(i-search)[")) with 11. change (zlen (s2l "]:")) with 2. lia.
Qed.

(** * Sessions *)
Definition TS (x : asess) : Prop :=
  match x with
  | ARunning m a => TA 4004 a /\ match m with MSearch ss => TSS 801 ss | _ => True end
  | AFinished a _ _ => TA 4004 a
  end.
Definition tab_event (e : event) : Prop :=
  match e with
  | EKey k => sh k /\ (forall k', LookupCommand (kmap S) (gmap S) k = CSelfInsert k' -> sh k')
  | EKeyErr => True
  | EResize w => PW C + 3 + 8 < w
  | EClip c => match c with Some t => sh t | None => True end
  end.
(** At most 800 units in the line and in the search text. *)
Definition TW (x : asess) : Prop :=
  match x with
  | ARunning m a => TA 800 a /\ match m with MSearch ss => TSS 800 ss | _ => True end
  | AFinished a _ _ => TA 800 a
  end.

Lemma TS_after o x : (forall a r, o = Some (a, r) -> TA 4004 a) -> aafter o = Some x -> TS x.
Proof.
  intros Ho H. unfold aafter in H. opt H. subst. specialize (Ho _ _ eq_refl).
  destruct r; injection H as <-; cbn; try (apply TA_set_suf; [exact Ho|constructor|z0]). auto.
Qed.
Lemma TSS_more n n' ss : TSS n ss -> n <= n' -> TSS n' ss.
Proof. intros [(rs & H1 & H2 & H3) H4] H. split; [|exact H4]. exists rs. split; [exact H1|]. split; [exact H2|lia]. Qed.
Lemma TS_step b e x x' : TW x -> tab_event e -> astep S b e x = Some x' -> TS x'.
Proof.
  intros H He Hs. destruct x as [m a|a t r]; cbn [astep] in Hs; [|injection Hs as <-; eapply TA_more; [exact H|lia]].
  destruct H as [H Hm]. pose proof (TA_more 800 4004 a H ltac:(lia)) as H2.
  destruct e as [k| |w|c].
  - destruct He as (Hk & Hself). destruct m as [| |ss].
    + unfold akey_normal in Hs. remember (LookupCommand (kmap S) (gmap S) k) as c eqn:Hc.
      assert (G : aafter (aexec C b c a) = Some x' -> TS x').
      { apply TS_after. intros a0 r0 H0. eapply TA_exec; [exact H| |exact H0]. exact Hself. }
      destruct c; try (apply G; exact Hs).
      * injection Hs as <-. split; [exact H2|exact I].
      * injection Hs as <-. split; [exact H2|]. split; [|apply sh_nil]. exists []. split; [reflexivity|]. split; [constructor|z0].
    + opt Hs. injection Hs as <-. split; [|exact I]. eapply TA_more; [eapply TA_self; [exact H|exact Hk|exact Ev]|lia].
    + unfold akey_search in Hs. opt Hs. destruct s as [ss'| |].
      * injection Hs as <-. split; [exact H2|]. exact (TSS_key 800 _ _ _ Hm (proj1 Hk) Ev).
      * opt Hs. injection Hs as <-. split; [|exact I].
        unfold aaccept in Ev0. destruct Hm as [_ [Hf Hf']].
        eapply TA_more; [eapply (TA_areplace 0 800); [lia| |exact Hf|exact Hf'|exact Ev0]|lia]. exact (TA_KillWhole 800 a ltac:(lia) H).
      * injection Hs as <-. split; [exact H2|exact I].
  - destruct m; injection Hs as <-; cbn; auto.
  - destruct m; injection Hs as <-; cbn; auto using TA_aupdate. split; [exact H2|]. eapply TSS_more; [exact Hm|lia].
  - injection Hs as <-. cbn. split; [|destruct m; auto; eapply TSS_more; [exact Hm|lia]].
    destruct H2 as (H1 & H3 & H4 & H5 & H6 & H7 & H8).
    repeat (split; [assumption|]). split; [|exact H8]. cbn. intros t ->. exact He.
Qed.

Lemma TS_fits w x : PW C + 3 + 8 < w -> TS x -> fits S w x /\ sheads S x.
Proof.
  intros Hw H.
  assert (G : forall a, TA 4004 a -> line_ok C (w - PW C - 3) (aline a)).
  { intros a (Ha & Hz & _). split; [lia|]. split; [|apply sm_lim; [exact Ha|lia]]. eapply Forall_impl; [|exact Ha].
    intros m Hm. destruct (sm_width m Hm). lia. }
  destruct x as [m a|a t r]; cbn in H; [|split; [now apply G|exact I]]. destruct H as [H Hm]. split.
  - split; [now apply G|]. destruct m as [| |ss]; try exact I. eapply search_sm; [exact Hm|lia].
  - destruct H as (H & _). unfold sheads, heads. eapply Forall_impl; [|exact H]. apply sm_head.
Qed.

Definition ashort (x : asess) : Prop :=
  match x with
  | ARunning m a => zlen (aline a) <= 800 /\ match m with MSearch ss => nr (ss_str ss) <= 800 | _ => True end
  | AFinished a _ _ => zlen (aline a) <= 800
  end.
Lemma TS_short x : TS x -> ashort x -> TW x.
Proof.
  assert (G : forall a, TA 4004 a -> zlen (aline a) <= 800 -> TA 800 a).
  { intros a (H1 & _ & H3) H. split; [exact H1|]. split; [exact H|exact H3]. }
  destruct x as [m a|a t r]; cbn; [|auto]. intros [H1 H2] [H3 H4]. split; [now apply G|]. destruct m as [| |ss]; auto.
  destruct H2 as [(rs & K1 & K2 & K3) K4]. split; [|exact K4]. exists rs. split; [exact K1|]. split; [exact K2|].
  revert H4. unfold nr. rewrite K1, runes_encode; [auto|]. eapply Forall_impl; [|exact K2]. intros r [_ X]. exact X.
Qed.
Lemma tab_run es : Forall tab_event es -> forall w x, SC S w x -> sInv S (abss x) -> TS (abss x) -> PW C + 3 + 8 < w ->
  (forall es1 e es2 y, es = es1 ++ e :: es2 -> run S es1 x = Some y -> ashort (abss y) /\ ~ bad_swap S e (abss y)) ->
  exists x' w', run S es x = Some x' /\ SC S w' x'.
Proof.
  induction 1 as [|e es He _ IH]; intros w x HS HI HT Hw Hok; cbn [run]; [eauto|].
  destruct (Hok [] e es x eq_refl eq_refl) as [Hsh Hsw]. pose proof (TS_short _ HT Hsh) as HTW.
  destruct (TS_fits w _ Hw HT) as [Hf Hh].
  assert (Hw' : PW C + 3 + 8 < new_width w e (abss x)).
  { destruct e as [k| |w'|c]; try exact Hw. destruct x as [[| |ss] s|s t r]; try exact Hw. exact He. }
  destruct (step_safe S HE pred_tabs HB w e x HS HI Hh Hsw Hf) as (x' & Hst & HS').
  { intros b y Hy. eapply TS_fits; [exact Hw'|]. eapply TS_step; eauto. }
  rewrite Hst. pose proof Hst as Hst'. apply step_ref in Hst as [b Hb]; [|exact HB].
  destruct (astep_ok S b e (abss x) HB HI Hh Hsw) as (y & Hy & HI'). rewrite Hb in Hy. injection Hy as <-.
  eapply IH; [exact HS'|exact HI'|eapply TS_step; eauto|exact Hw'|].
  intros es1 e1 es2 y -> Hy. apply (Hok (e :: es1) e1 es2 y eq_refl). cbn [run]. now rewrite Hst'.
Qed.
Lemma tab_readline default cur w cl es : 0 <= cur -> PW C + 3 + 8 < w -> sh default ->
  match cl with Some t => sh t | None => True end -> Forall tab_event es ->
  (forall es1 e es2 y, es = es1 ++ e :: es2 -> readline S default cur w cl es1 = Some y -> ashort (abss y) /\ ~ bad_swap S e (abss y)) ->
  exists x' w', readline S default cur w cl es = Some x' /\ SC S w' x'.
Proof.
  intros Hc Hw [Hd Hd'] Hcl Hes Hok. destruct (single_units _ Hd) as [D1 D2].
  assert (HT : TS (ARunning MNormal (astart S default cur cl))).
  { split; [|exact I]. unfold astart. apply TA_aupdate. split; [exact D1|]. split; [cbn [aline]; lia|].
    split; [repeat constructor; apply sh_nil|]. split; [reflexivity|].
    split; [intros k t []|]. split; [cbn; intros t ->; exact Hcl|]. split; [constructor|z0]. }
  destruct (TS_fits w _ Hw HT) as [Hf _].
  destruct (start_safe S HE pred_tabs default cur w cl Hc Hf) as (x & Hx & HS).
  unfold readline in *. rewrite Hx in *. pose proof (start_ref _ _ _ _ _ _ Hx) as Ha. eapply tab_run; [exact Hes|exact HS| | |exact Hw|exact Hok].
  - rewrite Ha. split; [exact I|]. now apply astart_ok.
  - rewrite Ha. exact HT.
Qed.
End WithSess.
