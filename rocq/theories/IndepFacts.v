(** Lemmas for C51: the display-free editor does not depend on how characters are shown. *)
From Verif Require Import Base Utf8 Moji Color Prompt Buffer Commands KeyMap Session MojiFacts Abs AbsRef AbsSess Reach Spec SpecIndep.

(** A unit without the way its characters are shown. *)
Fixpoint canon (m : moji) : moji :=
  match m with
  | MTab _ => MTab 0
  | MRaw r | MEsc r | MReg r | MCtrl r | MFlag r => MRaw r
  | MZwj a b => MZwj (canon a) (canon b)
  | MMod a b => MMod (canon a) (canon b)
  | MVar a b => MVar (canon a) (canon b)
  end.
Lemma write_canon m : write (canon m) = write m.
Proof. induction m; cbn [canon write]; congruence. Qed.
Lemma rune_canon m : MojiToRune (canon m) = MojiToRune m.
Proof. destruct m; reflexivity. Qed.
Lemma space_canon m : IsSpaceMoji (canon m) = IsSpaceMoji m.
Proof. unfold IsSpaceMoji. now rewrite rune_canon. Qed.

Definition ceq (l1 l2 : list moji) : Prop := map canon l1 = map canon l2.
Lemma ceq_zlen l1 l2 : ceq l1 l2 -> zlen l1 = zlen l2.
Proof. intros H. apply (f_equal zlen) in H. now rewrite !zlen_map in H. Qed.
Lemma text_canon l : text (map canon l) = text l.
Proof. induction l as [|m l IH]; [reflexivity|]. unfold text in *. cbn [map flat_map]. now rewrite write_canon, IH. Qed.
Lemma ceq_text l1 l2 : ceq l1 l2 -> text l1 = text l2.
Proof. intros H. rewrite <- (text_canon l1), H. apply text_canon. Qed.
Lemma ceq_writes l1 l2 : ceq l1 l2 -> map write l1 = map write l2.
Proof.
  intros H. apply (f_equal (map write)) in H. rewrite !map_map in H.
  rewrite (map_ext _ write write_canon), (map_ext _ write write_canon) in H. exact H.
Qed.
Lemma word_canon l : forall i q t, word_loop i q t (map canon l) = word_loop i q t l.
Proof. induction l as [|m l IH]; intros; [reflexivity|]. cbn [map word_loop]. rewrite rune_canon. destruct (MojiToRune m); apply IH. Qed.
Lemma ceq_word l1 l2 i q t : ceq l1 l2 -> word_loop i q t l1 = word_loop i q t l2.
Proof. intros H. rewrite <- (word_canon l1), H. apply word_canon. Qed.
Lemma ceq_rev l1 l2 : ceq l1 l2 -> ceq (rev l1) (rev l2).
Proof. unfold ceq. intros H. now rewrite !map_rev, H. Qed.
Lemma ceq_skipn n l1 l2 : ceq l1 l2 -> ceq (skipn n l1) (skipn n l2).
Proof. unfold ceq. intros H. now rewrite <- !skipn_map, H. Qed.
Lemma ceq_spaces l1 l2 : ceq l1 l2 -> count_while IsSpaceMoji l1 = count_while IsSpaceMoji l2.
Proof.
  intros H. assert (K : forall l, count_while IsSpaceMoji (map canon l) = count_while IsSpaceMoji l).
  { intros l. rewrite count_while_map. apply count_while_ext, space_canon. }
  rewrite <- (K l1), H. apply K.
Qed.
Lemma ceq_words l1 l2 : ceq l1 l2 -> count_while (fun m => negb (IsSpaceMoji m)) l1 = count_while (fun m => negb (IsSpaceMoji m)) l2.
Proof.
  intros H. assert (K : forall l, count_while (fun m => negb (IsSpaceMoji m)) (map canon l) = count_while (fun m => negb (IsSpaceMoji m)) l).
  { intros l. rewrite count_while_map. apply count_while_ext. intros x. now rewrite space_canon. }
  rewrite <- (K l1), H. apply K.
Qed.

(** Related results of functions that may fail. *)
Definition orel {A B} (R : A -> B -> Prop) (o1 : option A) (o2 : option B) : Prop :=
  match o1, o2 with Some x, Some y => R x y | None, None => True | _, _ => False end.
Lemma orel_bind {A B A' B'} (R : A -> B -> Prop) (R' : A' -> B' -> Prop) o1 o2 f g :
  orel R o1 o2 -> (forall x y, R x y -> orel R' (f x) (g y)) ->
  orel R' (match o1 with Some x => f x | None => None end) (match o2 with Some x => g x | None => None end).
Proof. destruct o1, o2; cbn; auto; tauto. Qed.
Lemma orel_eq {A} (o1 o2 : option A) : orel eq o1 o2 <-> o1 = o2.
Proof. destruct o1, o2; cbn; split; intros H; try congruence; tauto. Qed.
Lemma omap_ceq (o1 o2 : option (list moji)) : option_map (map canon) o1 = option_map (map canon) o2 -> orel ceq o1 o2.
Proof. destruct o1, o2; cbn; intros H; try discriminate; auto. now injection H. Qed.
Lemma slice_rel l1 l2 a b : ceq l1 l2 -> orel ceq (slice l1 a b) (slice l2 a b).
Proof. intros H. apply omap_ceq. now rewrite <- !slice_map, H. Qed.
Lemma insert_rel l1 l2 i x1 x2 : ceq l1 l2 -> ceq x1 x2 -> orel ceq (sliceInsert l1 i x1) (sliceInsert l2 i x2).
Proof. intros H1 H2. apply omap_ceq. now rewrite <- !sliceInsert_map, H1, H2. Qed.
Lemma delete_rel l1 l2 i n : ceq l1 l2 -> 0 <= n -> orel ceq (sliceDelete l1 i n) (sliceDelete l2 i n).
Proof. intros H1 H2. apply omap_ceq. now rewrite <- !sliceDelete_map, H1 by exact H2. Qed.
Definition meq (m1 m2 : moji) : Prop := canon m1 = canon m2.
Lemma meq_write m1 m2 : meq m1 m2 -> write m1 = write m2.
Proof. intros H. rewrite <- (write_canon m1), H. apply write_canon. Qed.
Lemma index_rel l1 l2 i : ceq l1 l2 -> orel meq (index l1 i) (index l2 i).
Proof.
  intros H. apply (f_equal (fun l => index l i)) in H. rewrite !index_map in H. destruct (index l1 i), (index l2 i); cbn in *; try discriminate; auto. now injection H.
Qed.
Lemma set_rel l1 l2 i m1 m2 : ceq l1 l2 -> meq m1 m2 -> orel ceq (set_index l1 i m1) (set_index l2 i m2).
Proof. intros H1 H2. apply omap_ceq. now rewrite <- !set_index_map, H1, H2. Qed.

Section Two.
Variables S1 S2 : scfg.
Hypothesis HS : same_but_display S1 S2.
Notation C1 := (base S1).
Notation C2 := (base S2).
Notation E1 := (cE C1).
Notation E2 := (cE C2).

Lemma zwj_same r : isZeroWidthJoin E1 r = isZeroWidthJoin E2 r.
Proof. unfold isZeroWidthJoin. now rewrite (sd_zwj _ _ HS). Qed.
Lemma vs_same r : isVariationSelectorLike E1 r = isVariationSelectorLike E2 r.
Proof. unfold isVariationSelectorLike. now rewrite (sd_vs _ _ HS), (sd_vsme _ _ HS). Qed.
Lemma mod_same r : isEmojiModifier E1 r = isEmojiModifier E2 r.
Proof. unfold isEmojiModifier. now rewrite (sd_mod _ _ HS). Qed.
Lemma canon_rune E r : canon (rune2moji E r 0) = if r =? 9 then MTab 0 else MRaw r.
Proof.
  unfold rune2moji. repeat match goal with |- context [if ?b then _ else _] => destruct b; try reflexivity end.
Qed.
Lemma rune_rel r : meq (rune2moji E1 r 0) (rune2moji E2 r 0).
Proof. unfold meq. now rewrite !canon_rune. Qed.
Lemma units_from_rel rs : forall m1 m2, meq m1 m2 -> ceq (units_from E1 (Some m1) rs) (units_from E2 (Some m2) rs).
Proof.
  induction rs as [| |r n rs IH2 IH1] using rune_list_ind; intros m1 m2 H; unfold ceq, meq in *.
  - cbn. now rewrite H.
  - rewrite !units_some1, zwj_same, vs_same, mod_same. destruct (isZeroWidthJoin E2 _); [cbn; now rewrite H|].
    destruct (isVariationSelectorLike E2 _); [cbn; now rewrite H|]. destruct (isEmojiModifier E2 _); [cbn; now rewrite H|]. cbn [map]. now rewrite H, rune_rel.
  - rewrite !units_some2, zwj_same, vs_same, mod_same. destruct (isZeroWidthJoin E2 _); [apply IH2; cbn; now rewrite H|].
    destruct (isVariationSelectorLike E2 _); [apply IH1; cbn; now rewrite H|]. destruct (isEmojiModifier E2 _); [apply IH1; cbn; now rewrite H|]. cbn [map]. rewrite H.
    f_equal. apply IH1, rune_rel.
Qed.
Lemma units_rel t : ceq (units E1 t) (units E2 t).
Proof. unfold units. destruct (runes t) as [|r rs]; [reflexivity|]. rewrite !units_none. apply units_from_rel, rune_rel. Qed.

(** Related states. *)
Record rel (a1 a2 : astate) : Prop := mkRel {
  r_line : ceq (aline a1) (aline a2);
  r_cur : acur a1 = acur a2;
  r_undo : aundo a1 = aundo a2;
  r_pend : apend a1 = apend a2;
  r_hptr : ahptr a1 = ahptr a2;
  r_modh : amodh a1 = amodh a2;
  r_clip : aclip a1 = aclip a2;
  r_suf1 : asuf a1 = [];
  r_suf2 : asuf a2 = []
}.
Lemma rel_line a1 a2 l1 l2 : rel a1 a2 -> ceq l1 l2 -> rel (aset_line a1 l1) (aset_line a2 l2).
Proof. intros [] H. constructor; assumption. Qed.
Lemma rel_cur a1 a2 c : rel a1 a2 -> rel (aset_cur a1 c) (aset_cur a2 c).
Proof. intros []. constructor; try assumption. reflexivity. Qed.
Lemma rel_undo a1 a2 u : rel a1 a2 -> rel (aset_undo a1 u) (aset_undo a2 u).
Proof. intros []. constructor; try assumption. reflexivity. Qed.
Lemma rel_push a1 a2 u : rel a1 a2 -> rel (apush a1 u) (apush a2 u).
Proof. intros H. unfold apush. rewrite (r_undo _ _ H). now apply rel_undo. Qed.
Lemma rel_pend a1 a2 p : rel a1 a2 -> rel (aset_pend a1 p) (aset_pend a2 p).
Proof. intros []. constructor; try assumption. reflexivity. Qed.
Lemma rel_hptr a1 a2 p : rel a1 a2 -> rel (aset_hptr a1 p) (aset_hptr a2 p).
Proof. intros []. constructor; try assumption. reflexivity. Qed.
Lemma rel_modh a1 a2 p : rel a1 a2 -> rel (aset_modh a1 p) (aset_modh a2 p).
Proof. intros []. constructor; try assumption. reflexivity. Qed.
Lemma rel_clip a1 a2 p : rel a1 a2 -> rel (aset_clip a1 p) (aset_clip a2 p).
Proof. intros []. constructor; try assumption. reflexivity. Qed.
Lemma rel_suf a1 a2 : rel a1 a2 -> rel (aset_suf a1 []) (aset_suf a2 []).
Proof. intros []. constructor; try assumption; reflexivity. Qed.
Lemma rel_clipw a1 a2 t : rel a1 a2 -> rel (aclip_write a1 t) (aclip_write a2 t).
Proof. intros H. unfold aclip_write. rewrite (r_clip _ _ H). destruct (aclip a2); [now apply rel_clip|exact H]. Qed.
Lemma rel_text a1 a2 : rel a1 a2 -> atext a1 = atext a2.
Proof. intros H. apply ceq_text, (r_line _ _ H). Qed.
Lemma rel_len a1 a2 : rel a1 a2 -> zlen (aline a1) = zlen (aline a2).
Proof. intros H. apply ceq_zlen, (r_line _ _ H). Qed.
Lemma update1 a : aupdate C1 a = a. Proof. unfold aupdate. now rewrite (sd_off1 _ _ HS). Qed.
Lemma update2 a : aupdate C2 a = a. Proof. unfold aupdate. now rewrite (sd_off2 _ _ HS). Qed.

Lemma ains_rel a1 a2 p l1 l2 : rel a1 a2 -> ceq l1 l2 -> orel rel (ains a1 p l1) (ains a2 p l2).
Proof.
  intros H Hl. unfold ains. eapply orel_bind; [apply insert_rel; [apply H|exact Hl]|]. intros x y Hxy. cbn. rewrite (ceq_zlen _ _ Hl).
  apply rel_push, rel_line; assumption.
Qed.
Lemma adelete_rel a1 a2 p n : rel a1 a2 -> orel rel (adelete a1 p n) (adelete a2 p n).
Proof.
  intros H. unfold adelete. rewrite (rel_len _ _ H). destruct ((n <=? 0) || _) eqn:Hn; [exact H|].
  eapply orel_bind; [apply slice_rel, H|]. intros d1 d2 Hd. eapply orel_bind; [apply delete_rel; [apply H|lia]|]. intros x y Hxy. cbn.
  rewrite (ceq_text _ _ Hd). apply rel_line; [apply rel_push; exact H|exact Hxy].
Qed.
Lemma ajoin_rel a1 a2 : rel a1 a2 -> rel (ajoin a1) (ajoin a2).
Proof.
  intros H. unfold ajoin. rewrite (r_undo _ _ H). destruct (aundo a2) as [|u2 [|u1 rest]]; try exact H. destruct (join2 u1 u2); [now apply rel_undo|exact H].
Qed.
Lemma areplace_rel a1 a2 p t : rel a1 a2 -> orel rel (areplace C1 a1 p t) (areplace C2 a2 p t).
Proof.
  intros H. unfold areplace. rewrite (r_cur _ _ H). eapply orel_bind; [apply adelete_rel, H|]. intros x y Hxy.
  eapply orel_bind; [apply ains_rel; [exact Hxy|apply units_rel]|]. intros x' y' Hxy'. cbn. rewrite update1, update2, (ceq_zlen _ _ (units_rel t)).
  apply ajoin_rel, rel_cur, Hxy'.
Qed.
Lemma bdelete_rel a1 a2 : rel a1 a2 -> orel rel (aBackwardDelete C1 a1) (aBackwardDelete C2 a2).
Proof.
  intros H. unfold aBackwardDelete. rewrite (r_cur _ _ H). destruct (0 <? acur a2); [|exact H].
  eapply orel_bind; [apply adelete_rel, rel_cur, H|]. intros x y Hxy. cbn. now rewrite update1, update2.
Qed.
Lemma delete1_rel a1 a2 : rel a1 a2 -> orel rel (aDelete C1 a1) (aDelete C2 a2).
Proof.
  intros H. unfold aDelete. rewrite (r_cur _ _ H). eapply orel_bind; [apply adelete_rel, H|]. intros x y Hxy. cbn. now rewrite update1, update2.
Qed.
Lemma tail_rel a1 a2 k : rel a1 a2 -> orel rel (aself_tail C1 a1 k) (aself_tail C2 a2 k).
Proof.
  intros H. unfold aself_tail. rewrite (r_cur _ _ H). eapply orel_bind; [apply ains_rel; [exact H|apply units_rel]|]. intros x y Hxy. cbn.
  rewrite update1, update2, (ceq_zlen _ _ (units_rel k)), (r_cur _ _ Hxy). apply rel_cur, Hxy.
Qed.
Lemma self_rel k a1 a2 : rel a1 a2 -> orel rel (aselfInsert C1 k a1) (aselfInsert C2 k a2).
Proof.
  intros H. unfold aselfInsert. rewrite (r_cur _ _ H).
  replace (AreZeroWidthJoin E1 (altgr k)) with (AreZeroWidthJoin E2 (altgr k)) by (unfold AreZeroWidthJoin; now rewrite zwj_same, (sd_zwj _ _ HS)).
  replace (AreVariationSelectorLike E1 (altgr k)) with (AreVariationSelectorLike E2 (altgr k)) by (unfold AreVariationSelectorLike; now rewrite vs_same, (sd_vs _ _ HS)).
  replace (AreEmojiModifier E1 (altgr k)) with (AreEmojiModifier E2 (altgr k)) by (unfold AreEmojiModifier; now rewrite mod_same, (sd_mod _ _ HS)).
  destruct (AreZeroWidthJoin E2 _ && _); [|destruct ((AreVariationSelectorLike E2 _ || _) && _)].
  - eapply orel_bind; [apply index_rel, H|]. intros x y Hxy. rewrite (meq_write _ _ Hxy). apply bdelete_rel, rel_pend, H.
  - eapply orel_bind; [apply index_rel, H|]. intros x y Hxy. rewrite (meq_write _ _ Hxy).
    eapply orel_bind; [apply bdelete_rel, H|]. intros x' y' Hxy'. apply tail_rel, Hxy'.
  - rewrite (r_pend _ _ H). destruct (apend a2); [apply tail_rel, H|apply tail_rel, rel_pend, H].
Qed.
Lemma killline_rel a1 a2 : rel a1 a2 -> orel rel (aKillLine a1) (aKillLine a2).
Proof.
  intros H. unfold aKillLine. rewrite (r_cur _ _ H), (rel_len _ _ H). eapply orel_bind; [apply slice_rel, H|]. intros d1 d2 Hd.
  eapply orel_bind; [apply slice_rel, H|]. intros x y Hxy. cbn. rewrite (ceq_text _ _ Hd). apply rel_line; [apply rel_push, rel_clipw, H|exact Hxy].
Qed.
Lemma killwhole_rel a1 a2 : rel a1 a2 -> rel (aKillWhole a1) (aKillWhole a2).
Proof. intros H. unfold aKillWhole. rewrite (rel_text _ _ H). apply rel_cur, rel_line; [apply rel_push, H|reflexivity]. Qed.
Lemma wordtop_rel a1 a2 : rel a1 a2 -> aWordTop a1 = aWordTop a2.
Proof.
  intros H. apply orel_eq. unfold aWordTop. rewrite (r_cur _ _ H). eapply orel_bind; [apply slice_rel, H|]. intros x y Hxy. cbn. now rewrite (ceq_word _ _ _ _ _ Hxy).
Qed.
Lemma rubout_rel a1 a2 : rel a1 a2 -> orel rel (aWordRubout C1 a1) (aWordRubout C2 a2).
Proof.
  intros H. unfold aWordRubout. rewrite (r_cur _ _ H). eapply orel_bind; [apply slice_rel, H|]. intros p1 p2 Hp. rewrite (ceq_spaces _ _ (ceq_rev _ _ Hp)).
  eapply (orel_bind eq); [apply orel_eq, wordtop_rel, rel_cur, H|]. intros n ? <-. eapply orel_bind; [apply slice_rel; apply H|]. intros d1 d2 Hd. rewrite (ceq_text _ _ Hd).
  eapply orel_bind; [apply adelete_rel, rel_clipw, rel_cur, H|]. intros x y Hxy. cbn. rewrite update1, update2. apply rel_cur, Hxy.
Qed.
Lemma discard_rel a1 a2 : rel a1 a2 -> orel rel (aLineDiscard C1 a1) (aLineDiscard C2 a2).
Proof.
  intros H. unfold aLineDiscard. rewrite (r_cur _ _ H). eapply orel_bind; [apply slice_rel, H|]. intros d1 d2 Hd. rewrite (ceq_text _ _ Hd).
  eapply orel_bind; [apply adelete_rel, rel_clipw, H|]. intros x y Hxy. cbn. rewrite update1, update2. apply rel_cur, Hxy.
Qed.
Lemma yank_rel f a1 a2 : rel a1 a2 -> orel rel (aYank C1 f a1) (aYank C2 f a2).
Proof. intros H. unfold aYank. rewrite (r_clip _ _ H), (r_cur _ _ H). destruct (aclip a2); [apply areplace_rel, H|exact H]. Qed.
Lemma aswap_rel l1 l2 i j : ceq l1 l2 -> orel ceq (aswap l1 i j) (aswap l2 i j).
Proof.
  intros H. unfold aswap. eapply orel_bind; [apply index_rel, H|]. intros x y Hxy. eapply orel_bind; [apply index_rel, H|]. intros x' y' Hxy'.
  eapply orel_bind; [apply set_rel; [exact H|exact Hxy']|]. intros u v Huv. apply set_rel; assumption.
Qed.
Lemma swapchar_rel a1 a2 : rel a1 a2 -> orel rel (aSwapChar a1) (aSwapChar a2).
Proof.
  intros H. unfold aSwapChar. rewrite (r_cur _ _ H), (rel_len _ _ H). destruct (_ =? _).
  - destruct (_ <? 2); [exact H|]. eapply orel_bind; [apply slice_rel, H|]. intros d1 d2 Hd. eapply orel_bind; [apply aswap_rel, H|]. intros x y Hxy. cbn.
    rewrite (ceq_text _ _ Hd). apply rel_line; [apply rel_push, H|exact Hxy].
  - destruct (_ <? 1); [exact H|]. eapply orel_bind; [apply slice_rel, H|]. intros d1 d2 Hd. eapply orel_bind; [apply aswap_rel, H|]. intros x y Hxy. cbn.
    rewrite (ceq_text _ _ Hd). apply rel_cur, rel_line; [apply rel_push, H|exact Hxy].
Qed.
Lemma bword_rel a1 a2 : rel a1 a2 -> orel rel (aBackwardWord C1 a1) (aBackwardWord C2 a2).
Proof.
  intros H. unfold aBackwardWord. rewrite (r_cur _ _ H). eapply orel_bind; [apply slice_rel, H|]. intros p1 p2 Hp. cbn. rewrite update1, update2.
  rewrite (ceq_spaces _ _ (ceq_rev _ _ Hp)), (ceq_words _ _ (ceq_skipn _ _ _ (ceq_rev _ _ Hp))). apply rel_cur, H.
Qed.
Lemma fword_rel b1 b2 a1 a2 : rel a1 a2 -> orel rel (aForwardWord C1 b1 a1) (aForwardWord C2 b2 a2).
Proof.
  intros H. unfold aForwardWord. rewrite (r_cur _ _ H), (rel_len _ _ H). eapply orel_bind; [apply slice_rel, H|]. intros p1 p2 Hp. cbn.
  rewrite (ceq_words _ _ Hp), (ceq_spaces _ _ (ceq_skipn _ _ _ Hp)). rewrite update1, update2. destruct b1, b2; apply rel_cur, H.
Qed.
Lemma undo_rel a1 a2 : rel a1 a2 -> orel rel (aUndo C1 a1) (aUndo C2 a2).
Proof.
  intros H. unfold aUndo. rewrite (r_undo _ _ H). destruct (aundo a2) as [|u rest]; [exact H|].
  eapply (orel_bind ceq).
  { destruct (0 <? u_del u) eqn:Hu; [apply delete_rel; [apply H|lia]|apply H]. }
  intros l1 l2 Hl. eapply (orel_bind rel).
  - destruct (u_text u) as [|c t] eqn:Ht.
    + cbn. apply rel_cur, rel_line; [apply rel_undo, H|exact Hl].
    + eapply orel_bind; [apply insert_rel; [exact Hl|apply units_rel]|]. intros x y Hxy. cbn [orel]. rewrite (ceq_zlen _ _ (units_rel (c :: t))).
      apply rel_cur, rel_line; [apply rel_line; [apply rel_undo, H|exact Hl]|exact Hxy].
  - intros x y Hxy. cbn. now rewrite update1, update2.
Qed.
Lemma save_rel a1 a2 : rel a1 a2 -> orel rel (asave C1 a1) (asave C2 a2).
Proof.
  intros H. unfold asave. rewrite (rel_text _ _ H), (r_hptr _ _ H), (r_modh _ _ H), (sd_hist _ _ HS). destruct (_ <? _).
  - destruct (index _ _) as [h|]; [|exact I]. destruct (str_eqb h _); [exact H|]. apply rel_modh, H.
  - apply rel_modh, H.
Qed.
Lemma get_rel a1 a2 : rel a1 a2 -> agetHistory C1 a1 = agetHistory C2 a2.
Proof. intros H. unfold agetHistory. now rewrite (r_hptr _ _ H), (r_modh _ _ H), (sd_hist _ _ HS). Qed.
Lemma show_rel a1 a2 : rel a1 a2 -> orel rel (ashow C1 a1) (ashow C2 a2).
Proof.
  intros H. unfold ashow. apply killwhole_rel in H. rewrite (get_rel _ _ H). destruct (agetHistory C2 _) as [[|c t]|]; [exact H| |exact I].
  eapply orel_bind; [apply ains_rel; [exact H|apply units_rel]|]. intros x y Hxy. cbn. rewrite (rel_len _ _ Hxy). apply rel_cur, Hxy.
Qed.
Lemma previous_rel a1 a2 : rel a1 a2 -> orel rel (aPrevious C1 a1) (aPrevious C2 a2).
Proof.
  intros H. unfold aPrevious. rewrite (sd_hist _ _ HS), (sd_cycling _ _ HS), (r_hptr _ _ H). destruct (_ <=? 0); [exact H|].
  assert (G : forall b1 b2, rel b1 b2 -> orel rel (let* a1 := asave C1 b1 in ashow C1 (aset_hptr a1 (ahptr a1 - 1))) (let* a1 := asave C2 b2 in ashow C2 (aset_hptr a1 (ahptr a1 - 1)))).
  { intros b1 b2 Hb. eapply orel_bind; [apply save_rel, Hb|]. intros x y Hxy. rewrite (r_hptr _ _ Hxy). apply show_rel, rel_hptr, Hxy. }
  destruct (ahptr a2 <=? 0); [|apply G, H]. destruct (negb _); [exact H|]. apply G, rel_hptr, H.
Qed.
Lemma next_rel a1 a2 : rel a1 a2 -> orel rel (aNext C1 a1) (aNext C2 a2).
Proof.
  intros H. unfold aNext. rewrite (sd_hist _ _ HS), (r_hptr _ _ H). destruct (_ <=? 0); [exact H|]. destruct (_ <? _); [exact H|].
  eapply orel_bind; [apply save_rel, H|]. intros x y Hxy. rewrite (r_hptr _ _ Hxy). apply show_rel, rel_hptr, Hxy.
Qed.
Lemma forward_rel a1 a2 : rel a1 a2 -> orel rel (aForwardChar C1 a1) (aForwardChar C2 a2).
Proof.
  intros H. unfold aForwardChar. rewrite (r_cur _ _ H), (rel_len _ _ H), (r_suf1 _ _ H), (r_suf2 _ _ H). destruct (_ <=? _); [exact H|]. apply rel_cur, H.
Qed.

Definition rrel (p q : astate * result) : Prop := rel (fst p) (fst q) /\ snd p = snd q.
Lemma continue_rel o1 o2 : orel rel o1 o2 -> orel rrel (acontinue o1) (acontinue o2).
Proof. intros H. eapply orel_bind; [exact H|]. intros x y Hxy. now split. Qed.
Lemma exec_rel b1 b2 c a1 a2 : rel a1 a2 -> orel rrel (aexec C1 b1 c a1) (aexec C2 b2 c a2).
Proof.
  intros H. destruct c; cbn [aexec]; rewrite ?update1, ?update2; try (apply continue_rel); try (split; [exact H|reflexivity]).
  - split; [|reflexivity]. apply rel_undo, rel_cur, rel_line; [exact H|reflexivity].
  - split; [|reflexivity]. apply rel_cur, H.
  - split; [|reflexivity]. unfold aBackwardChar. cbn [fst]. rewrite (r_cur _ _ H), update1, update2. destruct (_ <=? 0); [exact H|apply rel_cur, H].
  - split; [|reflexivity]. cbn [fst]. rewrite (rel_len _ _ H). apply rel_cur, H.
  - apply forward_rel, H.
  - apply bdelete_rel, H.
  - apply delete1_rel, H.
  - rewrite (rel_len _ _ H). destruct (0 <? _); [apply continue_rel, delete1_rel, H|split; [exact H|reflexivity]].
  - apply killline_rel, H.
  - split; [|reflexivity]. apply killwhole_rel, H.
  - apply rubout_rel, H.
  - apply discard_rel, H.
  - apply yank_rel, H.
  - apply yank_rel, H.
  - apply swapchar_rel, H.
  - apply bword_rel, H.
  - apply fword_rel, H.
  - apply undo_rel, H.
  - apply previous_rel, H.
  - apply next_rel, H.
  - apply self_rel, H.
  - exact I.
Qed.

(** Sessions. *)
Definition srel (x1 x2 : asess) : Prop :=
  match x1, x2 with
  | ARunning m1 a1, ARunning m2 a2 => m1 = m2 /\ rel a1 a2
  | AFinished a1 t1 e1, AFinished a2 t2 e2 => rel a1 a2 /\ t1 = t2 /\ e1 = e2
  | _, _ => False
  end.
Lemma after_rel o1 o2 : orel rrel o1 o2 -> orel srel (aafter o1) (aafter o2).
Proof.
  intros H. unfold aafter. destruct o1 as [[a1 r1]|], o2 as [[a2 r2]|]; cbn in H; try tauto. destruct H as [H Hr]. cbn in H, Hr. subst r2.
  destruct r1; [split; [reflexivity|exact H]| | |]; (split; [apply rel_suf, H|split; [|reflexivity]]); apply rel_text, rel_suf, H.
Qed.
Lemma ci_same s t : ci_contains S1 s t = ci_contains S2 s t.
Proof. unfold ci_contains. now rewrite (sd_upper _ _ HS). Qed.
Lemma update_same ss : Session.update S1 ss = Session.update S2 ss.
Proof.
  unfold Session.update. rewrite (sd_hist _ _ HS). generalize (rev (hist C2)) (zlen (hist C2) - 1). induction l as [|h l IH]; intros i; [reflexivity|].
  cbn [search_update]. rewrite ci_same, IH. reflexivity.
Qed.
Lemma older_same f : forall i ss, search_older S1 f i ss = search_older S2 f i ss.
Proof.
  induction f as [|f IH]; intros i ss; [reflexivity|]. cbn [search_older]. rewrite (sd_hist _ _ HS). destruct (_ =? ss_pos ss); [reflexivity|].
  destruct (index _ _); [|reflexivity]. rewrite ci_same, IH. reflexivity.
Qed.
Lemma newer_same f : forall i ss, search_newer S1 f i ss = search_newer S2 f i ss.
Proof.
  induction f as [|f IH]; intros i ss; [reflexivity|]. cbn [search_newer]. rewrite (sd_hist _ _ HS). destruct (_ <=? i); [reflexivity|].
  destruct (_ =? ss_pos ss); [reflexivity|]. destruct (index _ _); [|reflexivity]. rewrite ci_same, IH. reflexivity.
Qed.
Lemma key_same k ss : search_key S1 k ss = search_key S2 k ss.
Proof. unfold search_key. rewrite older_same, newer_same, !update_same, (sd_hist _ _ HS). destruct (decode_rune k). now rewrite update_same. Qed.
Lemma astep_rel b1 b2 e x1 x2 : srel x1 x2 -> orel srel (astep S1 b1 e x1) (astep S2 b2 e x2).
Proof.
  destruct x1 as [m1 a1|], x2 as [m2 a2|]; cbn [srel]; try tauto; [|intros H; exact H]. intros [<- H]. cbn [astep]. destruct e as [k| |w|c].
  - destruct m1 as [| |ss].
    + unfold akey_normal. rewrite (sd_kmap _ _ HS), (sd_gmap _ _ HS), (sd_hist _ _ HS).
      pose proof (fun c => after_rel _ _ (exec_rel b1 b2 c a1 a2 H)) as G. destruct (LookupCommand _ _ k); try apply G; cbn; auto.
    + eapply orel_bind; [apply self_rel, H|]. intros x y Hxy. cbn. auto.
    + unfold akey_search. rewrite key_same. destruct (search_key S2 k ss) as [[ss'| |]|]; cbn; auto. unfold aaccept.
      eapply (orel_bind rel); [|intros x y Hxy; cbn; auto]. apply areplace_rel. rewrite (rel_text _ _ H). apply rel_cur, rel_line; [apply rel_push, H|reflexivity].
  - destruct m1; cbn; auto.
  - destruct m1; cbn; rewrite ?update1, ?update2; auto.
  - cbn. split; [reflexivity|]. apply rel_clip, H.
Qed.
Lemma astep_resize b w x1 x2 : srel x1 x2 -> forall y, astep S1 b (EResize w) x1 = Some y -> srel y x2.
Proof.
  destruct x1 as [m1 a1|]; cbn [astep]; intros H y Hy.
  - destruct m1; injection Hy as <-; rewrite ?update1; exact H.
  - injection Hy as <-. exact H.
Qed.
End Two.

Lemma same_sym S1 S2 : same_but_display S1 S2 -> same_but_display S2 S1.
Proof. intros []. constructor; congruence. Qed.

(** The states of the two sessions after the same events, resizes apart. *)
Lemma start_rel S1 S2 default cur cl : same_but_display S1 S2 -> srel (ARunning MNormal (astart S1 default cur cl)) (ARunning MNormal (astart S2 default cur cl)).
Proof.
  intros HS. split; [reflexivity|]. unfold astart. rewrite (update1 _ _ HS), (update2 _ _ HS), (ceq_zlen _ _ (units_rel _ _ HS default)), (sd_hist _ _ HS).
  constructor; try reflexivity. cbn [aline]. apply units_rel, HS.
Qed.
Lemma srel_sym x1 x2 : srel x1 x2 -> srel x2 x1.
Proof.
  assert (G : forall a1 a2, rel a1 a2 -> rel a2 a1) by (intros a1 a2 []; constructor; try assumption; symmetry; assumption).
  destruct x1, x2; cbn; try tauto.
  - intros [-> H]. auto.
  - intros (H & -> & ->). auto.
Qed.
Lemma resizes_only S es : pcolor0 (base S) = [] -> builtin_keys S -> without_resizes es = [] -> forall x x' y, run S es x = Some x' -> srel (abss x) y -> srel (abss x') y.
Proof.
  intros Hp HB. induction es as [|e es IH]; intros Hw x x' y H Hx; cbn [run] in H.
  - injection H as <-. exact Hx.
  - destruct e as [k| |w|c]; try discriminate. destruct (step S (EResize w) x) as [x1|] eqn:Hs; [|discriminate].
    apply (IH Hw x1 x' y H). apply step_ref in Hs as [b Hb]; [|exact HB].
    assert (HS : same_but_display S S) by (constructor; auto). eapply astep_resize; eauto.
Qed.
Lemma run_rel S1 S2 : same_but_display S1 S2 -> builtin_keys S1 -> forall es1 es2, without_resizes es1 = without_resizes es2 ->
  forall x1 x2 y1 y2, srel (abss x1) (abss x2) -> run S1 es1 x1 = Some y1 -> run S2 es2 x2 = Some y2 -> srel (abss y1) (abss y2).
Proof.
  intros HS HB1. assert (HB2 : builtin_keys S2) by (unfold builtin_keys in *; now rewrite <- (sd_kmap _ _ HS), <- (sd_gmap _ _ HS)).
  induction es1 as [|e1 es1 IH].
  - intros es2 Hw x1 x2 y1 y2 Hx H1 H2. cbn [run] in H1. injection H1 as <-. symmetry in Hw. apply srel_sym.
    eapply resizes_only; [exact (sd_off2 _ _ HS)|exact HB2|exact Hw|exact H2|]. now apply srel_sym.
  - intros es2 Hw x1 x2 y1 y2 Hx H1 H2.
    assert (R1 : forall w, e1 = EResize w -> srel (abss y1) (abss y2)).
    { intros w ->. cbn [run] in H1. destruct (step S1 (EResize w) x1) as [x1'|] eqn:Hs; [|discriminate].
      eapply (IH es2 Hw x1' x2); [|exact H1|exact H2]. apply step_ref in Hs as [b Hb]; [|exact HB1]. eapply astep_resize; eauto. }
    destruct (match e1 with EResize _ => true | _ => false end) eqn:He1; [destruct e1; try discriminate; now eapply R1|]. clear R1.
    revert x2 Hx H2. induction es2 as [|e2 es2 IH2]; intros x2 Hx H2; [destruct e1; discriminate|].
    destruct (match e2 with EResize _ => true | _ => false end) eqn:He2.
    + destruct e2 as [| |w|]; try discriminate. cbn [run] in H2. destruct (step S2 (EResize w) x2) as [x2'|] eqn:Hs; [|discriminate].
      apply (IH2 Hw x2'); [|exact H2]. apply step_ref in Hs as [b Hb]; [|exact HB2]. apply srel_sym.
      eapply astep_resize; [apply (same_sym _ _ HS)|apply srel_sym, Hx|exact Hb].
    + assert (He : e1 = e2 /\ without_resizes es1 = without_resizes es2).
      { clear -Hw He1 He2. unfold without_resizes in *. cbn [filter] in Hw. destruct e1, e2; try discriminate; injection Hw; intros; split; congruence. }
      destruct He as [<- Hw']. cbn [run] in H1, H2. destruct (step S1 e1 x1) as [x1'|] eqn:Hs1; [|discriminate]. destruct (step S2 e1 x2) as [x2'|] eqn:Hs2; [|discriminate].
      eapply (IH es2 Hw' x1' x2'); [|exact H1|exact H2]. apply step_ref in Hs1 as [b1 Hb1]; [|exact HB1]. apply step_ref in Hs2 as [b2 Hb2]; [|exact HB2].
      pose proof (astep_rel _ _ HS b1 b2 e1 _ _ Hx) as G. rewrite Hb1, Hb2 in G. exact G.
Qed.
Lemma told_srel x1 x2 : srel (abss x1) (abss x2) -> told x1 = told x2.
Proof.
  assert (G : forall s1 s2, rel (abs s1) (abs s2) -> map write (line s1) = map write (line s2) /\ cursor s1 = cursor s2 /\ clip s1 = clip s2).
  { intros s1 s2 []. split; [apply ceq_writes; assumption|]. auto. }
  unfold told. destruct x1, x2; cbn [abss srel buf_of]; try tauto.
  - intros [-> H]. apply G in H as (-> & -> & ->). reflexivity.
  - intros (H & -> & ->). apply G in H as (-> & -> & ->). reflexivity.
Qed.
Lemma readline_told S1 S2 default cur cl w1 w2 es1 es2 x1 x2 : only_builtin S1 -> same_but_display S1 S2 -> without_resizes es1 = without_resizes es2 ->
  readline S1 default cur w1 cl es1 = Some x1 -> readline S2 default cur w2 cl es2 = Some x2 -> told x1 = told x2.
Proof.
  intros HB HS Hw H1 H2. unfold readline in *. destruct (start S1 default cur w1 cl) as [z1|] eqn:Hs1; [|discriminate].
  destruct (start S2 default cur w2 cl) as [z2|] eqn:Hs2; [|discriminate]. apply told_srel.
  eapply run_rel; [exact HS|now apply only_builtin_keys|exact Hw| |exact H1|exact H2].
  apply start_ref in Hs1, Hs2. rewrite Hs1, Hs2. now apply start_rel.
Qed.
