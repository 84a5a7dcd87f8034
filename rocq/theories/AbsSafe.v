(** The display-free editor never gets stuck, and its undo records always lead back to
    the empty line. *)
From Verif Require Import Base Utf8 Moji Color Prompt Buffer Commands KeyMap Session MojiFacts Abs AbsRef AbsSess.

Section WithEnv.
Variable E : env.

(** A code point that would be attached to the preceding unit. *)
Definition joinlike (r : rune) : bool :=
  isZeroWidthJoin E r || isVariationSelectorLike E r || isEmojiModifier E r.

(** A unit that is what its own text splits into. *)
Definition self (m : moji) : Prop := moji_valid m /\ units_from E None (mrunes m) = [m].
(** A unit that does not begin with such a code point. *)
Definition headok (m : moji) : Prop := joinlike (hd 0 (mrunes m)) = false.

Lemma units_from_some_ne rs : forall m, units_from E (Some m) rs <> [].
Proof.
  induction rs as [|r|r n rs IH1 IH2] using rune_list_ind; intros m.
  - discriminate.
  - rewrite units_some1. repeat (destruct (_ : bool); [discriminate|]). discriminate.
  - rewrite units_some2. destruct (isZeroWidthJoin E r); [apply IH1|].
    destruct (isVariationSelectorLike E r); [apply IH2|].
    destruct (isEmojiModifier E r); [apply IH2|]. discriminate.
Qed.

Definition olen (o : option moji) : nat :=
  match o with None => 0%nat | Some m => List.length (mrunes m) end.

(** A rune sequence that makes up one unit leaves that unit open. *)
Lemma units_consume rs : forall last m rs2,
  (last <> None \/ rs <> []) ->
  units_from E last rs = [m] -> List.length (mrunes m) = (olen last + List.length rs)%nat ->
  units_from E last (rs ++ rs2) = units_from E (Some m) rs2.
Proof.
  induction rs as [|r|r n rs IH1 IH2] using rune_list_ind; intros last m rs2 Hne H Hl.
  - destruct last as [m0|]; [|intuition]. injection H as <-. reflexivity.
  - destruct last as [m0|].
    + rewrite units_some1 in H. cbn [app].
      destruct (isZeroWidthJoin E r) eqn:E1.
      { injection H as <-. cbn in Hl. rewrite app_length in Hl. cbn in Hl. lia. }
      destruct rs2 as [|x rs2].
      { rewrite units_some1, E1. destruct (isVariationSelectorLike E r); [exact H|].
        destruct (isEmojiModifier E r); [exact H|]. discriminate. }
      rewrite units_some2, E1.
      destruct (isVariationSelectorLike E r); [injection H as <-; reflexivity|].
      destruct (isEmojiModifier E r); [injection H as <-; reflexivity|]. discriminate.
    + cbn [app]. rewrite units_none in *. injection H as <-. reflexivity.
  - destruct last as [m0|].
    + rewrite units_some2 in H. cbn [app]. rewrite units_some2.
      cbn [olen List.length] in Hl.
      destruct (isZeroWidthJoin E r).
      { apply IH1; [left; discriminate|exact H|]. rewrite Hl. cbn [olen mrunes]. rewrite app_length. cbn. lia. }
      destruct (isVariationSelectorLike E r).
      { apply (IH2 (Some (MVar m0 (MRaw r)))); [left; discriminate|exact H|].
        rewrite Hl. cbn [olen mrunes]. rewrite app_length. cbn. lia. }
      destruct (isEmojiModifier E r).
      { apply (IH2 (Some (MMod m0 (MRaw r)))); [left; discriminate|exact H|].
        rewrite Hl. cbn [olen mrunes]. rewrite app_length. cbn. lia. }
      exfalso. injection H as _ H. exact (units_from_some_ne (n :: rs) _ H).
    + cbn [app]. rewrite units_none in *.
      apply (IH2 (Some (rune2moji E r 0))); [left; discriminate|exact H|].
      rewrite Hl. cbn [olen]. rewrite mrunes_rune2moji. reflexivity.
Qed.

Lemma self_open m rs : self m -> units_from E None (mrunes m ++ rs) = units_from E (Some m) rs.
Proof.
  intros [_ H]. apply units_consume; [right; apply mrunes_nonempty|exact H|]. reflexivity.
Qed.

Lemma self_rune2moji r : valid_rune r = true -> self (rune2moji E r 0).
Proof.
  intros H. split; [now apply rune2moji_valid|]. now rewrite mrunes_rune2moji, units_none.
Qed.

Lemma self_zwj m n : self m -> valid_rune n = true -> isZeroWidthJoin E zeroWidthJoinRune = true ->
  self (MZwj m (MRaw n)).
Proof.
  intros Hm Hn Hz. split; [apply join_valid; [apply Hm|exact Hn]|].
  cbn [mrunes]. rewrite self_open by exact Hm. now rewrite units_some2, Hz.
Qed.
Lemma self_var m n : self m -> valid_rune n = true -> isZeroWidthJoin E n = false ->
  isVariationSelectorLike E n = true -> self (MVar m (MRaw n)).
Proof.
  intros Hm Hn Hz Hv. split; [apply join_valid; [apply Hm|exact Hn]|].
  cbn [mrunes]. rewrite self_open by exact Hm. now rewrite units_some1, Hz, Hv.
Qed.
Lemma self_mod m n : self m -> valid_rune n = true -> isZeroWidthJoin E n = false ->
  isVariationSelectorLike E n = false -> isEmojiModifier E n = true -> self (MMod m (MRaw n)).
Proof.
  intros Hm Hn Hz Hv He. split; [apply join_valid; [apply Hm|exact Hn]|].
  cbn [mrunes]. rewrite self_open by exact Hm. now rewrite units_some1, Hz, Hv, He.
Qed.

Lemma units_from_self rs : forall last,
  Forall (fun r => valid_rune r = true) rs -> Forall self (olist last) ->
  Forall self (units_from E last rs).
Proof.
  induction rs as [|r|r n rs IH1 IH2] using rune_list_ind; intros last H Hl.
  - destruct last; exact Hl.
  - inversion H as [|? ? Hr _]; subst. destruct last as [m|].
    + inversion Hl as [|? ? Hm _]; subst. rewrite units_some1.
      destruct (isZeroWidthJoin E r) eqn:E1.
      { constructor; [|constructor]. apply self_zwj; [exact Hm|reflexivity|now apply (isZeroWidthJoin_zwj E r)]. }
      destruct (isVariationSelectorLike E r) eqn:E2.
      { constructor; [|constructor]. now apply self_var. }
      destruct (isEmojiModifier E r) eqn:E3.
      { constructor; [|constructor]. now apply self_mod. }
      auto using self_rune2moji.
    + rewrite units_none. cbn. auto using self_rune2moji.
  - inversion H as [|? ? Hr H2]; subst. inversion H2 as [|? ? Hn H4]; subst.
    destruct last as [m|].
    + inversion Hl as [|? ? Hm _]; subst. rewrite units_some2.
      destruct (isZeroWidthJoin E r) eqn:E1.
      { apply IH1; [exact H4|]. constructor; [|constructor].
        apply self_zwj; [exact Hm|exact Hn|now apply (isZeroWidthJoin_zwj E r)]. }
      destruct (isVariationSelectorLike E r) eqn:E2.
      { apply IH2; [exact H2|]. constructor; [|constructor]. now apply self_var. }
      destruct (isEmojiModifier E r) eqn:E3.
      { apply IH2; [exact H2|]. constructor; [|constructor]. now apply self_mod. }
      constructor; [exact Hm|]. apply IH2; [exact H2|]. constructor; [|constructor]. auto using self_rune2moji.
    + rewrite units_none. apply IH2; [exact H2|]. constructor; [|constructor]. auto using self_rune2moji.
Qed.

Lemma units_self s : Forall self (units E s).
Proof. apply units_from_self; [apply runes_valid|constructor]. Qed.

Lemma runes_text l : Forall self l -> runes (text l) = flat_map mrunes l.
Proof.
  intros H. rewrite text_mrunes. apply runes_encode.
  induction H as [|m l Hm Hl IH]; [constructor|]. cbn. apply Forall_app. split; [apply Hm|exact IH].
Qed.

(** Splitting the text of well-behaved units gives them back. *)
Lemma units_text l : Forall self l -> Forall headok l -> units E (text l) = l.
Proof.
  intros Hs Hh. unfold units. rewrite runes_text by exact Hs.
  induction Hs as [|m l Hm Hl IH]; [reflexivity|].
  inversion Hh as [|? ? _ Hh']; subst. cbn [flat_map]. rewrite self_open by exact Hm.
  specialize (IH Hh'). destruct l as [|m2 l2]; [reflexivity|].
  inversion Hh' as [|? ? Hm2 _]; subst.
  cbn [flat_map] in *. destruct (mrunes m2) as [|r rs] eqn:Hr; [now apply mrunes_nonempty in Hr|].
  unfold headok in Hm2. rewrite Hr in Hm2. cbn [hd] in Hm2. unfold joinlike in Hm2.
  apply orb_false_iff in Hm2 as [Hm2 H3]. apply orb_false_iff in Hm2 as [H1 H2].
  cbn [app] in *. rewrite units_none in IH. rewrite <- IH.
  destruct (rs ++ flat_map mrunes l2) as [|x y].
  - now rewrite units_some1, H1, H2, H3.
  - now rewrite units_some2, H1, H2, H3.
Qed.

Lemma joinlike_off r : zwj_ok E = false -> vs_ok E = false -> mod_ok E = false -> joinlike r = false.
Proof. intros A B D. unfold joinlike, isZeroWidthJoin, isVariationSelectorLike, isEmojiModifier. now rewrite A, B, D. Qed.

(** What UNDO does to the line with the newest record. *)
Definition undo1 (u : undo) (l : list moji) : option (list moji) :=
  let* l1 := if 0 <? u_del u then sliceDelete l (u_pos u) (u_del u) else Some l in
  match u_text u with
  | [] => Some l1
  | t => sliceInsert l1 (u_pos u) (units E t)
  end.

(** The records lead back to the empty line, each naming a position in the line it
    restores. *)
Fixpoint undo_ok (l : list moji) (st : list undo) : Prop :=
  match st with
  | [] => l = []
  | u :: st' => exists l', undo1 u l = Some l' /\ 0 <= u_pos u <= zlen l' /\ undo_ok l' st'
  end.

Lemma undo1_ins p n l l' : 0 <= p <= zlen l -> sliceInsert l p n = Some l' ->
  undo1 (mkUndo p (zlen n) []) l' = Some l.
Proof.
  intros Hp H. rewrite sliceInsert_firstn in H by exact Hp. injection H as <-.
  unfold undo1. cbn [u_del u_pos u_text].
  pose proof (zlen_firstn l (Z.to_nat p)) as Hf. pose proof (zlen_nonneg n) as Hn.
  assert (Hzf : zlen (firstn (Z.to_nat p) l) = p) by lia.
  destruct (0 <? zlen n) eqn:H0.
  - rewrite <- (firstn_skipn (Z.to_nat p) l) at 3.
    revert Hzf. generalize (firstn (Z.to_nat p) l) (skipn (Z.to_nat p) l).
    intros f k <-. now rewrite sliceDelete_spec.
  - assert (n = []) as -> by (apply zlen_0; lia). cbn. now rewrite firstn_skipn.
Qed.

Lemma text_nil l : text l = [] -> l = [].
Proof. apply text_nil_iff. Qed.

Lemma undo1_del p n l d l' : 0 <= p -> 0 <= n -> p + n <= zlen l ->
  Forall self l -> Forall headok l ->
  slice l p (p + n) = Some d -> sliceDelete l p n = Some l' ->
  undo1 (mkUndo p 0 (text d)) l' = Some l.
Proof.
  intros Hp Hn Hb Hs Hh Hd Hl. rewrite sliceDelete_firstn in Hl by assumption.
  injection Hl as <-. apply slice_split in Hd as (a & b & -> & Ha & Hdl).
  unfold undo1. cbn [u_del u_pos u_text].
  assert (Hud : units E (text d) = d).
  { apply Forall_app in Hs as [_ Hs]. apply Forall_app in Hs as [Hs _].
    apply Forall_app in Hh as [_ Hh]. apply Forall_app in Hh as [Hh _]. now apply units_text. }
  assert (F1 : firstn (Z.to_nat p) (a ++ d ++ b) = a).
  { rewrite <- Ha, to_nat_zlen. now rewrite firstn_app, firstn_all, Nat.sub_diag, firstn_O, app_nil_r. }
  assert (F2 : skipn (Z.to_nat (p + n)) (a ++ d ++ b) = b).
  { replace (p + n) with (zlen (a ++ d)) by (rewrite zlen_app; lia).
    rewrite to_nat_zlen, app_assoc, skipn_app, skipn_all, Nat.sub_diag. reflexivity. }
  rewrite F1, F2. destruct (text d) as [|x t] eqn:Ht.
  - apply text_nil in Ht. subst d. reflexivity.
  - change (0 <? 0) with false. cbn iota. rewrite Hud, <- Ha. apply sliceInsert_spec.
Qed.

End WithEnv.
