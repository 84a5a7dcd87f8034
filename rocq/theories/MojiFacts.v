(** Facts about editing units: what is written, how text is split, and the same things
    with tab positions forgotten. *)
From Verif Require Import Base Utf8 Moji.

(** A unit without the positions of its tabs. *)
Fixpoint erase (m : moji) : moji :=
  match m with
  | MTab _ => MTab 0
  | MZwj a b => MZwj (erase a) (erase b)
  | MMod a b => MMod (erase a) (erase b)
  | MVar a b => MVar (erase a) (erase b)
  | _ => m
  end.

(** The code points a unit consists of. *)
Fixpoint mrunes (m : moji) : list rune :=
  match m with
  | MTab _ => [9]
  | MRaw r | MEsc r | MReg r | MCtrl r | MFlag r => [r]
  | MZwj a b => mrunes a ++ zeroWidthJoinRune :: mrunes b
  | MMod a b | MVar a b => mrunes a ++ mrunes b
  end.

Definition text (l : list moji) : str := flat_map write l.

Lemma write_mrunes m : write m = encode (mrunes m).
Proof.
  induction m; cbn [write mrunes]; try (cbn; now rewrite app_nil_r).
  - reflexivity.
  - rewrite encode_app, IHm1, encode_cons, IHm2. reflexivity.
  - now rewrite encode_app, IHm1, IHm2.
  - now rewrite encode_app, IHm1, IHm2.
Qed.

Lemma text_mrunes l : text l = encode (flat_map mrunes l).
Proof.
  induction l as [|m l IH]; [reflexivity|].
  unfold text in *. cbn [flat_map]. now rewrite encode_app, write_mrunes, IH.
Qed.

Lemma text_app a b : text (a ++ b) = text a ++ text b.
Proof. apply flat_map_app. Qed.

Lemma erase_idem m : erase (erase m) = erase m.
Proof. induction m; cbn; congruence. Qed.
Lemma map_erase_idem l : map erase (map erase l) = map erase l.
Proof. rewrite map_map. apply map_ext. intros. apply erase_idem. Qed.
Lemma write_erase m : write (erase m) = write m.
Proof. induction m; cbn; congruence. Qed.
Lemma text_erase l : text (map erase l) = text l.
Proof. unfold text. induction l as [|m l IH]; cbn; [reflexivity|]. now rewrite write_erase, IH. Qed.
Lemma mrunes_erase m : mrunes (erase m) = mrunes m.
Proof. induction m; cbn; congruence. Qed.
Lemma MojiToRune_erase m : MojiToRune (erase m) = MojiToRune m.
Proof. destruct m; reflexivity. Qed.
Lemma IsSpaceMoji_erase m : IsSpaceMoji (erase m) = IsSpaceMoji m.
Proof. unfold IsSpaceMoji. now rewrite MojiToRune_erase. Qed.

Lemma mrunes_nonempty m : mrunes m <> [].
Proof. induction m; cbn; try discriminate; destruct (mrunes m1); cbn; congruence. Qed.
Lemma write_nonempty m : write m <> [].
Proof. rewrite write_mrunes. rewrite encode_nil_iff. apply mrunes_nonempty. Qed.
Lemma text_nil_iff l : text l = [] <-> l = [].
Proof.
  split; [|intros ->; reflexivity]. destruct l as [|m l]; [easy|].
  unfold text; cbn. intros H. apply app_eq_nil in H as [H _]. now apply write_nonempty in H.
Qed.

Lemma valid_utf8_text l : valid_utf8 (text l).
Proof.
  induction l as [|m l IH]; [apply valid_utf8_nil|].
  unfold text in *. cbn [flat_map]. apply valid_utf8_app; [|exact IH].
  clear. induction m; cbn [write]; repeat apply valid_utf8_app; auto using valid_utf8_encode_rune.
  exists [9]. split; [repeat constructor|reflexivity].
Qed.

Section WithEnv.
Variable E : env.

(** Splitting into units without tab positions. *)
Fixpoint units_from (last : option moji) (rs : list rune) : list moji :=
  match rs with
  | [] => match last with None => [] | Some m => [m] end
  | r :: rs' =>
    let fresh := fun (_ : unit) =>
      match last with None => [] | Some m => [m] end ++ units_from (Some (rune2moji E r 0)) rs' in
    match last with
    | None => fresh tt
    | Some m =>
      if isZeroWidthJoin E r then
        match rs' with
        | [] => [MZwj m (MRaw RuneError)]
        | n :: rs'' => units_from (Some (MZwj m (MRaw n))) rs''
        end
      else if isVariationSelectorLike E r then units_from (Some (MVar m (MRaw r))) rs'
      else if isEmojiModifier E r then units_from (Some (MMod m (MRaw r))) rs'
      else fresh tt
    end
  end.
Definition units (s : str) : list moji := units_from None (runes s).

(** Unfolding equations. *)
Lemma s2m_none pos r rs : s2m E None pos (r :: rs)
  = s2m E (Some (rune2moji E r pos)) (pos + width E (rune2moji E r pos)) rs.
Proof. reflexivity. Qed.
Lemma s2m_some1 m pos r : s2m E (Some m) pos [r]
  = if isZeroWidthJoin E r then [MZwj m (MRaw RuneError)]
    else if isVariationSelectorLike E r then [MVar m (MRaw r)]
    else if isEmojiModifier E r then [MMod m (MRaw r)]
    else [m; rune2moji E r pos].
Proof. reflexivity. Qed.
Lemma s2m_some2 m pos r n rs : s2m E (Some m) pos (r :: n :: rs)
  = if isZeroWidthJoin E r then s2m E (Some (MZwj m (MRaw n))) pos rs
    else if isVariationSelectorLike E r then s2m E (Some (MVar m (MRaw r))) pos (n :: rs)
    else if isEmojiModifier E r then s2m E (Some (MMod m (MRaw r))) pos (n :: rs)
    else m :: s2m E (Some (rune2moji E r pos)) (pos + width E (rune2moji E r pos)) (n :: rs).
Proof. reflexivity. Qed.
Lemma units_none r rs : units_from None (r :: rs) = units_from (Some (rune2moji E r 0)) rs.
Proof. reflexivity. Qed.
Lemma units_some1 m r : units_from (Some m) [r]
  = if isZeroWidthJoin E r then [MZwj m (MRaw RuneError)]
    else if isVariationSelectorLike E r then [MVar m (MRaw r)]
    else if isEmojiModifier E r then [MMod m (MRaw r)]
    else [m; rune2moji E r 0].
Proof. reflexivity. Qed.
Lemma units_some2 m r n rs : units_from (Some m) (r :: n :: rs)
  = if isZeroWidthJoin E r then units_from (Some (MZwj m (MRaw n))) rs
    else if isVariationSelectorLike E r then units_from (Some (MVar m (MRaw r))) (n :: rs)
    else if isEmojiModifier E r then units_from (Some (MMod m (MRaw r))) (n :: rs)
    else m :: units_from (Some (rune2moji E r 0)) (n :: rs).
Proof. reflexivity. Qed.
Lemma mwc_none lw wid cnt r rs : mwc E None lw wid cnt (r :: rs)
  = mwc E (Some (rune2moji E r wid)) (width E (rune2moji E r wid))
        (wid + width E (rune2moji E r wid)) (cnt + 1) rs.
Proof. reflexivity. Qed.
Lemma mwc_some1 m lw wid cnt r : mwc E (Some m) lw wid cnt [r]
  = if isZeroWidthJoin E r then (wid - lw + width E (MZwj m (MRaw RuneError)), cnt)
    else if isVariationSelectorLike E r then (wid - lw + width E (MVar m (MRaw r)), cnt)
    else if isEmojiModifier E r then (wid - lw + width E (MMod m (MRaw r)), cnt)
    else (wid + width E (rune2moji E r wid), cnt + 1).
Proof. reflexivity. Qed.
Lemma mwc_some2 m lw wid cnt r n rs : mwc E (Some m) lw wid cnt (r :: n :: rs)
  = let join m' rest := mwc E (Some m') (width E m') (wid - lw + width E m') cnt rest in
    if isZeroWidthJoin E r then join (MZwj m (MRaw n)) rs
    else if isVariationSelectorLike E r then join (MVar m (MRaw r)) (n :: rs)
    else if isEmojiModifier E r then join (MMod m (MRaw r)) (n :: rs)
    else mwc E (Some (rune2moji E r wid)) (width E (rune2moji E r wid))
             (wid + width E (rune2moji E r wid)) (cnt + 1) (n :: rs).
Proof. reflexivity. Qed.

Lemma erase_rune2moji r p : erase (rune2moji E r p) = rune2moji E r 0.
Proof.
  unfold rune2moji. destruct (r =? 9); [reflexivity|].
  destruct (r <? 32); [reflexivity|].
  destruct (_ && _); [reflexivity|].
  destruct (isToBeEscaped E r); [reflexivity|].
  destruct (in_range r 127462 127487); [reflexivity|].
  destruct (in_range r 119808 120831); [reflexivity|].
  destruct (r =? 127987); reflexivity.
Qed.

Lemma mrunes_rune2moji r p : mrunes (rune2moji E r p) = [r].
Proof.
  unfold rune2moji. destruct (r =? 9) eqn:H; [apply Z.eqb_eq in H; subst; reflexivity|].
  destruct (r <? 32); [reflexivity|].
  destruct (_ && _); [reflexivity|].
  destruct (isToBeEscaped E r); [reflexivity|].
  destruct (in_range r 127462 127487); [reflexivity|].
  destruct (in_range r 119808 120831); [reflexivity|].
  destruct (r =? 127987); reflexivity.
Qed.

(** Strong induction on the length, for loops that may consume two runes. *)
Lemma rune_list_ind (P : list rune -> Prop) :
  P [] -> (forall r, P [r]) -> (forall r n rs, P rs -> P (n :: rs) -> P (r :: n :: rs)) ->
  forall rs, P rs.
Proof.
  intros H0 H1 H2 rs. assert (P rs /\ forall r, P (r :: rs)) as [H _]; [|exact H].
  induction rs as [|r rs [IH1 IH2]]; [split; auto|]. split; [apply IH2|].
  intros r'. apply H2; auto.
Qed.

Lemma s2m_units rs : forall last pos,
  map erase (s2m E last pos rs) = units_from (option_map erase last) rs.
Proof.
  induction rs as [|r|r n rs IH1 IH2] using rune_list_ind; intros last pos.
  - destruct last; reflexivity.
  - destruct last as [m|]; cbn [option_map].
    + rewrite s2m_some1, units_some1.
      destruct (isZeroWidthJoin E r); [reflexivity|].
      destruct (isVariationSelectorLike E r); [reflexivity|].
      destruct (isEmojiModifier E r); [reflexivity|].
      cbn. now rewrite erase_rune2moji.
    + cbn. now rewrite erase_rune2moji.
  - destruct last as [m|]; cbn [option_map].
    + rewrite s2m_some2, units_some2.
      destruct (isZeroWidthJoin E r); [rewrite IH1; reflexivity|].
      destruct (isVariationSelectorLike E r); [rewrite IH2; reflexivity|].
      destruct (isEmojiModifier E r); [rewrite IH2; reflexivity|].
      cbn [map]. f_equal. rewrite IH2. cbn [option_map]. now rewrite erase_rune2moji.
    + rewrite s2m_none, units_none, IH2. cbn [option_map]. now rewrite erase_rune2moji.
Qed.

Lemma StringToMoji_units s : map erase (StringToMoji E s) = units s.
Proof. apply (s2m_units (runes s) None 0). Qed.

Lemma units_StringToMoji_len s : zlen (StringToMoji E s) = zlen (units s).
Proof. rewrite <- StringToMoji_units. now rewrite zlen_map. Qed.

(** What a string becomes when it is split and written back: a joiner that joins
    becomes U+200D, and a joiner at the end gets U+FFFD to join with. *)
Fixpoint normal (joinable : bool) (rs : list rune) : list rune :=
  match rs with
  | [] => []
  | r :: rs' =>
    if joinable && isZeroWidthJoin E r then
      zeroWidthJoinRune ::
      match rs' with
      | [] => [RuneError]
      | n :: rs'' => n :: normal true rs''
      end
    else r :: normal true rs'
  end.

Lemma normal1 j r : normal j [r]
  = if j && isZeroWidthJoin E r then [zeroWidthJoinRune; RuneError] else [r].
Proof. reflexivity. Qed.
Lemma normal2 j r n rs : normal j (r :: n :: rs)
  = if j && isZeroWidthJoin E r then zeroWidthJoinRune :: n :: normal true rs
    else r :: normal true (n :: rs).
Proof. reflexivity. Qed.

Definition olist (o : option moji) : list moji := match o with None => [] | Some m => [m] end.

Lemma units_from_mrunes rs : forall last,
  flat_map mrunes (units_from last rs)
  = flat_map mrunes (olist last)
    ++ normal (match last with None => false | _ => true end) rs.
Proof.
  induction rs as [|r|r n rs IH1 IH2] using rune_list_ind; intros last.
  - destruct last; cbn; now rewrite ?app_nil_r.
  - destruct last as [m|].
    + rewrite units_some1, normal1. cbn [olist andb].
      destruct (isZeroWidthJoin E r); [cbn; now rewrite ?app_nil_r, <- ?app_assoc|].
      destruct (isVariationSelectorLike E r); [cbn; now rewrite ?app_nil_r, <- ?app_assoc|].
      destruct (isEmojiModifier E r); [cbn; now rewrite ?app_nil_r, <- ?app_assoc|].
      cbn. rewrite mrunes_rune2moji. cbn. now rewrite app_nil_r.
    + cbn. now rewrite mrunes_rune2moji.
  - destruct last as [m|].
    + rewrite units_some2, normal2. cbn [olist andb].
      destruct (isZeroWidthJoin E r).
      { rewrite IH1. cbn. rewrite !app_nil_r, <- app_assoc. reflexivity. }
      destruct (isVariationSelectorLike E r).
      { rewrite IH2. cbn [olist flat_map mrunes]. rewrite !app_nil_r, <- app_assoc. reflexivity. }
      destruct (isEmojiModifier E r).
      { rewrite IH2. cbn [olist flat_map mrunes]. rewrite !app_nil_r, <- app_assoc. reflexivity. }
      cbn [flat_map]. rewrite IH2. cbn [olist flat_map]. rewrite mrunes_rune2moji, !app_nil_r. reflexivity.
    + rewrite units_none, normal2, IH2. cbn [olist flat_map andb]. now rewrite mrunes_rune2moji.
Qed.

Lemma normal_valid rs : forall j, Forall (fun r => valid_rune r = true) rs ->
  Forall (fun r => valid_rune r = true) (normal j rs).
Proof.
  induction rs as [|r|r n rs IH1 IH2] using rune_list_ind; intros j H.
  - constructor.
  - rewrite normal1. destruct (_ && _); repeat constructor. now inversion H.
  - inversion H as [|? ? H1 H2]; subst. inversion H2 as [|? ? H3 H4]; subst.
    rewrite normal2. destruct (_ && _); repeat constructor; auto.
Qed.

(** The text of the units of a string. *)
Lemma text_units s : text (units s) = encode (normal false (runes s)).
Proof. unfold units. rewrite text_mrunes, units_from_mrunes. reflexivity. Qed.

Lemma text_StringToMoji s : text (StringToMoji E s) = encode (normal false (runes s)).
Proof. rewrite <- text_erase, StringToMoji_units. apply text_units. Qed.

Lemma normal_off rs : forall j, zwj_ok E = false -> normal j rs = rs.
Proof.
  induction rs as [|r rs IH]; intros j H; [reflexivity|].
  cbn. unfold isZeroWidthJoin. rewrite H. cbn. rewrite andb_false_r. now rewrite IH.
Qed.

(** Without U+200C, and not ending in a joiner, nothing changes. *)
Lemma normal_id rs : forall j, ~ In 8204 rs -> (forall rs', rs <> rs' ++ [zeroWidthJoinRune]) ->
  normal j rs = rs.
Proof.
  induction rs as [|r|r n rs IH1 IH2] using rune_list_ind; intros j H1 H2.
  - reflexivity.
  - rewrite normal1. unfold isZeroWidthJoin, is_join_control.
    destruct (r =? 8204) eqn:E1; [apply Z.eqb_eq in E1; exfalso; apply H1; now left|].
    destruct (r =? 8205) eqn:E2; [apply Z.eqb_eq in E2; exfalso; apply (H2 []); now rewrite E2|].
    cbn. now rewrite !andb_false_r.
  - assert (Ha : ~ In 8204 (n :: rs)) by (intros Hin; apply H1; now right).
    assert (Hb : forall rs', n :: rs <> rs' ++ [zeroWidthJoinRune])
      by (intros rs' Heq; apply (H2 (r :: rs')); cbn; now rewrite Heq).
    rewrite normal2. destruct (j && isZeroWidthJoin E r) eqn:Hz.
    + unfold isZeroWidthJoin, is_join_control in Hz.
      destruct (r =? 8204) eqn:E1; [apply Z.eqb_eq in E1; exfalso; apply H1; now left|].
      assert (r = 8205) as -> by lia. unfold zeroWidthJoinRune in *. f_equal. f_equal.
      apply IH1.
      * intros Hin. apply Ha. now right.
      * intros rs2 Heq. apply (Hb (n :: rs2)). cbn. now rewrite Heq.
    + f_equal. apply IH2; auto.
Qed.

Lemma isZeroWidthJoin_zwj r : isZeroWidthJoin E r = true -> isZeroWidthJoin E zeroWidthJoinRune = true.
Proof. unfold isZeroWidthJoin. intros Hz. apply andb_true_iff in Hz as [-> _]. reflexivity. Qed.

Lemma units_some_zwj m r n rs : isZeroWidthJoin E r = true ->
  units_from (Some m) (r :: n :: rs) = units_from (Some (MZwj m (MRaw n))) rs.
Proof. intros H. rewrite units_some2, H. reflexivity. Qed.

Lemma units_some_other m r rs : isZeroWidthJoin E r = false ->
  units_from (Some m) (r :: rs)
  = if isVariationSelectorLike E r then units_from (Some (MVar m (MRaw r))) rs
    else if isEmojiModifier E r then units_from (Some (MMod m (MRaw r))) rs
    else m :: units_from (Some (rune2moji E r 0)) rs.
Proof. intros H. cbn [units_from]. rewrite H. reflexivity. Qed.

Lemma units_from_normal rs : forall last,
  units_from last (normal (match last with None => false | _ => true end) rs) = units_from last rs.
Proof.
  induction rs as [|r|r n rs IH1 IH2] using rune_list_ind; intros last.
  - reflexivity.
  - rewrite normal1. destruct last as [m|]; [|reflexivity]. cbn [andb].
    destruct (isZeroWidthJoin E r) eqn:Hz; [|reflexivity].
    rewrite units_some_zwj by (eapply isZeroWidthJoin_zwj; eauto).
    rewrite units_some1, Hz. reflexivity.
  - rewrite normal2. destruct last as [m|]; cbn [andb].
    + destruct (isZeroWidthJoin E r) eqn:Hz.
      * rewrite !units_some_zwj by (try eapply isZeroWidthJoin_zwj; eauto). apply (IH1 (Some _)).
      * rewrite !units_some_other by exact Hz.
        destruct (isVariationSelectorLike E r); [apply (IH2 (Some _))|].
        destruct (isEmojiModifier E r); [apply (IH2 (Some _))|].
        f_equal. apply (IH2 (Some _)).
    + rewrite !units_none. apply (IH2 (Some _)).
Qed.

(** Splitting the written text again gives the same units. *)
Lemma units_text_units s : units (text (units s)) = units s.
Proof.
  rewrite text_units. unfold units at 1.
  rewrite runes_encode by (apply normal_valid, runes_valid).
  apply (units_from_normal (runes s) None).
Qed.

Lemma units_nil_iff s : units s = [] <-> s = [].
Proof.
  split; [|intros ->; reflexivity]. intros H.
  assert (Ht : text (units s) = []) by now rewrite H.
  rewrite text_units in Ht. rewrite encode_nil_iff in Ht.
  apply runes_nil_iff. destruct (runes s); [reflexivity|]. cbn in Ht. discriminate.
Qed.

(** Every unit the splitting produces consists of scalar values. *)
Definition moji_valid (m : moji) : Prop := Forall (fun r => valid_rune r = true) (mrunes m).

Lemma rune2moji_valid r p : valid_rune r = true -> moji_valid (rune2moji E r p).
Proof. intros H. unfold moji_valid. rewrite mrunes_rune2moji. repeat constructor; auto. Qed.
Lemma join_valid m r : moji_valid m -> valid_rune r = true ->
  moji_valid (MZwj m (MRaw r)) /\ moji_valid (MVar m (MRaw r)) /\ moji_valid (MMod m (MRaw r)).
Proof.
  unfold moji_valid. intros Hm Hr. cbn [mrunes].
  repeat split; apply Forall_app; split; auto; repeat constructor; auto.
Qed.

Lemma units_from_valid rs : forall last,
  Forall (fun r => valid_rune r = true) rs -> Forall moji_valid (olist last) ->
  Forall moji_valid (units_from last rs).
Proof.
  induction rs as [|r|r n rs IH1 IH2] using rune_list_ind; intros last H Hl.
  - destruct last; exact Hl.
  - inversion H as [|? ? Hr _]; subst. destruct last as [m|].
    + inversion Hl as [|? ? Hm _]; subst. rewrite units_some1.
      destruct (join_valid m r Hm Hr) as (J1 & J2 & J3).
      destruct (join_valid m RuneError Hm eq_refl) as (J0 & _).
      destruct (isZeroWidthJoin E r); [auto|].
      destruct (isVariationSelectorLike E r); [auto|].
      destruct (isEmojiModifier E r); auto using rune2moji_valid.
    + rewrite units_none. cbn. auto using rune2moji_valid.
  - inversion H as [|? ? Hr H2]; subst. inversion H2 as [|? ? Hn H4]; subst.
    destruct last as [m|].
    + inversion Hl as [|? ? Hm _]; subst. rewrite units_some2.
      destruct (join_valid m r Hm Hr) as (J1 & J2 & J3).
      destruct (join_valid m n Hm Hn) as (J0 & _).
      destruct (isZeroWidthJoin E r); [apply IH1; cbn; auto|].
      destruct (isVariationSelectorLike E r); [apply IH2; cbn; auto|].
      destruct (isEmojiModifier E r); [apply IH2; cbn; auto|].
      constructor; [auto|]. apply IH2; cbn; auto using rune2moji_valid.
    + rewrite units_none. apply IH2; cbn; auto using rune2moji_valid.
Qed.

Lemma units_valid s : Forall moji_valid (units s).
Proof. apply units_from_valid; [apply runes_valid|constructor]. Qed.

(** ** Widths and counts of strings *)

Lemma units_from_len rs : forall m m', zlen (units_from (Some m) rs) = zlen (units_from (Some m') rs).
Proof.
  induction rs as [|r|r n rs IH1 IH2] using rune_list_ind; intros m m'.
  - reflexivity.
  - rewrite !units_some1. destruct (isZeroWidthJoin E r); [reflexivity|].
    destruct (isVariationSelectorLike E r); [reflexivity|].
    destruct (isEmojiModifier E r); reflexivity.
  - rewrite !units_some2. destruct (isZeroWidthJoin E r); [apply IH1|].
    destruct (isVariationSelectorLike E r); [apply IH2|].
    destruct (isEmojiModifier E r); [apply IH2|]. reflexivity.
Qed.

Lemma mwc_count rs : forall last lw wid cnt,
  snd (mwc E last lw wid cnt rs) = cnt + zlen (units_from last rs) - zlen (olist last).
Proof.
  induction rs as [|r|r n rs IH1 IH2] using rune_list_ind; intros last lw wid cnt.
  - destruct last; cbn; lia.
  - destruct last as [m|].
    + rewrite mwc_some1, units_some1.
      destruct (isZeroWidthJoin E r); [cbn; lia|].
      destruct (isVariationSelectorLike E r); [cbn; lia|].
      destruct (isEmojiModifier E r); cbn; lia.
    + cbn. lia.
  - destruct last as [m|].
    + rewrite mwc_some2, units_some2. cbv zeta.
      destruct (isZeroWidthJoin E r); [rewrite IH1; reflexivity|].
      destruct (isVariationSelectorLike E r); [rewrite IH2; reflexivity|].
      destruct (isEmojiModifier E r); [rewrite IH2; reflexivity|].
      rewrite IH2. cbn [olist]. rewrite !zlen_cons, zlen_nil.
      rewrite (units_from_len (n :: rs) (rune2moji E r wid) (rune2moji E r 0)). lia.
    + rewrite mwc_none, units_none, IH2. cbn [olist]. rewrite zlen_cons, zlen_nil.
      rewrite (units_from_len (n :: rs) (rune2moji E r wid) (rune2moji E r 0)). lia.
Qed.

Definition sumw (l : list moji) : Z := fold_right (fun m w => width E m + w) 0 l.
Lemma sumw_app a b : sumw (a ++ b) = sumw a + sumw b.
Proof. unfold sumw. induction a as [|m a IH]; cbn; [reflexivity|]. rewrite IH. lia. Qed.

Definition composite (m : moji) : bool :=
  match m with MZwj _ _ | MMod _ _ | MVar _ _ => true | _ => false end.
Fixpoint has_tab (m : moji) : bool :=
  match m with
  | MTab _ => true
  | MZwj a b | MMod a b | MVar a b => has_tab a || has_tab b
  | _ => false
  end.

(** A tab somewhere after a joined sequence. *)
Fixpoint tab_after_joined (seen : bool) (l : list moji) : bool :=
  match l with
  | [] => false
  | m :: l' => (has_tab m && seen) || tab_after_joined (seen || composite m) l'
  end.

Lemma tab_after_joined_mono l : tab_after_joined true l = false -> tab_after_joined false l = false.
Proof.
  induction l as [|m l IH]; [reflexivity|]. cbn. intros H. apply orb_false_iff in H as [H1 H2].
  rewrite andb_false_r. cbn. destruct (composite m); auto.
Qed.

Lemma rune2moji_notab r p p' : has_tab (rune2moji E r p) = false ->
  rune2moji E r p' = rune2moji E r p.
Proof. unfold rune2moji. destruct (r =? 9); [discriminate|reflexivity]. Qed.

(** The head of a split with an open unit: the open unit, possibly extended. *)
Lemma s2m_head rs : forall m pos, exists m' l,
  s2m E (Some m) pos rs = m' :: l /\
  (has_tab m = true -> has_tab m' = true) /\ (composite m = true -> composite m' = true).
Proof.
  induction rs as [|r|r n rs IH1 IH2] using rune_list_ind; intros m pos.
  - exists m, []. auto.
  - rewrite s2m_some1. destruct (isZeroWidthJoin E r); [do 2 eexists; repeat split; cbn; intros ->; reflexivity|].
    destruct (isVariationSelectorLike E r); [do 2 eexists; repeat split; cbn; intros ->; reflexivity|].
    destruct (isEmojiModifier E r); [do 2 eexists; repeat split; cbn; intros ->; reflexivity|].
    do 2 eexists; repeat split; auto.
  - rewrite s2m_some2. destruct (isZeroWidthJoin E r).
    { destruct (IH1 (MZwj m (MRaw n)) pos) as (m' & l & -> & H1 & H2).
      exists m', l. repeat split; auto. intros H; apply H1; cbn; now rewrite H. }
    destruct (isVariationSelectorLike E r).
    { destruct (IH2 (MVar m (MRaw r)) pos) as (m' & l & -> & H1 & H2).
      exists m', l. repeat split; auto. intros H; apply H1; cbn; now rewrite H. }
    destruct (isEmojiModifier E r).
    { destruct (IH2 (MMod m (MRaw r)) pos) as (m' & l & -> & H1 & H2).
      exists m', l. repeat split; auto. intros H; apply H1; cbn; now rewrite H. }
    do 2 eexists. repeat split; eauto.
Qed.

Definition olw (o : option moji) : Z := match o with None => 0 | Some m => width E m end.

(** No tab among the units after the open one. *)
Definition notab_after (l : list moji) : Prop := tab_after_joined true (tl l) = false.

Lemma notab_after_cons m l : notab_after (m :: l) -> forall m' l', l = m' :: l' ->
  has_tab m' = false /\ notab_after l.
Proof.
  unfold notab_after. cbn [tl]. intros H m' l' ->. cbn in H.
  apply orb_false_iff in H as [H1 H2]. rewrite andb_true_r in H1. auto.
Qed.

Lemma mwc_width rs : forall last pos wid cnt,
  (pos = wid \/ (last <> None /\ notab_after (s2m E last pos rs))) ->
  tab_after_joined false (s2m E last pos rs) = false ->
  fst (mwc E last (olw last) wid cnt rs) = wid - olw last + sumw (s2m E last pos rs).
Proof.
  induction rs as [|r|r n rs IH1 IH2] using rune_list_ind; intros last pos wid cnt HP HT.
  - destruct last; cbn; lia.
  - destruct last as [m|].
    + rewrite mwc_some1. rewrite s2m_some1 in *. cbn [olw].
      destruct (isZeroWidthJoin E r); [unfold sumw; cbn [fst fold_right olw]; lia|].
      destruct (isVariationSelectorLike E r); [unfold sumw; cbn [fst fold_right olw]; lia|].
      destruct (isEmojiModifier E r); [unfold sumw; cbn [fst fold_right olw]; lia|].
      unfold sumw; cbn [fst fold_right olw].
      assert (rune2moji E r wid = rune2moji E r pos) as ->; [|lia].
      destruct HP as [->|[_ HP]]; [reflexivity|].
      apply rune2moji_notab. now apply (notab_after_cons _ _ HP _ []).
    + rewrite mwc_none, s2m_none. destruct HP as [->|[HP _]]; [|congruence]. cbn. lia.
  - destruct last as [m|].
    + rewrite mwc_some2. rewrite s2m_some2 in *. cbv zeta. cbn [olw].
      assert (Hjoin : forall m' rest, composite m' = true ->
        (forall last pos wid cnt,
           (pos = wid \/ (last <> None /\ notab_after (s2m E last pos rest))) ->
           tab_after_joined false (s2m E last pos rest) = false ->
           fst (mwc E last (olw last) wid cnt rest) = wid - olw last + sumw (s2m E last pos rest)) ->
        tab_after_joined false (s2m E (Some m') pos rest) = false ->
        fst (mwc E (Some m') (width E m') (wid - width E m + width E m') cnt rest)
        = wid - width E m + sumw (s2m E (Some m') pos rest)).
      { intros m' rest Hc IH HT'.
        pose proof (IH (Some m') pos (wid - width E m + width E m') cnt) as IHx. cbn [olw] in IHx.
        rewrite IHx; [lia| |exact HT'].
        right. split; [discriminate|].
        destruct (s2m_head rest m' pos) as (m2 & l & Heq & _ & H2). rewrite Heq in *.
        unfold notab_after. cbn [tl]. specialize (H2 Hc). cbn in HT'. rewrite H2 in HT'.
        apply orb_false_iff in HT' as [_ HT']. exact HT'. }
      destruct (isZeroWidthJoin E r); [apply Hjoin; auto|].
      destruct (isVariationSelectorLike E r); [apply Hjoin; auto|].
      destruct (isEmojiModifier E r); [apply Hjoin; auto|].
      set (m1 := rune2moji E r pos) in *.
      destruct (s2m_head (n :: rs) m1 (pos + width E m1)) as (m2 & l & Heq & H1 & _).
      assert (HT2 : tab_after_joined false (s2m E (Some m1) (pos + width E m1) (n :: rs)) = false).
      { cbn [tab_after_joined] in HT. apply orb_false_iff in HT as [_ HT]. cbn [orb] in HT.
        destruct (composite m); [now apply tab_after_joined_mono|exact HT]. }
      assert (Hm : rune2moji E r wid = m1).
      { destruct HP as [->|[_ HP]]; [reflexivity|].
        destruct (notab_after_cons _ _ HP _ _ Heq) as [Hnt _].
        unfold m1. apply rune2moji_notab. fold m1.
        destruct (has_tab m1); [rewrite H1 in Hnt; auto|reflexivity]. }
      rewrite Hm. unfold sumw at 1; cbn [fold_right olw].
      fold (sumw (s2m E (Some m1) (pos + width E m1) (n :: rs))).
      pose proof (IH2 (Some m1) (pos + width E m1) (wid + width E m1) (cnt + 1)) as IHx. cbn [olw] in IHx.
      rewrite IHx; [lia| |exact HT2].
      destruct HP as [->|[_ HP]]; [now left|right]. split; [discriminate|].
      now destruct (notab_after_cons _ _ HP _ _ Heq).
    + rewrite mwc_none. rewrite s2m_none in *. destruct HP as [->|[HP _]]; [|congruence].
      pose proof (IH2 (Some (rune2moji E r wid)) (wid + width E (rune2moji E r wid))
                      (wid + width E (rune2moji E r wid)) (cnt + 1)) as IHx. cbn [olw] in IHx.
      rewrite IHx; [cbn [olw]; lia|now left|exact HT].
Qed.

Lemma GetStringWidth_sum s : tab_after_joined false (StringToMoji E s) = false ->
  fst (MojiWidthAndCountInString E s) = sumw (StringToMoji E s).
Proof.
  intros H. unfold MojiWidthAndCountInString.
  pose proof (mwc_width (runes s) None 0 0 0) as X. cbn [olw] in X.
  rewrite X; [unfold StringToMoji; lia|now left|exact H].
Qed.

Lemma MojiCount_len s : snd (MojiWidthAndCountInString E s) = zlen (StringToMoji E s).
Proof.
  unfold MojiWidthAndCountInString. rewrite mwc_count, units_StringToMoji_len. unfold units. cbn. lia.
Qed.

End WithEnv.
