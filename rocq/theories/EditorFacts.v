(** The editor without a display does what the editor on paper does. *)
From Verif Require Import Base Utf8 Moji Color Prompt Buffer Commands KeyMap Session MojiFacts Abs AbsRef AbsSess AbsSafe AbsInv Plain SafetyFacts CmdFacts EditMore Spec SpecEditor.
From Verif Require Reach.
From Verif Require Import Session Spec SpecEditor.

Ltac lia := unfold rune in *; Lia.lia.

Lemma zlen_map {A B} (f : A -> B) l : zlen (map f l) = zlen l.
Proof. unfold zlen. now rewrite map_length. Qed.
Lemma zlen_rev {A} (l : list A) : zlen (rev l) = zlen l.
Proof. unfold zlen. now rewrite rev_length. Qed.
Lemma zlen1 {A} (x : A) : zlen [x] = 1. Proof. reflexivity. Qed.

(** * Spans *)
Lemma span_app f l a b : span f l = (a, b) -> l = a ++ b.
Proof.
  revert a b. induction l as [|r l IH]; cbn [span]; intros a b H; [now injection H as <- <-|].
  destruct (f r); [|now injection H as <- <-]. destruct (span f l) as [a0 b0]. injection H as <- <-. cbn. f_equal. now apply IH.
Qed.
Lemma span_end_app f l a b : span_end f l = (a, b) -> l = a ++ b.
Proof.
  unfold span_end. destruct (span f (rev l)) as [x y] eqn:Hs. intros H. injection H as <- <-. apply span_app in Hs.
  rewrite <- (rev_involutive l), Hs, rev_app_distr. reflexivity.
Qed.
Lemma span_count {A} (v : rune -> A) (g : A -> bool) f l a b : (forall r, g (v r) = f r) -> span f l = (a, b) -> count_while g (map v l) = List.length a.
Proof.
  intros Hg. revert a b. induction l as [|r l IH]; cbn [span map count_while]; intros a b H; [now injection H as <- <-|].
  rewrite Hg. destruct (f r); [|now injection H as <- <-]. destruct (span f l) as [a0 b0]. injection H as <- <-. cbn [List.length]. f_equal. eapply IH. reflexivity.
Qed.

Section WithScfg.
Variable S : scfg.
Notation C := (base S).
Notation E := (cE C).
Hypothesis HP : pcolor0 C = [].
Hypothesis Hre : joins E 65533 = false.
Hypothesis H34 : joins E 34 = false.
(** Something else known of every code point. *)
Variable Q : rune -> Prop.
Hypothesis Q34 : Q 34.
Definition unj (t : str) : Prop := forall r, In r (runes t) -> joins E r = false /\ Q r.
Definition unj_event (e : event) : Prop :=
  match e with
  | EKey k => unj (key_text k) /\ (is_ctrl (first_rune k) = false -> Q (first_rune k)) /\ forall k', LookupCommand (kmap S) (gmap S) k = CSelfInsert k' -> unj (key_text k')
  | EClip (Some t) => unj t
  | _ => True
  end.
Hypothesis Hh : Forall unj (hist C).

Definition u (r : rune) : moji := rune2moji E r 0.
Notation U := (map u).
Definition good (r : rune) : Prop := valid_rune r = true /\ joins E r = false /\ Q r.
Notation goods := (Forall good).

Lemma goods_runes t : unj t -> goods (runes t).
Proof. intros H. pose proof (runes_valid t) as V. rewrite Forall_forall in *. intros r Hr. split; auto. Qed.
Lemma units_U t : unj t -> units E t = U (runes t).
Proof.
  intros H. unfold units. unfold unj in H. destruct (runes t) as [|r rs]; [reflexivity|].
  rewrite units_none. cbn [map].
  assert (K : forall l m, (forall x, In x l -> joins E x = false) -> units_from E (Some m) l = m :: U l).
  { clear. induction l as [|r|r n rs IH1 IH2] using rune_list_ind; intros m H.
    - reflexivity.
    - pose proof (H r ltac:(now left)) as Hj. rewrite joins_like in Hj. rewrite units_some1. unfold joinlike in Hj.
      apply orb_false_iff in Hj as [Hj ->]. apply orb_false_iff in Hj as [-> ->]. reflexivity.
    - pose proof (H r ltac:(now left)) as Hj. rewrite joins_like in Hj. rewrite units_some2. unfold joinlike in Hj.
      apply orb_false_iff in Hj as [Hj ->]. apply orb_false_iff in Hj as [-> ->].
      rewrite IH2 by (intros; apply H; now right). reflexivity. }
  apply K. intros x Hx. apply (H x). now right.
Qed.
Lemma text_U l : text (U l) = encode l.
Proof.
  rewrite text_mrunes. f_equal. induction l as [|r l IH]; [reflexivity|]. cbn [map flat_map]. rewrite IH. unfold u. now rewrite mrunes_rune2moji.
Qed.
Lemma goods_valid l : goods l -> Forall (fun r => valid_rune r = true) l.
Proof. apply Forall_impl. now intros r []. Qed.
Lemma unj_encode l : goods l -> unj (encode l).
Proof. intros H r Hr. rewrite runes_encode in Hr by now apply goods_valid. rewrite Forall_forall in H. now apply H. Qed.
Lemma units_encode l : goods l -> units E (encode l) = U l.
Proof. intros H. rewrite units_U by now apply unj_encode. now rewrite runes_encode by now apply goods_valid. Qed.
Lemma toRune_u r : MojiToRune (u r) = if r =? 9 then None else Some r.
Proof. unfold u, rune2moji. destruct (r =? 9); [reflexivity|]. repeat (match goal with |- context [if ?c then _ else _] => destruct c end; try reflexivity). Qed.
Lemma space_u r : IsSpaceMoji (u r) = gap r.
Proof. unfold IsSpaceMoji, gap. rewrite toRune_u. destruct (r =? 9); [now rewrite andb_false_r|now rewrite andb_true_r]. Qed.
Lemma encode_nil l : goods l -> encode l = [] -> l = [].
Proof. intros H Hn. rewrite <- (runes_encode l) by now apply goods_valid. now rewrite Hn. Qed.

(** * The last word *)
Lemma word_loop_U l : forall i q top stay word, (q = 0 \/ q = 34 \/ q = 39) -> i = zlen (stay ++ word) ->
  (top < 0 /\ word = [] \/ top = zlen stay /\ word <> []) ->
  forall st wd, last_word q stay word l = (st, wd) ->
  st ++ wd = stay ++ word ++ l /\
  let t := word_loop i q top (U l) in (t < 0 /\ wd = [] \/ t = zlen st /\ wd <> []).
Proof.
  induction l as [|r l IH]; intros i q top stay word Hq Hi Ht st wd H; cbn [last_word map word_loop] in *.
  { injection H as <- <-. split; [now rewrite app_nil_r|exact Ht]. }
  rewrite toRune_u. pose proof (zlen_nonneg stay) as Z1. destruct (Z.eqb_spec r 9) as [->|H9].
  { destruct word as [|w0 word].
    - apply (IH (i + 1) q top) in H; [| exact Hq| rewrite !app_nil_r in *; rewrite zlen_app, zlen1; lia|left; split; [destruct Ht as [[Ht _]|[_ []]]; [exact Ht|reflexivity]|reflexivity]].
      destruct H as [H1 H2]. split; [rewrite H1; now rewrite <- app_assoc|exact H2].
    - apply (IH (i + 1) q top) in H; [|exact Hq|rewrite zlen_app in Hi; rewrite !zlen_app, zlen1; lia|].
      + destruct H as [H1 H2]. split; [rewrite H1; cbn; now rewrite <- app_assoc|exact H2].
      + destruct Ht as [[_ Ht]|[Ht _]]; [discriminate|]. right. split; [exact Ht|]. now destruct word. }
  set (q' := if q =? 0 then if is_delimiter r then r else q else if r =? q then 0 else q).
  assert (Hq' : q' = after_quote q r).
  { unfold q', after_quote, is_delimiter. destruct (Z.eqb_spec q 0) as [->|]; reflexivity. }
  assert (Hg : gap r = is_space r) by (unfold gap; replace (r =? 9) with false by lia; now rewrite andb_true_r). rewrite Hg in H.
  assert (Hb : is_space r = true -> q' = q).
  { intros Hs. assert (r <> 34 /\ r <> 39) as [N1 N2] by (split; intros ->; discriminate Hs). unfold q', is_delimiter.
    replace (r =? 34) with false by lia. replace (r =? 39) with false by lia. cbn [orb]. destruct (q =? 0); [reflexivity|]. destruct (Z.eqb_spec r q); [lia|reflexivity]. }
  assert (Hqq : q' = 0 \/ q' = 34 \/ q' = 39).
  { unfold q', is_delimiter. destruct (Z.eqb_spec q 0); [destruct (Z.eqb_spec r 34); [cbn; lia|]; destruct (Z.eqb_spec r 39); cbn; lia|]. destruct (r =? q); lia. }
  destruct (is_space r) eqn:Hs; cbn [andb] in *.
  - rewrite (Hb eq_refl) in *. destruct (q =? 0).
    + apply (IH (i + 1) q (-1)) in H; [|exact Hq|rewrite app_nil_r, !zlen_app, zlen1; rewrite zlen_app in Hi; lia|left; split; [lia|reflexivity]].
      destruct H as [H1 H2]. split; [rewrite H1; now rewrite <- !app_assoc|exact H2].
    + rewrite <- Hq' in H. apply (IH (i + 1) q (if top <? 0 then i else top)) in H; [|exact Hq|rewrite zlen_app in Hi; rewrite !zlen_app, zlen1; lia|].
      * destruct H as [H1 H2]. split; [rewrite H1; now rewrite <- app_assoc|exact H2].
      * right. split; [|now destruct word]. destruct Ht as [[Ht ->]|[Ht _]].
        -- replace (top <? 0) with true by lia. rewrite app_nil_r in Hi. lia.
        -- replace (top <? 0) with false by lia. exact Ht.
  - rewrite <- Hq' in H. apply (IH (i + 1) q' (if top <? 0 then i else top)) in H; [|exact Hqq|rewrite zlen_app in Hi; rewrite !zlen_app, zlen1; lia|].
    + destruct H as [H1 H2]. split; [rewrite H1; now rewrite <- app_assoc|exact H2].
    + right. split; [|now destruct word]. destruct Ht as [[Ht ->]|[Ht _]].
      * replace (top <? 0) with true by lia. rewrite app_nil_r in Hi. lia.
      * replace (top <? 0) with false by lia. exact Ht.
Qed.

(** * Records of changes *)
Definition apply (v : undo) (l : list moji) : option (list moji * Z) :=
  let* l1 := if 0 <? u_del v then sliceDelete l (u_pos v) (u_del v) else Some l in
  match u_text v with
  | [] => Some (l1, u_pos v)
  | t => let* l2 := sliceInsert l1 (u_pos v) (units E t) in Some (l2, u_pos v + zlen (units E t))
  end.
Definition fits (l : list rune) (v : undo) (c : change) : Prop :=
  u_pos v = c_place c /\ u_del v = c_new c /\ 0 <= c_new c /\
  (0 < c_new c /\ zlen l < c_place c + c_new c /\ apply v (U l) = None \/ apply v (U l) = Some (U (c_text c), c_cursor c)) /\
  goods (c_text c) /\ 0 <= c_cursor c <= zlen (c_text c).
Fixpoint chain (l : list rune) (us : list undo) (cs : list change) : Prop :=
  match us, cs with
  | [], [] => True
  | v :: us', c :: cs' => fits l v c /\ chain (c_text c) us' cs'
  | _, _ => False
  end.

Record R (a : astate) (p : paper) : Prop := mkR {
  r_line : aline a = U (before p) ++ U (after p);
  r_cur : acur a = zlen (before p);
  r_b : goods (before p);
  r_a : goods (after p);
  r_pend : apend a = [];
  r_suf : asuf a = [];
  r_clip : aclip a = clipboard p;
  r_clipok : forall t, clipboard p = Some t -> unj t;
  r_ptr : ahptr a = visiting p;
  r_rng : 0 <= visiting p <= zlen (hist C);
  r_mod : forall i, 0 <= i <= zlen (hist C) -> aget Z.eqb (amodh a) i = edited p i;
  r_modok : forall i t, edited p i = Some t -> unj t;
  r_chain : chain (whole p) (aundo a) (changes p) }.

Lemma aupdate_id a : aupdate C a = a. Proof. unfold aupdate. now rewrite HP. Qed.
Lemma R_whole a p : R a p -> aline a = U (whole p). Proof. intros H. rewrite (r_line _ _ H). unfold whole. now rewrite map_app. Qed.
Lemma R_goods a p : R a p -> goods (whole p). Proof. intros H. apply Forall_app. split; [exact (r_b _ _ H)|exact (r_a _ _ H)]. Qed.

(** Moving. *)
Lemma R_go a p b' a' : R a p -> b' ++ a' = whole p -> R (aset_cur a (zlen b')) (go b' a' p).
Proof.
  intros H Hw. pose proof (R_goods _ _ H) as G. rewrite <- Hw in G. apply Forall_app in G as [G1 G2]. pose proof (R_whole _ _ H) as W.
  destruct H. constructor; cbn; auto.
  - rewrite W, <- Hw. now rewrite map_app.
  - unfold whole. cbn. now rewrite Hw.
Qed.
(** Changing. *)
Lemma R_change a p a2 v b' a' back place new : R a p -> goods b' -> goods a' ->
  aline a2 = U b' ++ U a' -> acur a2 = zlen b' -> aundo a2 = v :: aundo a ->
  apend a2 = apend a -> asuf a2 = asuf a -> aclip a2 = aclip a -> ahptr a2 = ahptr a -> amodh a2 = amodh a ->
  u_pos v = place -> u_del v = new -> 0 <= new ->
  (0 < new /\ zlen (b' ++ a') < place + new /\ apply v (U (b' ++ a')) = None \/ apply v (U (b' ++ a')) = Some (U (whole p), back)) -> 0 <= back <= zlen (whole p) ->
  R a2 (change_to b' a' back place new p).
Proof.
  intros H Gb Ga E1 E2 E3 E4 E5 E6 E7 E8 F1 F2 F3 F4 F5. pose proof (R_goods _ _ H) as G. destruct H.
  constructor; cbn; auto; try congruence.
  - intros i Hi. rewrite E8. auto.
  - rewrite E3. split; [|assumption]. repeat split; cbn; auto; lia.
Qed.
Lemma R_copy a p l : R a p -> goods l -> R (aclip_write a (encode l)) (copy l p).
Proof.
  intros H Hl. destruct H. unfold aclip_write, copy. rewrite r_clip0. destruct (clipboard p) eqn:Hc; constructor; cbn; auto; try congruence.
  intros t Ht. injection Ht as <-. now apply unj_encode.
Qed.

(** What the records take back. *)
Lemma apply_ins p q l : apply (mkUndo (zlen p) (zlen l) []) (U (p ++ l ++ q)) = Some (U (p ++ q), zlen p).
Proof.
  unfold apply. cbn [u_del u_pos u_text]. destruct l as [|r l]; [reflexivity|].
  replace (0 <? zlen (r :: l)) with true by (rewrite zlen_cons; pose proof (zlen_nonneg l); lia).
  rewrite !map_app. rewrite <- (zlen_map u p), <- (zlen_map u (r :: l)), sliceDelete_spec. reflexivity.
Qed.
Lemma apply_del p q d : goods d -> apply (mkUndo (zlen p) 0 (encode d)) (U (p ++ q)) = Some (U (p ++ d ++ q), zlen p + zlen d).
Proof.
  intros Hd. unfold apply. cbn [u_del u_pos u_text]. cbn [Z.ltb Z.compare].
  destruct (encode d) as [|b t] eqn:He.
  - apply encode_nil in He; [|exact Hd]. subst d. cbn. now rewrite Z.add_0_r.
  - rewrite <- He. rewrite units_encode by exact Hd. rewrite !map_app, <- (zlen_map u p), sliceInsert_spec. now rewrite !zlen_map.
Qed.

(** * The commands *)
Lemma c_insert a p l : R a p -> goods l -> R (aset_cur (apush (aset_line a (U (before p) ++ U l ++ U (after p))) (mkUndo (zlen (before p)) (zlen l) [])) (zlen (before p) + zlen l)) (type_in l p).
Proof.
  intros H Hl. pose proof (zlen_nonneg l). pose proof (zlen_nonneg (before p)). pose proof (zlen_nonneg (after p)). unfold type_in.
  eapply R_change; [exact H| | | | | reflexivity | reflexivity | reflexivity | reflexivity | reflexivity | reflexivity | reflexivity | reflexivity | lia | | ].
  - apply Forall_app. split; [exact (r_b _ _ H)|exact Hl].
  - exact (r_a _ _ H).
  - cbn. now rewrite map_app, <- app_assoc.
  - cbn. now rewrite zlen_app.
  - right. rewrite <- app_assoc. apply apply_ins.
  - unfold whole. rewrite zlen_app. lia.
Qed.
Lemma c_self_tail a p k a' : R a p -> unj k -> aself_tail C a k = Some a' -> R a' (type_in (runes k) p).
Proof.
  intros H Hk Ha. unfold aself_tail in Ha. rewrite units_U in Ha by exact Hk. rewrite (r_cur _ _ H) in Ha.
  rewrite <- (zlen_map u (before p)) in Ha. rewrite (ains_mid a (U (before p)) _ (U (after p))) in Ha by exact (r_line _ _ H).
  injection Ha as <-. rewrite aupdate_id. cbn [apush aset_line aset_undo acur]. rewrite !zlen_map. rewrite (r_cur _ _ H).
  apply (c_insert a p (runes k) H). now apply goods_runes.
Qed.
Lemma first_good k : unj k -> joins E (fst (decode_rune k)) = false.
Proof.
  intros H. destruct k as [|b t]; [exact Hre|]. apply H. rewrite runes_step. now left.
Qed.
Lemma c_self a p k a' : R a p -> unj (key_text k) -> aselfInsert C k a = Some a' -> R a' (type_in (runes (key_text k)) p).
Proof.
  intros H Hk Ha. unfold aselfInsert in Ha. change (altgr k) with (key_text k) in Ha.
  pose proof (first_good _ Hk) as Hf. rewrite joins_like in Hf. unfold joinlike in Hf. apply orb_false_iff in Hf as [Hf F3]. apply orb_false_iff in Hf as [F1 F2].
  assert (N1 : AreZeroWidthJoin E (key_text k) = false) by (unfold AreZeroWidthJoin; now rewrite F1, andb_false_r).
  assert (N2 : AreVariationSelectorLike E (key_text k) = false) by (unfold AreVariationSelectorLike; now rewrite F2, andb_false_r).
  assert (N3 : AreEmojiModifier E (key_text k) = false) by (unfold AreEmojiModifier; now rewrite F3, andb_false_r).
  rewrite N1, N2, N3 in Ha. cbn [andb orb] in Ha. rewrite (r_pend _ _ H) in Ha. now apply (c_self_tail a p).
Qed.

Lemma R_as_one a p : R a p -> (forall v us, aundo a = v :: us -> u_text v = [] /\ exists c cs, changes p = c :: cs /\ apply v (U (whole p)) = Some (U (c_text c), c_cursor c)) ->
  R (ajoin a) (as_one p).
Proof.
  intros H Hv. unfold ajoin, as_one. pose proof (r_chain _ _ H) as Hch.
  destruct (aundo a) as [|u2 us] eqn:Eu; [destruct (changes p) as [|c2 cs]; [exact H|destruct Hch]|].
  destruct (Hv u2 us eq_refl) as (Ht & c & cs & Ec & Hap). rewrite Ec in *. cbn [chain] in Hch. destruct Hch as [F2 Hch].
  destruct us as [|u1 us], cs as [|c1 cs]; try exact H; try destruct Hch as [].
  destruct F2 as (P2 & D2 & N2 & _ & G2 & K2). destruct H0 as (P1 & D1 & N1 & A1 & G1 & K1).
  unfold join2. rewrite Ht, P1, P2, D1, D2. cbn [str_eqb negb]. rewrite andb_false_r.
  destruct (Z.eqb_spec (c_place c1) (c_place c)) as [HP1|HP1]; cbn [negb andb]; [|exact H].
  assert (HE : (if 0 <? c_new c then sliceDelete (U (whole p)) (c_place c) (c_new c) else Some (U (whole p))) = Some (U (c_text c))).
  { unfold apply in Hap. rewrite Ht, D2, P2 in Hap. destruct (if 0 <? c_new c then _ else _); [|discriminate]. cbn in Hap. now injection Hap as <-. }
  destruct (Z.eqb_spec (c_new c1) 0) as [Z1|Z1]; cbn [negb andb orb].
  - destruct H. constructor; cbn; auto. split; [|assumption]. rewrite Z1, Z.add_0_l. repeat split; cbn; auto; try lia.
    rewrite Z1 in D1.
    assert (HA : apply (mkUndo (c_place c1) (c_new c) (if str_eqb (u_text u1) [] then [] else u_text u1)) (U (whole p)) = apply u1 (U (c_text c))).
    { unfold apply. cbn [u_del u_pos u_text]. rewrite HP1, HE, D1, P1, HP1. cbn [Z.ltb Z.compare]. now destruct (u_text u1). }
    unfold whole in HA at 1. rewrite HA. destruct A1 as [(A1 & _)|A1]; [lia|now right].
  - destruct (Z.eqb_spec (c_new c) 0) as [Z2|Z2]; cbn [negb andb orb]; [|exact H].
    destruct H. constructor; cbn; auto. split; [|assumption]. rewrite Z2, Z.add_0_r. repeat split; cbn; auto; try lia.
    rewrite Z2 in HE. cbn in HE. injection HE as HE.
    assert (HA : apply (mkUndo (c_place c1) (c_new c1) (if str_eqb (u_text u1) [] then [] else u_text u1)) (U (whole p)) = apply u1 (U (c_text c))).
    { unfold apply. cbn [u_del u_pos u_text]. rewrite HE, D1, P1. now destruct (u_text u1). }
    unfold whole in HA at 1. rewrite HA. assert (HZ : zlen (before p ++ after p) = zlen (c_text c)) by (rewrite <- (zlen_map u (c_text c)), <- HE, zlen_map; reflexivity). rewrite HZ. exact A1.
Qed.
Lemma c_paste a p t a' : R a p -> unj t -> areplace C a (acur a) t = Some a' -> R a' (paste t p).
Proof.
  intros H Ht Ha. unfold areplace in Ha. rewrite adelete_none in Ha by lia. cbn [Datatypes.id] in Ha.
  rewrite units_U in Ha by exact Ht. rewrite (r_cur _ _ H) in Ha.
  rewrite <- (zlen_map u (before p)) in Ha. rewrite (ains_mid a (U (before p)) _ (U (after p))) in Ha by exact (r_line _ _ H).
  rewrite aupdate_id in Ha. injection Ha as <-. unfold paste. rewrite !zlen_map.
  pose proof (c_insert a p (runes t) H (goods_runes _ Ht)) as HR.
  set (a1 := aset_cur _ _) in *. set (p1 := type_in (runes t) p) in *.
  assert (Hu : aundo a1 = mkUndo (zlen (before p)) (zlen (runes t)) [] :: aundo a) by reflexivity.
  assert (Hc : changes p1 = mkChange (whole p) (zlen (before p)) (zlen (before p)) (zlen (runes t)) :: changes p) by reflexivity.
  apply R_as_one; [exact HR|]. intros v us Hv. rewrite Hu in Hv. injection Hv as <- <-. split; [reflexivity|].
  rewrite Hc. eexists; eexists; split; [reflexivity|]. replace (whole p1) with (before p ++ runes t ++ after p) by (unfold p1, whole; cbn; now rewrite <- app_assoc). apply apply_ins.
Qed.

Lemma rev_cons_inv {A} (l : list A) x m : rev l = x :: m -> l = rev m ++ [x].
Proof. intros H. rewrite <- (rev_involutive l), H. reflexivity. Qed.
Lemma rev_nil_inv {A} (l : list A) : rev l = [] -> l = [].
Proof. intros H. rewrite <- (rev_involutive l), H. reflexivity. Qed.

Lemma c_backward a p : R a p -> R (aBackwardChar C a) (backward p).
Proof.
  intros H. unfold aBackwardChar, backward. rewrite (r_cur _ _ H). destruct (rev (before p)) as [|r b] eqn:Hr.
  - apply rev_nil_inv in Hr. rewrite Hr. cbn. exact H.
  - apply rev_cons_inv in Hr. pose proof (zlen_nonneg (rev b)). assert (Hz : zlen (before p) = zlen (rev b) + 1) by (rewrite Hr, zlen_app; reflexivity). replace (_ <=? 0) with false by lia.
    rewrite aupdate_id. replace (zlen (before p) - 1) with (zlen (rev b)) by lia. apply R_go; [exact H|]. unfold whole. rewrite Hr. now rewrite <- app_assoc.
Qed.
Lemma c_forward a p a' : R a p -> aForwardChar C a = Some a' -> R a' (forward p).
Proof.
  intros H Ha. unfold aForwardChar, forward in *. rewrite (r_suf _ _ H), (r_cur _ _ H), (R_whole _ _ H) in Ha. rewrite zlen_map in Ha. unfold whole in Ha. rewrite zlen_app in Ha.
  destruct (after p) as [|r q] eqn:Hr.
  - change (zlen (@nil rune)) with 0 in Ha. rewrite Z.add_0_r, Z.leb_refl in Ha. now injection Ha as <-.
  - rewrite zlen_cons in Ha. pose proof (zlen_nonneg q). replace (_ <=? _) with false in Ha by lia. injection Ha as <-.
    replace (zlen (before p) + 1) with (zlen (before p ++ [r])) by now rewrite zlen_app. apply R_go; [exact H|]. unfold whole. rewrite Hr. now rewrite <- app_assoc.
Qed.
Lemma skipn_len {A} (a b : list A) : skipn (List.length a) (a ++ b) = b.
Proof. rewrite skipn_app, skipn_all, Nat.sub_diag. reflexivity. Qed.
Lemma span_count_end g f l x y : (forall r, g (u r) = f r) -> span_end f l = (x, y) -> count_while g (rev (U l)) = List.length y /\ skipn (List.length y) (rev (U l)) = rev (U x).
Proof.
  intros Hg Hs. pose proof (span_end_app _ _ _ _ Hs) as Hl. unfold span_end in Hs. destruct (span f (rev l)) as [a b] eqn:Hsp. injection Hs as <- <-.
  rewrite <- map_rev. rewrite (span_count u g f (rev l) a b Hg Hsp). rewrite rev_length. split; [reflexivity|].
  pose proof (span_app _ _ _ _ Hsp) as Ha. rewrite Ha, map_app. rewrite <- (map_length u a), skipn_len. now rewrite <- map_rev, rev_involutive.
Qed.
Lemma c_backward_word a p a' : R a p -> aBackwardWord C a = Some a' -> R a' (backward_word p).
Proof.
  intros H Ha. unfold aBackwardWord, backward_word in *. rewrite (r_line _ _ H), (r_cur _ _ H) in Ha. rewrite <- (zlen_map u (before p)), slice_pre in Ha. cbn zeta in Ha.
  destruct (span_end gap (before p)) as [l blanks] eqn:H1. destruct (span_end (fun r => negb (gap r)) l) as [rest word] eqn:H2.
  destruct (span_count_end IsSpaceMoji gap (before p) l blanks space_u H1) as [N1 N2].
  destruct (span_count_end (fun m => negb (IsSpaceMoji m)) (fun r => negb (gap r)) l rest word ltac:(intros; cbv beta; now rewrite space_u) H2) as [N3 _].
  rewrite N1, N2, N3 in Ha. apply span_end_app in H1, H2. injection Ha as <-. rewrite aupdate_id.
  replace (zlen (U (before p)) - _ - _) with (zlen rest) by (rewrite zlen_map, H1, H2, !zlen_app; unfold zlen; lia).
  apply R_go; [exact H|]. unfold whole. rewrite H1, H2. now rewrite <- !app_assoc.
Qed.
Lemma c_forward_word b a p a' : R a p -> aForwardWord C b a = Some a' -> R a' (forward_word p).
Proof.
  intros H Ha. unfold aForwardWord, forward_word in *. rewrite (r_line _ _ H), (r_cur _ _ H) in Ha. rewrite <- (zlen_map u (before p)), slice_post in Ha. cbn zeta in Ha.
  destruct (span (fun r => negb (gap r)) (after p)) as [word l] eqn:H1. destruct (span gap l) as [blanks rest] eqn:H2.
  rewrite (span_count u (fun m => negb (IsSpaceMoji m)) _ (after p) word l ltac:(intros; cbv beta; now rewrite space_u) H1) in Ha.
  pose proof (span_app _ _ _ _ H1) as E1. pose proof (span_app _ _ _ _ H2) as E2. assert (Hsk : skipn (List.length word) (U (after p)) = U l) by (rewrite E1, map_app, <- (map_length u word); apply skipn_len). rewrite Hsk in Ha.
  rewrite (span_count u IsSpaceMoji gap l blanks rest space_u H2) in Ha.
  assert (Ha' : a' = aset_cur a (zlen (U (before p)) + Z.of_nat (List.length word) + Z.of_nat (List.length blanks))) by (injection Ha as <-; destruct b; [apply aupdate_id|reflexivity]).
  rewrite Ha'. replace (zlen _ + _ + _) with (zlen (before p ++ word ++ blanks)) by (rewrite zlen_map, !zlen_app; unfold zlen; lia).
  apply R_go; [exact H|]. unfold whole. rewrite E1, E2. now rewrite <- !app_assoc.
Qed.

(** Deleting [d], between [x] and [y]. *)
Lemma c_delete a p x d y : R a p -> d <> [] -> whole p = x ++ d ++ y ->
  exists a', adelete a (zlen x) (zlen d) = Some a' /\ R (aset_cur a' (zlen x)) (change_to x y (zlen x + zlen d) (zlen x) 0 p).
Proof.
  intros H Hd Hw. pose proof (R_whole _ _ H) as HL. rewrite Hw, !map_app in HL. pose proof (R_goods _ _ H) as G. rewrite Hw in G. apply Forall_app in G as [G1 G]. apply Forall_app in G as [G2 G3].
  eexists. split; [rewrite <- (zlen_map u x), <- (zlen_map u d); apply adelete_mid; [exact HL|now destruct d]|]. rewrite text_U, zlen_map.
  pose proof (zlen_nonneg x). pose proof (zlen_nonneg d). pose proof (zlen_nonneg y).
  eapply R_change; [exact H|exact G1|exact G3| | | reflexivity | reflexivity | reflexivity | reflexivity | reflexivity | reflexivity | reflexivity | reflexivity | lia | | ].
  - reflexivity.
  - reflexivity.
  - right. rewrite Hw. now apply apply_del.
  - rewrite Hw, !zlen_app. lia.
Qed.
Lemma aset_cur_id a : aset_cur a (acur a) = a. Proof. now destruct a. Qed.
Lemma adelete_cur a x n a' : adelete a x n = Some a' -> acur a' = acur a.
Proof. unfold adelete. destruct (_ || _); [now intros H; injection H as <-|]. destruct (slice _ _ _); [|discriminate]. cbn. destruct (sliceDelete _ _ _); [|discriminate]. cbn. intros H. injection H as <-. reflexivity. Qed.
Lemma c_delete_forward a p a' : R a p -> aDelete C a = Some a' -> R a' (delete_forward p).
Proof.
  intros H Ha. unfold aDelete, delete_forward in *. rewrite (r_cur _ _ H) in Ha. destruct (after p) as [|r q] eqn:Hr.
  - rewrite adelete_none in Ha by (right; rewrite (R_whole _ _ H), zlen_map; unfold whole; rewrite Hr, app_nil_r; lia). injection Ha as <-. now rewrite aupdate_id.
  - destruct (c_delete a p (before p) [r] q H ltac:(discriminate)) as (a1 & E1 & HR); [unfold whole; now rewrite Hr|]. rewrite zlen1 in *. rewrite E1 in Ha. injection Ha as <-. rewrite aupdate_id.
    assert (K : aset_cur a1 (zlen (before p)) = a1) by (rewrite <- (r_cur _ _ H), <- (adelete_cur _ _ _ _ E1); apply aset_cur_id). rewrite K in HR. exact HR.
Qed.
Lemma c_delete_backward a p a' : R a p -> aBackwardDelete C a = Some a' -> R a' (delete_backward p).
Proof.
  intros H Ha. unfold aBackwardDelete, delete_backward in *. rewrite (r_cur _ _ H) in Ha. destruct (rev (before p)) as [|r b] eqn:Hr.
  - apply rev_nil_inv in Hr. rewrite Hr in Ha. cbn in Ha. now injection Ha as <-.
  - apply rev_cons_inv in Hr. pose proof (zlen_nonneg (rev b)). assert (Hz : zlen (before p) = zlen (rev b) + 1) by (rewrite Hr, zlen_app; reflexivity).
    replace (0 <? _) with true in Ha by lia. replace (zlen (before p) - 1) with (zlen (rev b)) in * by lia.
    assert (HR0 : R (aset_cur a (zlen (rev b))) (go (rev b) (r :: after p) p)) by (apply R_go; [exact H|]; unfold whole; rewrite Hr; now rewrite <- app_assoc).
    destruct (c_delete _ _ (rev b) [r] (after p) HR0 ltac:(discriminate)) as (a1 & E1 & HR); [reflexivity|]. rewrite zlen1 in *. rewrite E1 in Ha. injection Ha as <-. rewrite aupdate_id.
    assert (K : aset_cur a1 (zlen (rev b)) = a1) by (pose proof (adelete_cur _ _ _ _ E1) as QQ; cbn in QQ; rewrite <- QQ; apply aset_cur_id). rewrite K in HR.
    replace (zlen (before p)) with (zlen (rev b) + 1) by lia.
    replace (change_to (rev b) (after p) (zlen (rev b) + 1) (zlen (rev b)) 0 p) with (change_to (rev b) (after p) (zlen (rev b) + 1) (zlen (rev b)) 0 (go (rev b) (r :: after p) p)); [exact HR|].
    unfold change_to. cbn. f_equal. f_equal. unfold whole. cbn. rewrite Hr. now rewrite <- app_assoc.
Qed.
Lemma copy_whole l p : whole (copy l p) = whole p. Proof. reflexivity. Qed.
Lemma c_kill_right a p a' : R a p -> aKillLine a = Some a' -> R a' (kill_right p).
Proof.
  intros H Ha. unfold aKillLine, kill_right in *. pose proof (r_line _ _ H) as HL. pose proof (r_cur _ _ H) as HC.
  rewrite HL, HC in Ha. rewrite <- (zlen_map u (before p)), slice_post, slice_pre in Ha. cbn zeta in Ha. rewrite text_U in Ha. injection Ha as <-. rewrite zlen_map.
  pose proof (R_copy a p (after p) H (r_a _ _ H)) as HR. pose proof (zlen_nonneg (before p)). pose proof (zlen_nonneg (after p)).
  eapply R_change; [exact HR|exact (r_b _ _ H)|constructor| | | reflexivity | reflexivity | reflexivity | reflexivity | reflexivity | reflexivity | reflexivity | reflexivity | lia | | ].
  - cbn. now rewrite app_nil_r.
  - rewrite <- HC. unfold aclip_write. destruct (aclip a); reflexivity.
  - right. rewrite copy_whole. unfold whole. rewrite zlen_app. pose proof (apply_del (before p) [] (after p) (r_a _ _ H)) as K. rewrite !app_nil_r in K. rewrite app_nil_r. exact K.
  - rewrite copy_whole. unfold whole. rewrite zlen_app. lia.
Qed.
Lemma c_kill_all a p : R a p -> R (aKillWhole a) (kill_all p).
Proof.
  intros H. unfold aKillWhole, kill_all, atext. rewrite (R_whole _ _ H), text_U. pose proof (zlen_nonneg (whole p)).
  eapply R_change; [exact H|constructor|constructor| | | reflexivity | reflexivity | reflexivity | reflexivity | reflexivity | reflexivity | reflexivity | reflexivity | lia | | ]; try reflexivity.
  - right. pose proof (apply_del [] [] (whole p) (R_goods _ _ H)) as K. cbn [app] in K. rewrite app_nil_r in K. exact K.
  - lia.
Qed.
Lemma aclip_write_line a t : aline (aclip_write a t) = aline a. Proof. unfold aclip_write. destruct (aclip a); reflexivity. Qed.
Lemma c_cut a p stay cut a1 : R a p -> before p = stay ++ cut -> adelete (aclip_write a (encode cut)) (zlen stay) (zlen cut) = Some a1 ->
  R (aset_cur a1 (zlen stay)) (cut_to stay cut p).
Proof.
  intros H Hb Ha. unfold cut_to.
  assert (Gc : goods cut) by (pose proof (r_b _ _ H) as G; rewrite Hb in G; apply Forall_app in G; apply G).
  pose proof (R_copy a p cut H Gc) as HR. destruct cut as [|r c].
  - rewrite adelete_none in Ha by (left; apply Z.le_refl). injection Ha as <-. rewrite app_nil_r in Hb. rewrite <- Hb, <- (r_cur _ _ H).
    replace (acur a) with (acur (aclip_write a (encode []))) by (unfold aclip_write; destruct (aclip a); reflexivity). rewrite aset_cur_id. exact HR.
  - destruct (c_delete _ _ stay (r :: c) (after p) HR ltac:(discriminate)) as (a2 & E2 & HR2); [rewrite copy_whole; unfold whole; rewrite Hb; now rewrite <- app_assoc|].
    rewrite E2 in Ha. injection Ha as <-. rewrite Hb, zlen_app. exact HR2.
Qed.
Lemma c_discard a p a' : R a p -> aLineDiscard C a = Some a' -> R a' (cut_to [] (before p) p).
Proof.
  intros H Ha. unfold aLineDiscard in Ha. rewrite (r_line _ _ H), (r_cur _ _ H) in Ha. rewrite <- (zlen_map u (before p)), slice_pre in Ha. cbn zeta in Ha. rewrite text_U, zlen_map in Ha.
  destruct (adelete _ _ _) as [a1|] eqn:E1; [|discriminate]. cbn in Ha. injection Ha as <-. rewrite aupdate_id. now apply (c_cut a p [] (before p)).
Qed.
Lemma c_rubout a p a' : R a p -> aWordRubout C a = Some a' -> R a' (rubout_word p).
Proof.
  intros H Ha. unfold aWordRubout, rubout_word in *. pose proof (r_line _ _ H) as HL. rewrite HL, (r_cur _ _ H) in Ha. rewrite <- (zlen_map u (before p)), slice_pre in Ha. cbn zeta in Ha.
  destruct (span_end gap (before p)) as [l blanks] eqn:H1. destruct (last_word 0 [] [] l) as [stay word] eqn:H2.
  destruct (span_count_end IsSpaceMoji gap (before p) l blanks space_u H1) as [N1 _]. rewrite N1 in Ha. apply span_end_app in H1.
  assert (Hc : zlen (U (before p)) - Z.of_nat (List.length blanks) = zlen l) by (rewrite zlen_map, H1, zlen_app; unfold zlen; lia). rewrite Hc in Ha.
  destruct (word_loop_U l 0 0 (-1) [] [] ltac:(auto) eq_refl ltac:(left; split; [lia|reflexivity]) stay word H2) as [Hsw Htop]. cbn [app] in Hsw.
  assert (HT : aWordTop (aset_cur a (zlen l)) = Some (zlen stay)).
  { unfold aWordTop. cbn [aline acur aset_cur]. rewrite HL, H1, map_app, <- app_assoc, <- (zlen_map u l), slice_pre. cbn zeta. rewrite zlen_map. f_equal.
    destruct Htop as [[T1 T2]|[T1 T2]]; cbn zeta in T1.
    - replace (_ <? 0) with true by lia. subst word. rewrite app_nil_r in Hsw. now rewrite Hsw.
    - pose proof (zlen_nonneg stay). replace (_ <? 0) with false by lia. exact T1. }
  rewrite HT in Ha. cbn [aline aset_cur] in Ha. rewrite HL in Ha.
  assert (Hb : before p = stay ++ word ++ blanks) by (rewrite H1, app_assoc, Hsw; reflexivity).
  assert (Hs : slice (U (before p) ++ U (after p)) (zlen stay) (zlen (U (before p))) = Some (U (word ++ blanks))).
  { replace (zlen (U (before p))) with (zlen (U stay) + zlen (U (word ++ blanks))) by (rewrite Hb, !zlen_map, !zlen_app; lia).
    rewrite <- (zlen_map u stay), Hb, (map_app u stay), <- app_assoc. apply slice_app_mid. }
  rewrite Hs in Ha. rewrite text_U in Ha.
  replace (zlen (U (before p)) - zlen stay) with (zlen (word ++ blanks)) in Ha by (rewrite Hb, zlen_map, !zlen_app; lia).
  destruct (adelete _ _ _) as [a1|] eqn:E1; [|discriminate]. cbn in Ha. injection Ha as <-. rewrite aupdate_id.
  (* the cursor set before does not matter *)
  assert (E2 : exists a2, adelete (aclip_write a (encode (word ++ blanks))) (zlen stay) (zlen (word ++ blanks)) = Some a2 /\ aset_cur a2 (zlen stay) = aset_cur a1 (zlen stay)).
  { unfold adelete in *. rewrite aclip_write_line in *. cbn [aline aset_cur] in E1. destruct (_ || _).
    - injection E1 as <-. eexists. split; [reflexivity|]. unfold aclip_write. cbn. destruct (aclip a); reflexivity.
    - destruct (slice _ _ _); [|discriminate]. destruct (sliceDelete _ _ _); [|discriminate]. cbn in E1. injection E1 as <-. eexists. split; [reflexivity|].
      unfold aclip_write. cbn. destruct (aclip a); reflexivity. }
  destruct E2 as (a2 & E2 & <-). now apply (c_cut a p stay (word ++ blanks)).
Qed.

(** Pasting. *)
Lemma drop_while_snoc f l b : drop_while f (l ++ [b]) = match drop_while f l with [] => if f b then [] else [b] | m => m ++ [b] end.
Proof. induction l as [|x l IH]; cbn [app drop_while]; [destruct (f b); reflexivity|]. destruct (f x); [exact IH|reflexivity]. Qed.
Lemma no_end_breaks_trim t : no_end_breaks t = trim_right t.
Proof.
  unfold trim_right. induction t as [|b t IH]; [reflexivity|]. cbn [no_end_breaks rev]. rewrite drop_while_snoc, IH.
  destruct (drop_while is_trim (rev t)) as [|x m] eqn:Hd; cbn [rev]; [unfold is_trim; destruct (_ || _); reflexivity|].
  rewrite rev_app_distr. destruct (rev m ++ [x]) as [|y w] eqn:He; [destruct (rev m); discriminate|]. cbn [rev app]. f_equal. symmetry. exact He.
Qed.
Lemma quote_body_lines n : forall t, (List.length t < n)%nat -> quote_lines (double_quotes t ++ [34]) = quote_body t ++ [34].
Proof.
  induction n as [|n IH]; intros t Hn; [lia|]. destruct t as [|b t]; [reflexivity|].
  cbn [List.length] in Hn. change (double_quotes (b :: t)) with ((if b =? 34 then [34; 34] else [b]) ++ double_quotes t). cbn [quote_body].
  destruct (b =? 34) eqn:Hb.
  - cbn [app]. rewrite !quote_lines_nocr by (left; lia). rewrite IH by lia. reflexivity.
  - cbn [app]. destruct t as [|c t].
    + cbn. now rewrite andb_false_r.
    + destruct ((b =? 13) && (c =? 10)) eqn:Hcr.
      * apply andb_true_iff in Hcr as [H1 H2]. apply Z.eqb_eq in H1, H2. subst b c.
        change (double_quotes (10 :: t)) with (10 :: double_quotes t). cbn [app]. rewrite quote_lines_cons2.
        change ((13 =? 13) && (10 =? 10)) with true. cbn iota. cbn [app]. rewrite IH by (cbn [List.length] in Hn; lia). reflexivity.
      * rewrite quote_lines_nocr; [rewrite IH by (cbn [List.length] in *; lia); reflexivity|].
        destruct (Z.eq_dec b 13) as [->|Hn13]; [|now left]. right. intros x t' Hx.
        change (double_quotes (c :: t)) with ((if c =? 34 then [34; 34] else [c]) ++ double_quotes t) in Hx.
        destruct (Z.eqb_spec c 34) as [->|]; cbn [app] in Hx; injection Hx as <- _; [lia|]. cbn in Hcr. lia.
Qed.
Lemma quoted_yank t : quoted t = yank_quote t.
Proof.
  unfold quoted, yank_quote, needs_quotes.
  assert (K : existsb (Z.eqb 32) t && match t with b :: _ => negb (b =? 34) | [] => false end = existsb (Z.eqb 32) t && negb (has_prefix t [34])).
  { destruct t as [|b t]; [reflexivity|]. f_equal. cbn [has_prefix]. destruct (b =? 34) eqn:Hb; rewrite ?Hb; destruct t; cbn; rewrite ?Hb; reflexivity. }
  rewrite K. clear K. destruct (existsb (Z.eqb 32) t && negb (has_prefix t [34])); [|reflexivity]. cbn [app]. rewrite quote_lines_nocr by (left; lia). now rewrite (quote_body_lines (Datatypes.S (List.length t))) by lia.
Qed.
Lemma unj_all t : unj t <-> all_runes (fun r => joins E r = false /\ Q r) t.
Proof. unfold unj, all_runes. now rewrite Forall_forall. Qed.
Lemma c_yank f a p a' : (forall t, unj t -> unj (f t)) -> R a p -> aYank C f a = Some a' -> R a' (paste_clip f p).
Proof.
  intros Hf H Ha. unfold aYank, paste_clip in *. rewrite (r_clip _ _ H) in Ha. destruct (clipboard p) as [t|] eqn:Hc; [|now injection Ha as <-].
  apply (c_paste a p (f t) a' H); [|exact Ha]. apply Hf. now apply (r_clipok _ _ H).
Qed.
Lemma paste_clip_ext f g p : (forall t, f t = g t) -> paste_clip f p = paste_clip g p.
Proof. intros H. unfold paste_clip. destruct (clipboard p); [now rewrite H|reflexivity]. Qed.

(** Two characters in the other order. *)
Lemma apply_swap p n q d : goods d -> d <> [] -> n <> [] -> apply (mkUndo (zlen p) (zlen n) (encode d)) (U (p ++ n ++ q)) = Some (U (p ++ d ++ q), zlen p + zlen d).
Proof.
  intros Hd Nd Nn. unfold apply. cbn [u_del u_pos u_text].
  replace (0 <? zlen n) with true by (destruct n as [|x n]; [congruence|rewrite zlen_cons; pose proof (zlen_nonneg n); lia]).
  rewrite !map_app, <- (zlen_map u p), <- (zlen_map u n), sliceDelete_spec.
  destruct (encode d) as [|b t] eqn:He; [now apply encode_nil in He|]. rewrite <- He, units_encode by exact Hd. rewrite sliceInsert_spec. now rewrite !zlen_map.
Qed.
Lemma c_swap a p a' : R a p -> aSwapChar a = Some a' -> R a' (swap p).
Proof.
  intros H Ha. unfold aSwapChar, swap in *. pose proof (r_line _ _ H) as HL. pose proof (r_cur _ _ H) as HC. pose proof (r_b _ _ H) as Gb. pose proof (r_a _ _ H) as Ga.
  rewrite HL, HC in Ha. rewrite zlen_app, !zlen_map in Ha. destruct (after p) as [|y aft] eqn:Hpa.
  - change (zlen (@nil rune)) with 0 in Ha. rewrite Z.add_0_r, Z.eqb_refl in Ha.
    destruct (rev (before p)) as [|y [|x b]] eqn:Hr.
    + apply rev_nil_inv in Hr. rewrite Hr in Ha. cbn in Ha. now injection Ha as <-.
    + apply rev_cons_inv in Hr. rewrite Hr in Ha. cbn in Ha. now injection Ha as <-.
    + apply rev_cons_inv in Hr. cbn [rev] in Hr. rewrite <- app_assoc in Hr. cbn [app] in Hr. pose proof (zlen_nonneg (rev b)) as Z0.
      assert (Hz : zlen (before p) = zlen (rev b) + 2) by (rewrite Hr, zlen_app; reflexivity).
      replace (zlen (before p) <? 2) with false in Ha by lia. cbn [map] in Ha. rewrite app_nil_r in Ha.
      replace (zlen (before p) - 2) with (zlen (rev b)) in Ha by lia. replace (zlen (before p) - 1) with (zlen (rev b) + 1) in Ha by lia. rewrite Hz in Ha. rewrite Hr, map_app in Ha.
      assert (S1 : slice (U (rev b) ++ U [x; y]) (zlen (rev b)) (zlen (rev b) + 2) = Some (U [x; y])).
      { pose proof (slice_app_mid (U (rev b)) (U [x; y]) []) as K. rewrite app_nil_r, !zlen_map in K. exact K. }
      assert (S2 : aswap (U (rev b) ++ U [x; y]) (zlen (rev b)) (zlen (rev b) + 1) = Some (U (rev b ++ [y; x]))).
      { rewrite <- (zlen_map u (rev b)). rewrite map_app. apply (aswap_mid (U (rev b)) (u x) (u y) []). }
      rewrite S1, S2 in Ha. injection Ha as <-.
      assert (G : goods (rev b ++ [y; x])).
      { rewrite Hr in Gb. apply Forall_app in Gb as [G1 G2]. inversion G2 as [|? ? K1 K2]. inversion K2 as [|? ? K3 K4]. apply Forall_app. split; [exact G1|]. constructor; [exact K3|]. constructor; [exact K1|constructor]. }
      eapply R_change; [exact H|exact G|constructor| | | reflexivity | reflexivity | reflexivity | reflexivity | reflexivity | reflexivity | | reflexivity | lia | | ].
      * cbn. now rewrite app_nil_r.
      * cbn. rewrite HC, Hz, zlen_app. reflexivity.
      * cbn. lia.
      * left. split; [reflexivity|]. split; [rewrite app_nil_r, zlen_app; change (zlen [y; x]) with 2; lia|]. unfold apply. cbn [u_del u_pos]. cbn [Z.ltb Z.compare]. rewrite sliceDelete_none; [reflexivity|lia|]. rewrite app_nil_r, zlen_map, zlen_app. change (zlen [y; x]) with 2. lia.
      * unfold whole. rewrite Hpa, app_nil_r. lia.
  - rewrite zlen_cons in Ha. pose proof (zlen_nonneg aft). replace (_ =? _) with false in Ha by lia.
    destruct (rev (before p)) as [|x b] eqn:Hr.
    + apply rev_nil_inv in Hr. rewrite Hr in Ha. cbn in Ha. now injection Ha as <-.
    + apply rev_cons_inv in Hr. pose proof (zlen_nonneg (rev b)) as Z0. assert (Hz : zlen (before p) = zlen (rev b) + 1) by (rewrite Hr, zlen_app; reflexivity).
      replace (zlen (before p) <? 1) with false in Ha by lia. rewrite Hz in *. replace (zlen (rev b) + 1 - 1) with (zlen (rev b)) in * by lia.
      rewrite Hr in Ha. rewrite map_app, <- app_assoc in Ha. cbn [map app] in Ha.
      assert (S1 : slice (U (rev b) ++ u x :: u y :: U aft) (zlen (rev b)) (zlen (rev b) + 1 + 1) = Some (U [x; y])).
      { pose proof (slice_app_mid (U (rev b)) (U [x; y]) (U aft)) as K. rewrite !zlen_map in K. replace (zlen (rev b) + 1 + 1) with (zlen (rev b) + zlen [x; y]) by (change (zlen [x; y]) with 2; lia). exact K. }
      assert (S2 : aswap (U (rev b) ++ u x :: u y :: U aft) (zlen (rev b)) (zlen (rev b) + 1) = Some (U (rev b ++ [y; x]) ++ U aft)).
      { rewrite <- (zlen_map u (rev b)). rewrite map_app, <- app_assoc. apply (aswap_mid (U (rev b)) (u x) (u y) (U aft)). }
      rewrite S1, S2 in Ha. injection Ha as <-.
      rewrite Hr in Gb. apply Forall_app in Gb as [G1 G2]. inversion G2 as [|? ? K1 K2]. inversion Ga as [|? ? K3 K4].
      eapply R_change; [exact H| |exact K4| | | reflexivity | reflexivity | reflexivity | reflexivity | reflexivity | reflexivity | reflexivity | reflexivity | lia | | ].
      * apply Forall_app. split; [exact G1|]. constructor; [exact K3|]. constructor; [exact K1|constructor].
      * reflexivity.
      * cbn. rewrite zlen_app. change (zlen [y; x]) with 2. lia.
      * right. change (write (u x) ++ write (u y) ++ []) with (text (U [x; y])). rewrite text_U. pose proof (apply_swap (rev b) [y; x] aft [x; y]) as K. change (zlen [y; x]) with 2 in K. change (zlen [x; y]) with 2 in K. rewrite <- app_assoc.
        replace (zlen (rev b) + 1 + 1) with (zlen (rev b) + 2) by lia. unfold whole. rewrite Hpa, Hr, <- app_assoc. cbn [app] in *. apply K; [|discriminate|discriminate]. constructor; [exact K1|]. constructor; [exact K3|constructor].
      * unfold whole. rewrite Hpa, zlen_app, zlen_cons. lia.
Qed.

(** UNDO. *)
Lemma aUndo_apply a v rest : aundo a = v :: rest ->
  aUndo C a = match apply v (aline a) with None => None | Some (l, c) => Some (aset_cur (aset_line (aset_undo a rest) l) c) end.
Proof.
  intros H. unfold aUndo, apply. rewrite H. destruct (if 0 <? u_del v then _ else _) as [l1|]; [|reflexivity].
  destruct (u_text v) as [|b t]; [now rewrite aupdate_id|]. destruct (sliceInsert _ _ _); [|reflexivity]. now rewrite aupdate_id.
Qed.
Lemma c_undo a p a' : R a p -> aUndo C a = Some a' -> R a' (take_back p).
Proof.
  intros H Ha. pose proof (r_chain _ _ H) as Hch. unfold take_back. destruct (aundo a) as [|v us] eqn:Hu.
  - destruct (changes p); [|destruct Hch]. unfold aUndo in Ha. rewrite Hu in Ha. now injection Ha as <-.
  - destruct (changes p) as [|c cs]; [destruct Hch|]. destruct Hch as [(P1 & P2 & P3 & P4 & P5 & P6) Hch].
    rewrite (aUndo_apply a v us Hu), (R_whole _ _ H) in Ha. destruct P4 as [(_ & _ & P4)|P4]; rewrite P4 in Ha; [discriminate|]. injection Ha as <-.
    assert (Hw : c_text c = firstn (Z.to_nat (c_cursor c)) (c_text c) ++ skipn (Z.to_nat (c_cursor c)) (c_text c)) by (now rewrite firstn_skipn).
    destruct H. constructor; cbn; auto.
    + rewrite Hw at 1. now rewrite map_app.
    + unfold zlen. rewrite firstn_length. unfold zlen in P6. lia.
    + rewrite Hw in P5. apply Forall_app in P5. apply P5.
    + rewrite Hw in P5. apply Forall_app in P5. apply P5.
    + unfold whole. cbn. now rewrite <- Hw.
Qed.

(** History. *)
Lemma index_entry i : 0 <= i < zlen (hist C) -> index (hist C) i = Some (entry (hist C) i).
Proof.
  intros H. destruct (index_lt _ _ H) as [x Hx]. rewrite Hx. unfold entry, index in *. replace (0 <=? i) with true in Hx by lia. now rewrite (nth_error_nth _ _ _ Hx).
Qed.
Lemma entry_over i : zlen (hist C) <= i -> entry (hist C) i = [].
Proof. intros H. unfold entry. apply nth_overflow. unfold zlen in H. lia. Qed.
Lemma entry_unjoined i : unj (entry (hist C) i).
Proof.
  unfold entry. destruct (nth_in_or_default (Z.to_nat i) (hist C) []) as [Hi|Hi]; [|rewrite Hi; intros r []]. rewrite Forall_forall in Hh. now apply Hh.
Qed.
Lemma c_leave a p a' : R a p -> asave C a = Some a' -> R a' (leave (hist C) p).
Proof.
  intros H Ha. unfold asave, leave, atext in *. rewrite (R_whole _ _ H), text_U, (r_ptr _ _ H) in Ha. pose proof (r_rng _ _ H) as Hrng.
  assert (HS : R (aset_modh a (aset Z.eqb (amodh a) (visiting p) (encode (whole p)))) (mkPaper (before p) (after p) (clipboard p) (visiting p) (fun i => if i =? visiting p then Some (encode (whole p)) else edited p i) (changes p))).
  { pose proof (R_goods _ _ H) as G. destruct H. constructor; cbn -[aget aset]; auto.
    - intros i Hi. destruct (Z.eqb_spec i (visiting p)) as [->|Hn].
      + apply aget_aset_same. intros. apply Z.eqb_eq.
      + rewrite aget_aset_other; [auto| |congruence]. intros. apply Z.eqb_eq.
    - intros i t. destruct (i =? visiting p); [|apply r_modok0]. intros Ht. injection Ht as <-. now apply unj_encode. }
  destruct (visiting p <? zlen (hist C)) eqn:Hv; cbn [andb].
  - rewrite index_entry in Ha by lia. cbn in Ha. destruct (str_eqb _ _); injection Ha as <-; assumption.
  - injection Ha as <-. exact HS.
Qed.
Lemma R_hptr a p i : R a p -> 0 <= i <= zlen (hist C) -> R (aset_hptr a i) (mkPaper (before p) (after p) (clipboard p) i (edited p) (changes p)).
Proof. intros H Hi. destruct H. constructor; cbn; auto. Qed.
Lemma c_visit a p i a' : R a p -> 0 <= i <= zlen (hist C) -> ashow C (aset_hptr a i) = Some a' -> R a' (visit (hist C) i p).
Proof.
  intros H Hi Ha. unfold ashow, visit in *. pose proof (c_kill_all _ _ (R_hptr _ _ _ H Hi)) as HR.
  set (a1 := aKillWhole (aset_hptr a i)) in *. set (p1 := kill_all _) in *.
  assert (HG : agetHistory C a1 = Some (shown_at (hist C) i p)).
  { unfold agetHistory, shown_at. change (ahptr a1) with i. change (amodh a1) with (amodh a). rewrite (r_mod _ _ H) by lia. destruct (edited p i); [reflexivity|].
    destruct (zlen (hist C) <=? i) eqn:Hl.
    - rewrite orb_true_r, entry_over by lia. reflexivity.
    - replace (i <? 0) with false by lia. cbn [orb]. apply index_entry. lia. }
  rewrite HG in Ha. cbn in Ha.
  assert (HU : unj (shown_at (hist C) i p)) by (unfold shown_at; destruct (edited p i) eqn:He; [now apply (r_modok _ _ H i)|apply entry_unjoined]).
  destruct (shown_at (hist C) i p) as [|b t] eqn:Ht; [now injection Ha as <-|]. set (t1 := b :: t) in *.
  rewrite units_U in Ha by exact HU. pose proof (ains_mid a1 [] (U (runes t1)) [] eq_refl) as K. change (zlen (@nil moji)) with 0 in K. rewrite K in Ha. injection Ha as <-.
  pose proof (c_insert a1 p1 (runes t1) HR (goods_runes _ HU)) as HR2. cbn [before after p1 kill_all change_to map app] in HR2. rewrite app_nil_r in *. rewrite zlen_map in *. exact HR2.
Qed.
Lemma c_previous a p a' : R a p -> aPrevious C a = Some a' -> R a' (previous (hist C) (cycling C) p).
Proof.
  intros H Ha. unfold aPrevious, previous in *. pose proof (r_rng _ _ H) as Hrng. destruct (hist C) as [|h0 hs] eqn:Hhs; [now injection Ha as <-|]. rewrite <- Hhs in *.
  assert (Hl : 0 < zlen (hist C)) by (rewrite Hhs, zlen_cons; pose proof (zlen_nonneg hs); lia).
  replace (zlen (hist C) <=? 0) with false in Ha by lia. rewrite (r_ptr _ _ H) in Ha. destruct (0 <? visiting p) eqn:Hv.
  - replace (visiting p <=? 0) with false in Ha by lia. destruct (asave C a) as [a1|] eqn:Hs; [|discriminate]. cbn in Ha.
    pose proof (c_leave _ _ _ H Hs) as HR. replace (ahptr a1 - 1) with (visiting p - 1) in Ha; [apply (c_visit a1); [exact HR|lia|exact Ha]|].
    rewrite (r_ptr _ _ HR). unfold leave. destruct (_ && _); reflexivity.
  - replace (visiting p <=? 0) with true in Ha by lia. destruct (cycling C); cbn [negb] in Ha; [|now injection Ha as <-].
    unfold asave in Ha. cbn [ahptr aset_hptr] in Ha. replace (_ <? _) with false in Ha by lia. cbn [ahptr aset_modh aset_hptr] in Ha. replace (zlen (hist C) + 1 - 1) with (zlen (hist C)) in Ha by lia.
    match type of Ha with context [aset_modh ?x ?y] => set (m := y) in * end.
    apply (c_visit (aset_modh a m)); [|lia|exact Ha]. destruct H. constructor; cbn -[aget aset]; auto. intros i Hi. unfold m. cbn [amodh aset_hptr]. rewrite aget_aset_other; [auto|intros; apply Z.eqb_eq|lia].
Qed.
Lemma c_next a p a' : R a p -> aNext C a = Some a' -> R a' (next (hist C) p).
Proof.
  intros H Ha. unfold aNext, next in *. pose proof (r_rng _ _ H) as Hrng. destruct (hist C) as [|h0 hs] eqn:Hhs; [now injection Ha as <-|]. rewrite <- Hhs in *.
  assert (Hl : 0 < zlen (hist C)) by (rewrite Hhs, zlen_cons; pose proof (zlen_nonneg hs); lia).
  replace (zlen (hist C) <=? 0) with false in Ha by lia. rewrite (r_ptr _ _ H) in Ha. destruct (visiting p <? zlen (hist C)) eqn:Hv.
  - replace (_ <? _) with false in Ha by lia. destruct (asave C a) as [a1|] eqn:Hs; [|discriminate]. cbn in Ha.
    pose proof (c_leave _ _ _ H Hs) as HR. replace (ahptr a1 + 1) with (visiting p + 1) in Ha; [apply (c_visit a1); [exact HR|lia|exact Ha]|].
    rewrite (r_ptr _ _ HR). unfold leave. destruct (_ && _); reflexivity.
  - replace (_ <? _) with true in Ha by lia. now injection Ha as <-.
Qed.

(** The search. *)
Lemma begins_prefix t v : begins t v = has_prefix t v.
Proof. revert t. induction v as [|b v IH]; intros [|c t]; cbn; try reflexivity. now rewrite IH, (Z.eqb_sym b c). Qed.
Lemma str_index_low t v : -1 <= str_index t v.
Proof. induction t as [|b t IH]; cbn [str_index]; destruct (has_prefix _ v); try lia. destruct (str_index t v <? 0) eqn:Hs; lia. Qed.
Lemma occurs_contains t v : occurs t v = str_contains t v.
Proof.
  unfold str_contains. induction t as [|b t IH]; cbn [occurs str_index]; rewrite begins_prefix; destruct (has_prefix _ v); try reflexivity.
  cbn [orb]. rewrite IH. pose proof (str_index_low t v). destruct (str_index t v <? 0) eqn:Hs; lia.
Qed.
Notation matches_ := (matches (hist C) (upper C)).
Lemma matches_contains l i : matches_ l i = ci_contains S (entry (hist C) i) (encode l).
Proof. unfold matches, ci_contains. apply occurs_contains. Qed.
Lemma entry_nat n : (n < List.length (hist C))%nat -> firstn (Datatypes.S n) (hist C) = firstn n (hist C) ++ [entry (hist C) (Z.of_nat n)].
Proof.
  unfold entry. rewrite Nat2Z.id. generalize (hist C). intros l. revert n. induction l as [|x l IH]; intros n Hn; [cbn in Hn; lia|]. destruct n as [|n]; [reflexivity|].
  change (firstn (Datatypes.S (Datatypes.S n)) (x :: l)) with (x :: firstn (Datatypes.S n) l). rewrite IH by (cbn in Hn; lia). reflexivity.
Qed.
Lemma look_up_find l f0 i n : (n <= List.length (hist C))%nat ->
  search_update S (rev (firstn n (hist C))) (Z.of_nat n - 1) (mkSearch (encode l) f0 i) =
  match find (matches_ l) (rev (map Z.of_nat (seq 0 n))) with Some j => mkSearch (encode l) (entry (hist C) j) j | None => mkSearch (encode l) [] i end.
Proof.
  induction n as [|n IH]; intros Hn; [reflexivity|]. rewrite entry_nat by lia. rewrite seq_S, map_app, !rev_app_distr. cbn [rev app map search_update find ss_str plus].
  rewrite matches_contains. replace (Z.of_nat (Datatypes.S n) - 1) with (Z.of_nat n) by lia. destruct (ci_contains _ _ _); [reflexivity|]. apply IH. lia.
Qed.
Lemma c_look_up l f0 i : update S (mkSearch (encode l) f0 i) = mkSearch (encode l) (fst (look_up (hist C) (upper C) l i)) (snd (look_up (hist C) (upper C) l i)).
Proof.
  unfold update, look_up, below. pose proof (look_up_find l f0 i (List.length (hist C)) (le_n _)) as K. rewrite firstn_all in K. unfold zlen. rewrite Nat2Z.id.
  rewrite K. destruct (find _ _); reflexivity.
Qed.
Lemma filter_below i : -1 <= i < zlen (hist C) ->
  filter (fun j => i <? j) (below (zlen (hist C))) = map Z.of_nat (seq (Z.to_nat (i + 1)) (List.length (hist C) - Z.to_nat (i + 1))).
Proof.
  intros Hi. unfold below, zlen in *. rewrite Nat2Z.id. set (n := List.length (hist C)) in *. set (k := Z.to_nat (i + 1)).
  replace n with (k + (n - k))%nat at 1 by lia. rewrite seq_app, map_app, filter_app. cbn [plus].
  replace (filter _ (map Z.of_nat (seq 0 k))) with (@nil Z).
  - cbn [app]. assert (G : forall m a, (k <= a)%nat -> filter (fun j => i <? j) (map Z.of_nat (seq a m)) = map Z.of_nat (seq a m)).
    { induction m as [|m IH]; intros a Ha; [reflexivity|]. cbn [seq map filter]. replace (i <? Z.of_nat a) with true by lia. now rewrite IH by lia. }
    now apply G.
  - assert (G : forall m a, (a + m <= k)%nat -> filter (fun j => i <? j) (map Z.of_nat (seq a m)) = []).
    { induction m as [|m IH]; intros a Ha; [reflexivity|]. cbn [seq map filter]. replace (i <? Z.of_nat a) with false by lia. apply IH. lia. }
    symmetry. now apply G.
Qed.
Notation found_ l f0 i js := (let r := look_on (hist C) (upper C) js l f0 i in mkSearch (encode l) (fst r) (snd r)).
Lemma c_newer l f0 i m : forall a f, -1 <= i -> i < Z.of_nat a -> (a + m)%nat = List.length (hist C) -> (m < f)%nat ->
  search_newer S f (Z.of_nat a) (mkSearch (encode l) f0 i) = Some (found_ l f0 i (map Z.of_nat (seq a m))).
Proof.
  induction m as [|m IH]; intros a f Hi Ha Hm Hf; (destruct f as [|f]; [lia|]); cbn [search_newer seq map].
  - unfold zlen. replace (_ <=? _) with true by lia. reflexivity.
  - unfold zlen. replace (_ <=? _) with false by lia. cbn [ss_pos ss_str ss_found]. replace (_ =? _) with false by lia.
    rewrite index_entry by (unfold zlen; lia). unfold look_on. cbn [find]. rewrite matches_contains. destruct (_ && _); [reflexivity|].
    replace (Z.of_nat a + 1) with (Z.of_nat (Datatypes.S a)) by lia. rewrite IH by lia. reflexivity.
Qed.
Lemma c_older_up l f0 i m : forall f, 0 <= i -> i + Z.of_nat m < zlen (hist C) -> (m < f)%nat ->
  search_older S f (i + Z.of_nat m) (mkSearch (encode l) f0 i) = Some (found_ l f0 i (rev (map Z.of_nat (seq (Z.to_nat (i + 1)) m)))).
Proof.
  induction m as [|m IH]; intros f Hi Hm Hf; (destruct f as [|f]; [lia|]); cbn [search_older].
  - replace (i + Z.of_nat 0) with i by lia. replace (i <? 0) with false by lia. cbn [ss_pos]. rewrite Z.eqb_refl. reflexivity.
  - replace (_ <? 0) with false by lia. cbn [ss_pos ss_str ss_found]. replace (_ =? _) with false by lia. rewrite index_entry by lia.
    rewrite seq_S, map_app, rev_app_distr. cbn [map rev app]. unfold look_on. cbn [find]. replace (Z.of_nat (Z.to_nat (i + 1) + m)) with (i + Z.of_nat (Datatypes.S m)) by lia.
    rewrite matches_contains. destruct (_ && _); [reflexivity|]. replace (i + Z.of_nat (Datatypes.S m) - 1) with (i + Z.of_nat m) by lia. rewrite IH by lia. reflexivity.
Qed.
Lemma c_older_down l f0 i n : forall f, 0 <= i < zlen (hist C) -> Z.of_nat n <= i -> (n + (List.length (hist C) - Z.to_nat (i + 1)) < f)%nat ->
  search_older S f (Z.of_nat n - 1) (mkSearch (encode l) f0 i) = Some (found_ l f0 i (rev (map Z.of_nat (seq 0 n)) ++ rev (filter (fun j => i <? j) (below (zlen (hist C)))))).
Proof.
  induction n as [|n IH]; intros f Hi Hn Hf.
  - rewrite filter_below by lia. cbn [seq map rev app]. destruct f as [|f]; [lia|].
    pose proof (c_older_up l f0 i (List.length (hist C) - Z.to_nat (i + 1)) (Datatypes.S f) ltac:(lia) ltac:(unfold zlen in *; lia) ltac:(lia)) as K. cbn [search_older] in *.
    replace (i + Z.of_nat (List.length (hist C) - Z.to_nat (i + 1))) with (zlen (hist C) - 1) in K by (unfold zlen in *; lia).
    replace (zlen (hist C) - 1 <? 0) with false in K by lia. replace (Z.of_nat 0 - 1 <? 0) with true by lia. exact K.
  - destruct f as [|f]; [lia|]. cbn [search_older]. replace (Z.of_nat (Datatypes.S n) - 1) with (Z.of_nat n) by lia.
    replace (_ <? 0) with false by lia. cbn [ss_pos ss_str ss_found]. replace (_ =? _) with false by lia. rewrite index_entry by lia.
    rewrite seq_S, map_app, rev_app_distr. cbn [map rev app plus]. unfold look_on. cbn [find]. rewrite matches_contains. destruct (_ && _); [reflexivity|]. rewrite IH by lia. reflexivity.
Qed.
Definition seeks (i : Z) : Prop := i = -1 /\ hist C = [] \/ 0 <= i < zlen (hist C).
Lemma c_older l f0 i : seeks i -> search_older S (Datatypes.S (List.length (hist C))) (i - 1) (mkSearch (encode l) f0 i) = Some (found_ l f0 i (older_than (hist C) i)).
Proof.
  intros [[-> Hn]|Hi].
  - rewrite Hn. cbn [List.length search_older]. rewrite Hn. reflexivity.
  - unfold older_than. pose proof (c_older_down l f0 i (Z.to_nat i) (Datatypes.S (List.length (hist C))) Hi ltac:(lia) ltac:(unfold zlen in Hi; lia)) as K.
    rewrite Z2Nat.id in K by lia. exact K.
Qed.
Lemma c_newer_than l f0 i : seeks i -> search_newer S (Datatypes.S (Datatypes.S (List.length (hist C)))) (i + 1) (mkSearch (encode l) f0 i) = Some (found_ l f0 i (newer_than (hist C) i)).
Proof.
  intros [[-> Hn]|Hi].
  - rewrite Hn. cbn [List.length search_newer]. rewrite Hn. reflexivity.
  - unfold newer_than. rewrite filter_below by lia. replace (i + 1) with (Z.of_nat (Z.to_nat (i + 1))) at 1 by lia. apply c_newer; unfold zlen in Hi; lia.
Qed.
Lemma find_in {A} (f : A -> bool) l x : find f l = Some x -> In x l. Proof. intros H. now apply find_some in H. Qed.
Lemma in_below j n : In j (below n) -> 0 <= j < n.
Proof. unfold below. intros H. apply in_map_iff in H as (k & <- & H). apply in_seq in H. lia. Qed.
Lemma seeks_up l i : seeks i -> seeks (snd (look_up (hist C) (upper C) l i)).
Proof. intros H. unfold look_up. destruct (find _ _) as [j|] eqn:Hf; [|exact H]. apply find_in, in_rev, in_below in Hf. now right. Qed.
Lemma seeks_on js l f0 i : seeks i -> (forall j, In j js -> 0 <= j < zlen (hist C)) -> seeks (snd (look_on (hist C) (upper C) js l f0 i)).
Proof. intros H Hj. unfold look_on. destruct (find _ _) as [j|] eqn:Hf; [|exact H]. apply find_in in Hf. right. now apply Hj. Qed.
Lemma in_newer i j : In j (newer_than (hist C) i) -> 0 <= j < zlen (hist C).
Proof. unfold newer_than. rewrite filter_In. intros [H _]. now apply in_below. Qed.
Lemma in_older i j : seeks i -> In j (older_than (hist C) i) -> 0 <= j < zlen (hist C).
Proof.
  intros Hs. unfold older_than. rewrite in_app_iff, <- !in_rev, filter_In. intros [H|[H _]]; apply in_below in H; [|exact H]. destruct Hs as [[-> _]|Hs]; lia.
Qed.
(** The text found is an entry or nothing. *)
Definition from_history (t : str) : Prop := t = [] \/ exists i, t = entry (hist C) i.
Lemma from_up l i : from_history (fst (look_up (hist C) (upper C) l i)).
Proof. unfold look_up. destruct (find _ _) as [j|]; [right; now exists j|now left]. Qed.
Lemma from_on js l f0 i : from_history f0 -> from_history (fst (look_on (hist C) (upper C) js l f0 i)).
Proof. unfold look_on. destruct (find _ _) as [j|]; [right; now exists j|auto]. Qed.
Lemma from_unjoined t : from_history t -> unj t.
Proof. intros [->|[i ->]]; [intros r []|apply entry_unjoined]. Qed.
Definition vals (l : list rune) : Prop := Forall (fun r => valid_rune r = true /\ Q r) l.
Lemma vals_valid l : vals l -> Forall (fun r => valid_rune r = true) l. Proof. apply Forall_impl. now intros r []. Qed.

Lemma c_accept a p f0 l i a' : R a p -> from_history f0 -> aaccept S (mkSearch l f0 i) a = Some a' -> R a' (accept_found f0 p).
Proof.
  intros H Hf Ha. unfold aaccept, accept_found in *. cbn [ss_found] in Ha. pose proof (c_kill_all _ _ H) as HR. unfold aKillWhole in HR.
  apply (c_paste _ _ f0 a' HR); [now apply from_unjoined|exact Ha].
Qed.
Lemma first_rune_decode k : fst (decode_rune k) = first_rune k.
Proof. destruct k as [|b t]; [reflexivity|]. unfold first_rune. now rewrite runes_step. Qed.
Lemma first_rune_valid k : valid_rune (first_rune k) = true.
Proof. rewrite <- first_rune_decode. destruct k as [|b t]; [reflexivity|apply decode_rune_valid]. Qed.
Lemma vals_removelast l : vals l -> vals (removelast l).
Proof. intros H. destruct l as [|x l]; [exact H|]. rewrite (app_removelast_last x (l := x :: l)) in H by discriminate. apply Forall_app in H. apply H. Qed.

(** * Sessions *)
Definition RS (x : asess) (d : desk) : Prop :=
  match x, d with
  | ARunning MNormal a, Editing p | ARunning MQuoted a, Quoting p => R a p
  | ARunning (MSearch ss) a, Searching l f0 i p => R a p /\ ss = mkSearch (encode l) f0 i /\ vals l /\ from_history f0 /\ seeks i
  | AFinished _ t e, Returned t' e' => t = t' /\ e = e'
  | _, _ => False
  end.
Notation press_ := (press (hist C) (cycling C) (LookupCommand (kmap S) (gmap S))).
Notation happens_ := (happens (hist C) (cycling C) (upper C) (LookupCommand (kmap S) (gmap S))).
Lemma RS_continue o p x (q : paper) : (forall a', o = Some a' -> R a' q) -> aafter (acontinue o) = Some x -> p = Editing q -> RS x p.
Proof. intros H Hx ->. destruct o as [a'|]; [|discriminate]. cbn in Hx. injection Hx as <-. cbn. now apply H. Qed.
Lemma s_press b k a p x : builtin_keys S -> unj_event (EKey k) -> R a p -> akey_normal S b k a = Some x -> RS x (press_ k p).
Proof.
  intros HB (Hk1 & _ & Hk2) H Hx. unfold akey_normal, press in *. specialize (HB k). destruct (LookupCommand (kmap S) (gmap S) k) eqn:Hc.
  all: try solve [cbn [aexec] in Hx; eapply RS_continue; [|exact Hx|reflexivity]; intros; eauto using c_forward, c_delete_backward, c_delete_forward, c_kill_right, c_rubout, c_discard, c_swap, c_undo, c_previous, c_next, c_backward_word, c_forward_word].
  all: try solve [cbn [aexec aafter] in Hx; rewrite ?aupdate_id in Hx; injection Hx as <-; cbn [RS]; eauto using c_backward, c_kill_all].
  - (* accept *) cbn [aexec aafter afinish] in Hx. unfold afinish in Hx. injection Hx as <-. cbn. unfold atext. cbn. rewrite (R_whole _ _ H), text_U. auto.
  - (* interrupt *) cbn [aexec aafter] in Hx. injection Hx as <-. cbn. auto.
  - cbn [aexec aafter] in Hx. rewrite aupdate_id in Hx. injection Hx as <-. cbn [RS]. apply (R_go a p [] (whole p) H). reflexivity.
  - cbn [aexec aafter] in Hx. injection Hx as <-. cbn [RS]. rewrite (R_whole _ _ H), zlen_map. apply (R_go a p (whole p) [] H). apply app_nil_r.
  - cbn [aexec] in Hx. rewrite (R_whole _ _ H), zlen_map in Hx. destruct (whole p) as [|r w] eqn:Hw.
    + cbn in Hx. injection Hx as <-. cbn. unfold atext. cbn. rewrite (R_whole _ _ H), Hw. auto.
    + rewrite zlen_cons in Hx. pose proof (zlen_nonneg w). replace (0 <? _) with true in Hx by lia. eapply RS_continue; [|exact Hx|reflexivity]. intros; eauto using c_delete_forward.
  - cbn [aexec] in Hx. rewrite (paste_clip_ext no_end_breaks trim_right) by apply no_end_breaks_trim. eapply RS_continue; [|exact Hx|reflexivity].
    intros a' Ha'. eapply c_yank; [|exact H|exact Ha']. intros t. rewrite !unj_all. apply all_trim_right.
  - cbn [aexec] in Hx. rewrite (paste_clip_ext quoted yank_quote) by apply quoted_yank. eapply RS_continue; [|exact Hx|reflexivity].
    intros a' Ha'. eapply c_yank; [|exact H|exact Ha']. intros t. rewrite !unj_all. apply all_yank_quote. exact (conj H34 Q34).
  - injection Hx as <-. cbn [RS]. split; [exact H|]. split; [reflexivity|]. split; [constructor|]. split; [now left|].
    unfold seeks. destruct (hist C) as [|h hs]; [left; auto|right]. rewrite zlen_cons. pose proof (zlen_nonneg hs). lia.
  - cbn [aexec] in Hx. eapply RS_continue; [|exact Hx|reflexivity]. intros a' Ha'. eapply c_self; eauto.
  - destruct HB.
Qed.
Lemma s_search k l f0 i a p x : (is_ctrl (first_rune k) = false -> Q (first_rune k)) -> R a p -> vals l -> from_history f0 -> seeks i -> akey_search S (mkSearch (encode l) f0 i) k a = Some x ->
  RS x (press_search (hist C) (upper C) k l f0 i p).
Proof.
  intros HQ H Hl Hf Hi Hx. unfold akey_search, search_key, press_search in *. cbn [ss_str ss_found ss_pos] in Hx.
  destruct (str_eqb k [8] || str_eqb k [127]).
  { injection Hx as <-. unfold chop. rewrite runes_encode by exact (vals_valid _ Hl). rewrite c_look_up. cbn [RS]. refine (conj _ (conj _ (conj _ (conj _ _)))); auto using vals_removelast, from_up, seeks_up. }
  destruct (str_eqb k [13]).
  { destruct (aaccept _ _ _) as [a'|] eqn:Ha; [|discriminate]. injection Hx as <-. cbn [RS]. eapply c_accept; eauto. }
  destruct (str_eqb k [3] || str_eqb k [7] || str_eqb k [27]).
  { injection Hx as <-. exact H. }
  destruct (str_eqb k [18]).
  { rewrite c_older in Hx by exact Hi. injection Hx as <-. cbn [RS]. refine (conj _ (conj _ (conj _ (conj _ _)))); auto using from_on. apply seeks_on; [exact Hi|]. intros j. now apply in_older. }
  destruct (str_eqb k [19]).
  { rewrite c_newer_than in Hx by exact Hi. injection Hx as <-. cbn [RS]. refine (conj _ (conj _ (conj _ (conj _ _)))); auto using from_on. apply seeks_on; [exact Hi|]. intros j. apply in_newer. }
  pose proof (first_rune_decode k) as Hk. destruct (decode_rune k) as [r w]. cbn in Hk. subst r. change (is_ctrl (first_rune k)) with (is_control (first_rune k)) in *.
  destruct (is_control (first_rune k)); [injection Hx as <-; cbn [RS]; auto|].
  injection Hx as <-. assert (He : encode l ++ encode_rune (first_rune k) = encode (l ++ [first_rune k])) by (rewrite encode_app; cbn; now rewrite app_nil_r).
  rewrite He, c_look_up. cbn [RS]. refine (conj _ (conj _ (conj _ (conj _ _)))); auto using from_up, seeks_up. unfold vals. apply Forall_app. split; [exact Hl|]. constructor; [exact (conj (first_rune_valid k) (HQ eq_refl))|constructor].
Qed.
Lemma R_setclip a p c : R a p -> (forall t, c = Some t -> unj t) -> R (aset_clip a c) (mkPaper (before p) (after p) c (visiting p) (edited p) (changes p)).
Proof. intros H Hc. destruct H. constructor; cbn; auto. Qed.
Lemma s_step b e x d x' : builtin_keys S -> unj_event e -> RS x d -> astep S b e x = Some x' -> RS x' (happens_ e d).
Proof.
  intros HB He H Hx. destruct x as [m a|a t r]; cbn [astep] in Hx.
  2:{ injection Hx as <-. destruct d; try destruct H. destruct e; split; assumption. }
  destruct e as [k| |w|c].
  - destruct m as [| |ss]; destruct d as [p|p|l f0 i p|t r]; try (destruct H; fail); cbn [RS] in H; try contradiction; cbn [happens].
    + exact (s_press b k a p x' HB He H Hx).
    + destruct (aselfInsert C k a) as [a'|] eqn:Ha; [|discriminate]. injection Hx as <-. cbn [RS]. eapply c_self; [exact H|exact (proj1 He)|exact Ha].
    + destruct H as (H & -> & Hl & Hf & Hi). eapply s_search; eauto. exact (proj1 (proj2 He)).
  - destruct m as [| |ss]; destruct d as [p|p|l f0 i p|t r]; try (destruct H; fail); cbn [RS] in H; try contradiction; injection Hx as <-; cbn [happens RS]; auto. apply H.
  - destruct m as [| |ss]; destruct d as [p|p|l f0 i p|t r]; try (destruct H; fail); cbn [RS] in H; try contradiction; rewrite ?aupdate_id in Hx; injection Hx as <-; cbn [happens RS]; auto.
  - assert (Hc : forall t, c = Some t -> unj t) by (intros t ->; exact He).
    destruct m as [| |ss]; destruct d as [p|p|l f0 i p|t r]; try (destruct H; fail); cbn [RS] in H; try contradiction; injection Hx as <-; cbn [happens RS]; try now apply R_setclip.
    destruct H as (H & H0). split; [now apply R_setclip|exact H0].
Qed.
Lemma s_start default cur cl : 0 <= cur -> unj default -> (forall t, cl = Some t -> unj t) -> R (astart S default cur cl) (fresh (hist C) default cur cl).
Proof.
  intros Hc Hd Hcl. unfold astart. rewrite aupdate_id, units_U by exact Hd. pose proof (goods_runes _ Hd) as G. set (t := runes default) in *. rewrite zlen_map.
  assert (Hw : t = firstn (Z.to_nat cur) t ++ skipn (Z.to_nat cur) t) by (now rewrite firstn_skipn).
  constructor; cbn -[firstn skipn]; auto.
  - fold t. rewrite Hw at 1. now rewrite map_app.
  - fold t. unfold zlen. rewrite firstn_length. destruct (Z.ltb_spec (Z.of_nat (List.length t)) cur); lia.
  - fold t. rewrite Hw in G. apply Forall_app in G. apply G.
  - fold t. rewrite Hw in G. apply Forall_app in G. apply G.
  - pose proof (zlen_nonneg (hist C)). lia.
  - intros i t0 H0. discriminate.
  - unfold whole. cbn -[firstn skipn]. fold t. rewrite <- Hw. split; [|exact I]. pose proof (zlen_nonneg t). unfold fits. cbn [c_text c_cursor c_place c_new u_pos u_del]. refine (conj eq_refl (conj eq_refl (conj _ (conj _ (conj (Forall_nil _) _))))); [exact H| |split; apply Z.le_refl].
    right. pose proof (apply_ins [] [] t) as K. cbn [app] in K. rewrite app_nil_r in K. exact K.
Qed.
Lemma alone_U l : goods l -> alone E l = U l.
Proof.
  induction l as [|r l IH]; intros H; [reflexivity|]. inversion H as [|? ? H1 H2]. cbn [alone flat_map map]. unfold alone in IH. rewrite IH by assumption.
  assert (K : split E (encode_rune r) = [u r]).
  { change (split E (encode_rune r)) with (map erase (StringToMoji E (encode_rune r))). rewrite StringToMoji_units. replace (encode_rune r) with (encode [r]) by (cbn; apply app_nil_r). apply (units_encode [r]). now constructor. }
  rewrite K. reflexivity.
Qed.
Lemma RS_same x d : RS (abss x) d -> same_desk E x d.
Proof.
  assert (G : forall s p, R (abs s) p -> same_page E s p).
  { intros s p H. split; [split|].
    - rewrite !alone_U by apply H. apply (r_line _ _ H).
    - rewrite alone_U by apply H. rewrite zlen_map. apply (r_cur _ _ H).
    - apply (r_clip _ _ H). }
  destruct x as [[| |ss] s|s t r], d as [p|p|l f0 i p|t' r']; cbn; auto. intros (H & -> & _). auto.
Qed.
Lemma s_run es : builtin_keys S -> Forall (unj_event) es -> forall x d x', RS (abss x) d -> run S es x = Some x' -> RS (abss x') (fold_left (fun d e => happens_ e d) es d).
Proof.
  intros HB. induction es as [|e es IH]; intros Hes x d x' H Hx; cbn [run fold_left] in *; [injection Hx as <-; exact H|].
  inversion Hes as [|? ? H1 H2]. destruct (step S e x) as [x1|] eqn:Hs; [|discriminate]. cbn in Hx. eapply IH; [exact H2| |exact Hx].
  apply step_ref in Hs as [b Hb]; [|exact HB]. eapply s_step; eauto.
Qed.
Lemma s_readline default cur w cl es x : only_builtin S -> 0 <= cur -> unj default -> (forall t, cl = Some t -> unj t) -> Forall (unj_event) es ->
  readline S default cur w cl es = Some x -> same_desk E x (on_paper (hist C) (cycling C) (upper C) (LookupCommand (kmap S) (gmap S)) default cur cl es).
Proof.
  intros HB Hc Hd Hcl Hes Hx. unfold readline in Hx. destruct (start S default cur w cl) as [x0|] eqn:Hs; [|discriminate]. cbn in Hx.
  apply RS_same. unfold on_paper. eapply s_run; [now apply Reach.only_builtin_keys|exact Hes| |exact Hx]. apply start_ref in Hs. rewrite Hs. cbn. now apply s_start.
Qed.
End WithScfg.

Lemma s_unj S default cur w cl es x : only_builtin S -> pcolor0 (base S) = [] -> joins (cE (base S)) 65533 = false -> joins (cE (base S)) 34 = false -> Forall (unjoined (cE (base S))) (hist (base S)) -> 0 <= cur -> unjoined (cE (base S)) default ->
  (forall t, cl = Some t -> unjoined (cE (base S)) t) -> Forall (unjoined_event S) es -> readline S default cur w cl es = Some x ->
  same_desk (cE (base S)) x (on_paper (hist (base S)) (cycling (base S)) (upper (base S)) (LookupCommand (kmap S) (gmap S)) default cur cl es).
Proof.
  intros HB HP H1 H2 Hh Hc Hd Hcl Hes. assert (G : forall t, unjoined (cE (base S)) t -> unj S (fun _ => True) t) by (intros t H r Hr; exact (conj (H r Hr) I)).
  apply (s_readline S HP H1 H2 (fun _ => True) I); auto.
  - eapply Forall_impl; [|exact Hh]. exact G.
  - eapply Forall_impl; [|exact Hes]. intros [k| |n|[t|]] H; cbn in *; auto. destruct H as [Ha Hb]. split; [now apply G|]. split; [auto|]. intros k' Hk. now apply G, Hb.
Qed.
Lemma s_all S default cur w cl es x : only_builtin S -> pcolor0 (base S) = [] -> (forall r, joins (cE (base S)) r = false) -> 0 <= cur ->
  readline S default cur w cl es = Some x ->
  same_desk (cE (base S)) x (on_paper (hist (base S)) (cycling (base S)) (upper (base S)) (LookupCommand (kmap S) (gmap S)) default cur cl es).
Proof.
  intros HB HP HJ Hc. assert (G : forall t, unjoined (cE (base S)) t) by (intros t r _; apply HJ).
  apply s_unj; auto; [apply Forall_forall; auto|]. apply Forall_forall. intros [k| |n|[t|]] _; cbn; auto.
Qed.
