(** What each command does to the line, in terms of a split of the line at the cursor. *)
From Verif Require Import Base Utf8 Moji Color Prompt Buffer Commands KeyMap Session MojiFacts
  Abs AbsRef AbsSess AbsSafe AbsInv Spec Reach.

Section WithCfg.
Variable C : cfg.
Notation E := (cE C).

(** * InsertString and Delete *)
Lemma line_emojis s : line s = emojis (cells s). Proof. reflexivity. Qed.
Lemma split_units t : split E t = units E t. Proof. apply StringToMoji_units. Qed.

Lemma InsertString_ok s pos t : 0 <= pos <= zlen (cells s) ->
  exists s', InsertString C s pos t = Some (s', Z.of_nat (List.length (StringToMoji E t))) /\
    line s' = firstn (Z.to_nat pos) (line s) ++ split E t ++ skipn (Z.to_nat pos) (line s) /\
    s' = set_undoes (set_cells s (cells s')) (undoes s').
Proof.
  intros H. unfold InsertString, insertString, insert.
  rewrite sliceInsert_firstn by exact H. eexists. split; [rewrite zlen_mojis2cells; reflexivity|].
  split; [|reflexivity]. rewrite !line_emojis. cbn [cells push_undo set_undoes set_cells].
  unfold emojis. rewrite !map_app, firstn_map, skipn_map. do 2 f_equal. apply (emojis_mojis2cells).
Qed.
Lemma InsertString_panic s pos t : ~ (0 <= pos <= zlen (cells s)) -> InsertString C s pos t = None.
Proof. intros H. unfold InsertString, insertString, insert. now rewrite sliceInsert_none. Qed.
Lemma range_width_total l : range_width C l = total_width E (map c_moji l).
Proof. induction l as [|c l IH]; [reflexivity|]. cbn. now rewrite IH. Qed.
Lemma Delete_ok s pos n : 0 <= pos -> 0 < n -> pos + n <= zlen (cells s) ->
  exists s', Delete C s pos n
    = Some (s', total_width E (map c_moji (firstn (Z.to_nat n) (skipn (Z.to_nat pos) (cells s))))) /\
    cells s' = firstn (Z.to_nat pos) (cells s) ++ skipn (Z.to_nat (pos + n)) (cells s) /\
    s' = set_undoes (set_cells s (cells s')) (undoes s').
Proof.
  intros H1 H2 H3. unfold Delete. replace (_ || _) with false by lia.
  unfold SubString. rewrite slice_ok by lia. cbn [cells push_undo set_undoes]. unfold GetWidthBetween. cbn [cells push_undo set_undoes].
  rewrite slice_ok by lia. rewrite sliceDelete_firstn by lia. eexists.
  split; [rewrite range_width_total; replace (pos + n - pos) with n by lia; reflexivity|split; reflexivity].
Qed.
Lemma Delete_nothing s pos n : n <= 0 \/ zlen (cells s) < pos + n -> Delete C s pos n = Some (s, 0).
Proof. intros H. unfold Delete. replace (_ || _) with true by lia. reflexivity. Qed.
Lemma Delete_panic s pos n : pos < 0 -> 0 < n -> pos + n <= zlen (cells s) -> Delete C s pos n = None.
Proof.
  intros H1 H2 H3. unfold Delete. replace (_ || _) with false by lia. unfold SubString.
  destruct (slice (cells s) pos (pos + n)) eqn:Hs; [|reflexivity]. apply slice_some in Hs. lia.
Qed.

(** * Abstract editing at a split *)
Lemma ains_mid a p l q : aline a = p ++ q ->
  ains a (zlen p) l = Some (apush (aset_line a (p ++ l ++ q)) (mkUndo (zlen p) (zlen l) [])).
Proof. intros H. unfold ains. now rewrite H, sliceInsert_spec. Qed.
Lemma adelete_mid a p d q : aline a = p ++ d ++ q -> d <> [] ->
  adelete a (zlen p) (zlen d) = Some (aset_line (apush a (mkUndo (zlen p) 0 (text d))) (p ++ q)).
Proof.
  intros H Hd. unfold adelete. rewrite H.
  assert (0 < zlen d) by (destruct d; [congruence|]; rewrite zlen_cons; pose proof (zlen_nonneg d); lia).
  pose proof (zlen_nonneg q). replace (_ || _) with false by (rewrite !zlen_app; lia).
  now rewrite slice_app_mid, sliceDelete_spec.
Qed.
Lemma adelete_none a p n : n <= 0 \/ zlen (aline a) < p + n -> adelete a p n = Some a.
Proof. intros H. unfold adelete. now replace (_ || _) with true by lia. Qed.
Lemma slice_pre {A} (p q : list A) : slice (p ++ q) 0 (zlen p) = Some p.
Proof. pose proof (slice_app_mid [] p q) as H. exact H. Qed.
Lemma slice_post {A} (p q : list A) : slice (p ++ q) (zlen p) (zlen (p ++ q)) = Some q.
Proof. pose proof (slice_app_mid p q []) as H. rewrite app_nil_r in H. now rewrite zlen_app. Qed.

Lemma count_while_split {A} (f : A -> bool) l :
  exists a b, l = a ++ b /\ zlen a = Z.of_nat (count_while f l) /\ forallb f a = true /\
    (b = [] \/ exists x b', b = x :: b' /\ f x = false) /\ skipn (count_while f l) l = b.
Proof.
  induction l as [|x l (a & b & Hl & Hz & Ha & Hb & Hs)]; [exists [], []; auto 10|].
  cbn [count_while]. destruct (f x) eqn:Hx.
  - exists (x :: a), b. split; [cbn; congruence|]. split; [rewrite zlen_cons; lia|]. split; [cbn; now rewrite Hx|]. auto.
  - exists [], (x :: l). split; [reflexivity|]. split; [reflexivity|]. split; [reflexivity|]. split; [right; eauto|reflexivity].
Qed.
Lemma forallb_rev {A} (f : A -> bool) l : forallb f (rev l) = forallb f l.
Proof.
  induction l as [|x l IH]; [reflexivity|]. cbn [rev]. rewrite forallb_app, IH. cbn. rewrite andb_true_r, andb_comm. reflexivity.
Qed.
(** The same from the right end. *)
Lemma count_while_rev {A} (f : A -> bool) l :
  exists a b, l = a ++ b /\ zlen b = Z.of_nat (count_while f (rev l)) /\ forallb f b = true /\
    (a = [] \/ exists a' x, a = a' ++ [x] /\ f x = false) /\ skipn (count_while f (rev l)) (rev l) = rev a.
Proof.
  destruct (count_while_split f (rev l)) as (a & b & Hl & Hz & Ha & Hb & Hs).
  exists (rev b), (rev a). split; [|split; [|split; [|split]]].
  - rewrite <- rev_app_distr, <- Hl, rev_involutive. reflexivity.
  - now rewrite zlen_rev.
  - now rewrite forallb_rev.
  - destruct Hb as [->|(x & b' & -> & Hx)]; [now left|]. right. exists (rev b'), x. auto.
  - now rewrite rev_involutive.
Qed.

(** * The commands *)
(** Everything but the cursor and the display. *)
Definition keeps (a a' : astate) : Prop :=
  aline a' = aline a /\ aundo a' = aundo a /\ aclip a' = aclip a /\ amodh a' = amodh a /\
  ahptr a' = ahptr a /\ apend a' = apend a.
Lemma keeps_aupdate a a' : keeps a a' -> keeps a (aupdate C a').
Proof. destruct (aupdate_shape C a') as [x ->]. exact (fun H => H). Qed.
Lemma keeps_cur a z : keeps a (aset_cur a z). Proof. repeat split. Qed.
Lemma keeps_refl a : keeps a a. Proof. repeat split. Qed.
Lemma move_keeps b c a a' r : is_move c = true -> (c = CForwardChar -> asuf a = [] \/ acur a < zlen (aline a)) ->
  aexec C b c a = Some (a', r) -> keeps a a' /\ r = CONTINUE.
Proof.
  intros Hm Hs H. destruct c; try discriminate Hm; cbn [aexec] in H.
  - injection H as <- <-. split; [apply keeps_aupdate, keeps_cur|reflexivity].
  - injection H as <- <-. unfold aBackwardChar. split; [|reflexivity].
    destruct (acur a <=? 0); [apply keeps_refl|apply keeps_aupdate, keeps_cur].
  - injection H as <- <-. split; [apply keeps_cur|reflexivity].
  - unfold aForwardChar in H. destruct (Hs eq_refl) as [Hs1|Hs1].
    + rewrite Hs1 in H. destruct (_ <=? _); injection H as <- <-; (split; [|reflexivity]); [apply keeps_refl|apply keeps_cur].
    + replace (_ <=? _) with false in H by lia. injection H as <- <-. split; [apply keeps_cur|reflexivity].
  - injection H as <- <-. split; [apply keeps_aupdate, keeps_refl|reflexivity].
  - injection H as <- <-. split; [apply keeps_aupdate, keeps_refl|reflexivity].
  - unfold aBackwardWord in H. destruct (slice _ _ _); [|discriminate]. injection H as <- <-.
    split; [apply keeps_aupdate, keeps_cur|reflexivity].
  - unfold aForwardWord in H. destruct (slice _ _ _); [|discriminate]. injection H as <- <-.
    split; [|reflexivity]. destruct b; [apply keeps_aupdate|]; apply keeps_cur.
Qed.
End WithCfg.

(** * Concrete statements *)
Section Concrete.
Variable C : cfg.
Notation E := (cE C).

Lemma suffix_abs s : (suffix s = None \/ suffix s = Some []) -> asuf (abs s) = [].
Proof. intros [H|H]; unfold abs; cbn; rewrite H; reflexivity. Qed.

Lemma move_same c s s' r : is_move c = true ->
  (c = CForwardChar -> suffix s = None \/ suffix s = Some [] \/ cursor s < zlen (cells s)) ->
  exec C c s = Some (s', r) -> same_content s s' /\ r = CONTINUE.
Proof.
  intros Hm Hs H. apply exec_ref in H as [b H]; [|destruct c; try discriminate; exact I].
  apply move_keeps in H; [exact H|exact Hm|]. intros Hc. specialize (Hs Hc). cbn [acur aline abs]. rewrite zlen_emojis.
  destruct Hs as [Hs|[Hs|Hs]]; [left; apply suffix_abs; auto|left; apply suffix_abs; auto|now right].
Qed.
End Concrete.
Lemma is_move_list c : is_move c = true <->
  In c [CBackwardChar; CForwardChar; CBeginningOfLine; CEndOfLine; CBackwardWord; CForwardWord; CClearScreen; CRepaintOnNewline].
Proof.
  split.
  - destruct c; cbn; try discriminate; tauto.
  - cbn. intros H. repeat (destruct H as [<-|H]; [reflexivity|]). destruct H.
Qed.
