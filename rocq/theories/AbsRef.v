(** Every command of the model refines the display-free editor of Abs.v: if it does not
    panic, the text-level effect is that of the abstract command.  No assumption on the
    terminal, the widths, the colouring or the state. *)
From Verif Require Import Base Utf8 Moji Color Prompt Buffer Commands KeyMap Session MojiFacts Abs.

Arguments emojis _ : simpl never.
Arguments zlen {A} _ : simpl never.
Arguments Z.add : simpl never.
Arguments Z.sub : simpl never.

(** Take apart a chain of [let*] that ended in [Some]. *)
Ltac opt H :=
  repeat match type of H with
  | match ?x with Some _ => _ | None => None end = Some _ =>
      let E := fresh "Ev" in destruct x eqn:E; [|discriminate H]
  | (let (_, _) := ?p in _) = Some _ => let E := fresh "Ep" in destruct p eqn:E
  | match ?p with pair _ _ => _ end = Some _ => let E := fresh "Ep" in destruct p eqn:E
  end.

Lemma set_index_map {A B} (f : A -> B) l i x :
  set_index (map f l) i (f x) = option_map (map f) (set_index l i x).
Proof.
  unfold set_index. rewrite zlen_map. destruct (_ && _); [|reflexivity].
  cbn [option_map]. now rewrite map_app, firstn_map, map_cons, skipn_map.
Qed.

Lemma sliceInsert_map {A B} (f : A -> B) l i x :
  sliceInsert (map f l) i (map f x) = option_map (map f) (sliceInsert l i x).
Proof.
  destruct (Z_le_dec 0 i) as [H1|H1]; [destruct (Z_le_dec i (zlen l)) as [H2|H2]|].
  - rewrite !sliceInsert_firstn by (rewrite ?zlen_map; lia). cbn [option_map].
    now rewrite !map_app, firstn_map, skipn_map.
  - rewrite !sliceInsert_none by (rewrite ?zlen_map; lia). reflexivity.
  - rewrite !sliceInsert_none by (rewrite ?zlen_map; lia). reflexivity.
Qed.

Lemma sliceDelete_map {A B} (f : A -> B) l i n : 0 <= n ->
  sliceDelete (map f l) i n = option_map (map f) (sliceDelete l i n).
Proof.
  intros Hn. destruct (Z_le_dec 0 i) as [H1|H1]; [destruct (Z_le_dec (i + n) (zlen l)) as [H2|H2]|].
  - rewrite !sliceDelete_firstn by (rewrite ?zlen_map; lia). cbn [option_map].
    now rewrite map_app, firstn_map, skipn_map.
  - rewrite !sliceDelete_none by (rewrite ?zlen_map; lia). reflexivity.
  - rewrite !sliceDelete_none by (rewrite ?zlen_map; lia). reflexivity.
Qed.

Lemma slice_emojis l a b : slice (emojis l) a b = option_map emojis (slice l a b).
Proof. apply slice_map. Qed.
Lemma emojis_cons c l : emojis (c :: l) = emoji c :: emojis l.
Proof. reflexivity. Qed.
Lemma zlen_emojis l : zlen (emojis l) = zlen l.
Proof. apply zlen_map. Qed.

Lemma cell2string_text l : cell2string l = text (emojis l).
Proof.
  unfold cell2string, text, emojis. induction l as [|c l IH]; [reflexivity|].
  cbn [flat_map map]. unfold emoji at 1. now rewrite write_erase, IH.
Qed.

Lemma emojis_mojis2cells l : emojis (mojis2cells l) = map erase l.
Proof. unfold emojis, mojis2cells. rewrite map_map. reflexivity. Qed.
Lemma emojis_units E t : emojis (mojis2cells (StringToMoji E t)) = units E t.
Proof. rewrite emojis_mojis2cells. apply StringToMoji_units. Qed.
Lemma zlen_mojis2cells l : zlen (mojis2cells l) = zlen l.
Proof. apply zlen_map. Qed.
Lemma flat_map_write l : flat_map write l = text (map erase l).
Proof. symmetry. apply text_erase. Qed.

Lemma count_while_map {A B} (f : A -> B) p l :
  count_while p (map f l) = count_while (fun x => p (f x)) l.
Proof. induction l as [|x l IH]; cbn; [reflexivity|]. destruct (p (f x)); congruence. Qed.
Lemma count_while_ext {A} (p q : A -> bool) l : (forall x, p x = q x) -> count_while p l = count_while q l.
Proof. intros H. induction l as [|x l IH]; cbn; [reflexivity|]. rewrite H. destruct (q x); congruence. Qed.
Lemma space_emoji c : IsSpaceMoji (emoji c) = space_cell c.
Proof. apply IsSpaceMoji_erase. Qed.
Lemma count_space l : count_while IsSpaceMoji (emojis l) = count_while space_cell l.
Proof. unfold emojis. rewrite count_while_map. apply count_while_ext, space_emoji. Qed.
Lemma count_nospace l :
  count_while (fun m => negb (IsSpaceMoji m)) (emojis l) = count_while (fun c => negb (space_cell c)) l.
Proof. unfold emojis. rewrite count_while_map. apply count_while_ext. intros. now rewrite space_emoji. Qed.

Lemma word_loop_erase l : forall i q t, word_loop i q t (map erase l) = word_loop i q t l.
Proof.
  induction l as [|m l IH]; intros i q t; cbn; [reflexivity|].
  rewrite MojiToRune_erase. destruct (MojiToRune m); apply IH.
Qed.

Section WithCfg.
Variable C : cfg.
Notation E := (cE C).

(** Painting changes only colours, tab positions and the output. *)
Lemma refresh_loop_emojis l : forall cur i pos past l' p,
  refresh_loop C cur i pos past l = Some (l', p) -> emojis l' = emojis l.
Proof.
  induction l as [|c l IH]; intros cur i pos past l' p H; cbn [refresh_loop] in H.
  - injection H as <- _. reflexivity.
  - opt H. injection H as <- _. rewrite !emojis_cons. f_equal; [|eauto]. unfold emoji. cbn.
    destruct (c_moji c); reflexivity.
Qed.

(** [paints s s']: [s'] is [s] repainted. *)
Definition paints (s s' : buf) : Prop :=
  exists l ts, s' = emit (set_cells s l) ts /\ emojis l = emojis (cells s).

Lemma paints_refl s : paints s s.
Proof.
  exists (cells s), []. split; [|reflexivity]. destruct s. unfold emit, set_cells; cbn.
  now rewrite app_nil_r.
Qed.
Lemma paints_trans a b c : paints a b -> paints b c -> paints a c.
Proof.
  intros (l & ts & -> & H1) (l2 & ts2 & -> & H2). exists l2, (ts ++ ts2). split.
  - unfold emit, set_cells; cbn. now rewrite app_assoc.
  - rewrite H2. cbn. exact H1.
Qed.
Lemma paints_emit s ts : paints s (emit s ts).
Proof. exists (cells s), ts. split; [destruct s; reflexivity|reflexivity]. Qed.
Lemma paints_abs s s' : paints s s' -> abs s' = abs s.
Proof. intros (l & ts & -> & H). unfold abs. cbn. now rewrite H. Qed.
Lemma paints_fields s s' : paints s s' ->
  emojis (cells s') = emojis (cells s) /\ zlen (cells s') = zlen (cells s) /\
  suffix s' = suffix s /\ view s' = view s /\ cursor s' = cursor s /\
  termw s' = termw s /\ topc s' = topc s /\ hptr s' = hptr s /\ undoes s' = undoes s /\
  pending s' = pending s /\ modh s' = modh s /\ clip s' = clip s.
Proof.
  intros (l & ts & -> & H). cbn. repeat split; auto.
  rewrite <- (zlen_emojis l), H. apply zlen_emojis.
Qed.

Lemma puts_paints s a b s' : puts C s a b = Some s' -> paints s s'.
Proof.
  unfold puts, refreshColor. intros H. opt H. injection H as <-.
  opt Ev. injection Ev as <-. cbn.
  eexists _, _. split; [reflexivity|]. eapply refresh_loop_emojis; eauto.
Qed.

Lemma GotoHead_paints s : paints s (GotoHead s).
Proof. apply paints_emit. Qed.
Lemma eraseline_paints s : paints s (eraseline s).
Proof. apply paints_emit. Qed.

Lemma repaintW_paints s s' : repaintWithoutUpdateSuffix C s = Some s' -> paints s s'.
Proof.
  unfold repaintWithoutUpdateSuffix. intros H. opt H.
  apply puts_paints in Ev0, H.
  assert (P : paints b b0).
  { destruct (pcolor0 C); [injection Ev1 as <-; apply paints_refl|].
    destruct (suffix b) as [[|]|]; try (injection Ev1 as <-; apply paints_refl).
    opt Ev1. injection Ev1 as <-. apply paints_emit. }
  eapply paints_trans; [apply GotoHead_paints|].
  eapply paints_trans; [exact Ev0|].
  eapply paints_trans; [exact P|].
  eapply paints_trans; [apply eraseline_paints|].
  eapply paints_trans; [apply GotoHead_paints|]. exact H.
Qed.

Lemma abs_updateSuffix s : abs (updateSuffix C s) = aupdate C (abs s).
Proof.
  destruct s as [cs sf v cu tw tc hp un pe mo cl ou].
  unfold updateSuffix, aupdate. destruct (pcolor0 C); [reflexivity|].
  destruct cs as [|c l]; [reflexivity|].
  unfold abs, aset_suf, set_suffix, buf_string, atext.
  cbn [cells suffix view cursor termw topc hptr undoes pending modh clip out
       aline acur aundo apend ahptr amodh aclip asuf].
  rewrite emojis_cons at 2. cbn [suflist].
  rewrite StringToMoji_units, cell2string_text. reflexivity.
Qed.

Lemma updateSuffix_fields s : exists x, updateSuffix C s = set_suffix s x.
Proof.
  unfold updateSuffix. destruct (pcolor0 C).
  - exists (suffix s). destruct s; reflexivity.
  - destruct (cells s); eauto.
Qed.

Lemma repaint_ref s s' : repaint C s = Some s' -> abs s' = aupdate C (abs s).
Proof.
  unfold repaint. intros H. apply repaintW_paints, paints_abs in H.
  rewrite H. apply abs_updateSuffix.
Qed.

(** repaint keeps everything but the prediction, colours, tab positions, output. *)
Lemma repaint_shape s s' : repaint C s = Some s' ->
  exists l ts, s' = emit (set_cells (updateSuffix C s) l) ts /\ emojis l = emojis (cells s).
Proof.
  unfold repaint. intros H. apply repaintW_paints in H as (l & ts & -> & H).
  exists l, ts. split; [reflexivity|]. rewrite H.
  destruct (updateSuffix_fields s) as [x ->]. reflexivity.
Qed.

Lemma abs_emit s ts : abs (emit s ts) = abs s. Proof. reflexivity. Qed.
Lemma abs_set_view s v : abs (set_view s v) = abs s. Proof. reflexivity. Qed.
Lemma abs_set_topc s v : abs (set_topc s v) = abs s. Proof. reflexivity. Qed.
Lemma abs_set_termw s v : abs (set_termw s v) = abs s. Proof. reflexivity. Qed.
Lemma abs_ResetViewStart s : abs (ResetViewStart C s) = abs s. Proof. reflexivity. Qed.
Lemma abs_set_cursor s v : abs (set_cursor s v) = aset_cur (abs s) v. Proof. reflexivity. Qed.
Lemma abs_set_undoes s v : abs (set_undoes s v) = aset_undo (abs s) v. Proof. reflexivity. Qed.
Lemma abs_push_undo s u : abs (push_undo s u) = apush (abs s) u. Proof. reflexivity. Qed.
Lemma abs_set_cells s l : abs (set_cells s l) = aset_line (abs s) (emojis l). Proof. reflexivity. Qed.
Lemma abs_clip_write s t : abs (clip_write s t) = aclip_write (abs s) t.
Proof. unfold clip_write, aclip_write. destruct (clip s) eqn:H; unfold abs; cbn; rewrite H; reflexivity. Qed.

Lemma insert_ref s pos l s' : insert s pos l = Some s' -> ains (abs s) pos (emojis l) = Some (abs s').
Proof.
  unfold insert, ains. intros H. opt H. injection H as <-.
  cbn [aline abs]. unfold emojis at 1 2. rewrite sliceInsert_map, Ev. cbn [option_map].
  rewrite zlen_emojis. reflexivity.
Qed.

Lemma insertString_ref s pos t s' l : insertString C s pos t = Some (s', l) ->
  ains (abs s) pos (units E t) = Some (abs s') /\ emojis l = units E t /\ zlen l = zlen (units E t).
Proof.
  unfold insertString. intros H. opt H. injection H as <- <-.
  apply insert_ref in Ev. rewrite emojis_units in Ev. split; [exact Ev|].
  split; [apply emojis_units|]. rewrite zlen_mojis2cells. apply units_StringToMoji_len.
Qed.

Lemma InsertString_ref s pos t s' n : InsertString C s pos t = Some (s', n) ->
  ains (abs s) pos (units E t) = Some (abs s') /\ n = zlen (units E t).
Proof.
  unfold InsertString. intros H. opt H. injection H as <- <-.
  apply insertString_ref in Ev as (H1 & _ & H3). auto.
Qed.

Lemma SubString_ref s a b t : SubString s a b = Some t ->
  exists d, slice (aline (abs s)) a b = Some d /\ t = text d.
Proof.
  unfold SubString. intros H. opt H. injection H as <-.
  exists (emojis l). cbn. rewrite slice_emojis, Ev. split; [reflexivity|]. apply cell2string_text.
Qed.

Lemma Delete_ref s pos n s' w : Delete C s pos n = Some (s', w) ->
  adelete (abs s) pos n = Some (abs s').
Proof.
  unfold Delete, adelete. cbn [aline abs]. rewrite zlen_emojis.
  destruct ((n <=? 0) || (zlen (cells s) <? pos + n)) eqn:Hc; intros H.
  - injection H as <- _. reflexivity.
  - opt H. injection H as <- _. apply SubString_ref in Ev as (d & Hd & ->).
    cbn [aline abs] in Hd. rewrite Hd. cbn [cells push_undo set_undoes] in Ev1.
    unfold emojis at 1. rewrite sliceDelete_map, Ev1 by lia. cbn [option_map]. reflexivity.
Qed.

Lemma joinUndo_ref s : abs (joinUndo s) = ajoin (abs s).
Proof.
  unfold joinUndo, ajoin. cbn [aundo abs]. destruct (undoes s) as [|u2 [|u1 r]]; try reflexivity.
  destruct (join2 u1 u2); reflexivity.
Qed.

Lemma ReplaceAndRepaint_ref s pos t s' : ReplaceAndRepaint C s pos t = Some s' ->
  areplace C (abs s) pos t = Some (abs s').
Proof.
  unfold ReplaceAndRepaint, areplace. intros H. opt H.
  apply Delete_ref in Ev. cbn [acur abs]. rewrite Ev.
  apply InsertString_ref in Ev0 as [Hi ->]. rewrite Hi.
  apply repaint_ref in H. f_equal. rewrite H, abs_ResetViewStart, joinUndo_ref. reflexivity.
Qed.

Lemma index_emojis l i : index (emojis l) i = option_map emoji (index l i).
Proof. apply index_map. Qed.

Lemma cmdBackwardDeleteChar_ref s s' : cmdBackwardDeleteChar C s = Some s' ->
  aBackwardDelete C (abs s) = Some (abs s').
Proof.
  unfold cmdBackwardDeleteChar, aBackwardDelete. cbn [acur abs].
  destruct (0 <? cursor s); [|intros H; injection H as <-; reflexivity].
  intros H. opt H. apply Delete_ref in Ev. cbn [cursor set_cursor] in Ev.
  rewrite abs_set_cursor in Ev. fold (abs s). rewrite Ev.
  apply repaint_ref in H. rewrite H. f_equal. f_equal.
  destruct (cursor b <? view b); reflexivity.
Qed.

Lemma cmdDeleteChar_ref s s' : cmdDeleteChar C s = Some s' -> aDelete C (abs s) = Some (abs s').
Proof.
  unfold cmdDeleteChar, aDelete. intros H. opt H. apply Delete_ref in Ev. cbn [acur abs].
  fold (abs s). rewrite Ev. apply repaint_ref in H. now rewrite H.
Qed.

Lemma self_insert_tail_ref s k s' : self_insert_tail C s k = Some s' ->
  aself_tail C (abs s) k = Some (abs s').
Proof.
  unfold self_insert_tail, aself_tail. intros H. opt H.
  apply insertString_ref in Ev as (Hi & He & Hz). cbn [acur abs]. fold (abs s). rewrite Hi.
  apply repaint_ref in H. rewrite H. f_equal. f_equal.
  rewrite Hz. destruct (_ <=? _); reflexivity.
Qed.


Lemma selfInsert_ref k s s' : selfInsert C k s = Some s' -> aselfInsert C k (abs s) = Some (abs s').
Proof.
  unfold selfInsert, aselfInsert. cbn [acur apend aline abs].
  destruct (AreZeroWidthJoin E (altgr k) && (0 <? cursor s)).
  { intros H. opt H. rewrite index_emojis, Ev. cbn [option_map].
    apply cmdBackwardDeleteChar_ref in H. unfold emoji. rewrite write_erase. exact H. }
  destruct ((AreVariationSelectorLike E (altgr k) || AreEmojiModifier E (altgr k)) && (0 <? cursor s)).
  { intros H. opt H. rewrite index_emojis, Ev. cbn [option_map].
    apply cmdBackwardDeleteChar_ref in Ev0. fold (abs s). rewrite Ev0.
    apply self_insert_tail_ref in H. unfold emoji. rewrite write_erase. exact H. }
  intros H. fold (abs s). destruct (pending s) as [|b p] eqn:Hp.
  - now apply self_insert_tail_ref in H.
  - apply self_insert_tail_ref in H. exact H.
Qed.

Lemma cmdForwardChar_ref s s' : cmdForwardChar C s = Some s' -> aForwardChar C (abs s) = Some (abs s').
Proof.
  unfold cmdForwardChar, aForwardChar. cbn [aline acur abs]. rewrite zlen_emojis.
  destruct (zlen (cells s) <=? cursor s).
  - unfold asuf at 1. cbn [abs]. fold (abs s).
    destruct (suffix s) as [[|m l]|] eqn:Hs; intros H.
    + injection H as <-. reflexivity.
    + apply ReplaceAndRepaint_ref in H. cbn [suflist map]. rewrite flat_map_write in H. exact H.
    + injection H as <-. reflexivity.
  - intros H. opt H. injection H as <-. fold (abs s).
    assert (P : abs b = abs s /\ cursor b = cursor s).
    { destruct (z <? ViewWidth s).
      - apply puts_paints in Ev0. split; [now apply paints_abs|]. now apply paints_fields in Ev0 as (_&_&_&_&->&_).
      - opt Ev0. injection Ev0 as <-.
        apply puts_paints in Ev3.
        split.
        + rewrite (paints_abs _ _ (eraseline_paints b0)), (paints_abs _ _ Ev3).
          destruct (_ <? _); reflexivity.
        + apply paints_fields in Ev3 as (_&_&_&_&Hc&_). cbn in Hc |- *. rewrite Hc.
          destruct (_ <? _); reflexivity. }
    destruct P as [P1 P2]. rewrite abs_set_cursor, P1, P2. reflexivity.
Qed.

Lemma cmdKillLine_ref s s' : cmdKillLine s = Some s' -> aKillLine (abs s) = Some (abs s').
Proof.
  unfold cmdKillLine, aKillLine. intros H. opt H. injection H as <-.
  apply SubString_ref in Ev as (d & Hd & ->). cbn [aline acur abs] in *. rewrite zlen_emojis, Hd.
  cbn in Ev0.
  assert (Hc : cells (clip_write s (text d)) = cells s /\ cursor (clip_write s (text d)) = cursor s)
    by (unfold clip_write; destruct (clip s); auto).
  destruct Hc as [Hc1 Hc2]. rewrite Hc1, Hc2 in Ev0.
  rewrite slice_emojis, Ev0. cbn [option_map]. rewrite abs_set_cells, abs_push_undo.
  fold (abs s). f_equal. f_equal. f_equal; [|cbn; now rewrite Hc2].
  symmetry. apply abs_clip_write.
Qed.

Lemma cmdKillWholeLine_ref s s' : cmdKillWholeLine s = Some s' -> abs s' = aKillWhole (abs s).
Proof.
  unfold cmdKillWholeLine, aKillWhole. intros H. injection H as <-.
  unfold atext. cbn [aline abs]. rewrite <- cell2string_text. reflexivity.
Qed.

Lemma aWordTop_ref s z : CurrentWordTop s = Some z -> aWordTop (abs s) = Some z.
Proof.
  unfold CurrentWordTop, aWordTop. intros H. opt H. cbn [aline acur abs].
  rewrite slice_emojis, Ev. cbn [option_map]. rewrite <- H. f_equal.
  assert (Hw : word_loop 0 0 (-1) (emojis l) = word_loop 0 0 (-1) (map c_moji l)).
  { rewrite <- (word_loop_erase (map c_moji l)). unfold emojis, emoji. now rewrite map_map. }
  now rewrite Hw.
Qed.

Lemma cmdUnixWordRubout_ref s s' : cmdUnixWordRubout C s = Some s' -> aWordRubout C (abs s) = Some (abs s').
Proof.
  unfold cmdUnixWordRubout, aWordRubout. intros H. opt H. cbn [aline acur abs].
  rewrite slice_emojis, Ev. cbn [option_map].
  apply aWordTop_ref in Ev0. rewrite abs_set_cursor in Ev0.
  assert (Hr : rev (emojis l) = emojis (rev l)) by (unfold emojis; now rewrite map_rev).
  rewrite Hr, count_space. fold (abs s). rewrite Ev0.
  apply SubString_ref in Ev1 as (d & Hd & ->). rewrite abs_set_cursor in Hd.
  cbn [aline aset_cur abs] in Hd |- *. rewrite Hd.
  apply Delete_ref in Ev2. rewrite abs_clip_write, abs_set_cursor in Ev2. fold (abs s). rewrite Ev2.
  apply repaint_ref in H. rewrite H. f_equal. f_equal. destruct (_ <? 2); reflexivity.
Qed.

Lemma cmdUnixLineDiscard_ref s s' : cmdUnixLineDiscard C s = Some s' -> aLineDiscard C (abs s) = Some (abs s').
Proof.
  unfold cmdUnixLineDiscard, aLineDiscard. intros H. opt H.
  apply SubString_ref in Ev as (d & Hd & ->). cbn [aline acur abs] in *. rewrite Hd.
  apply Delete_ref in Ev0. rewrite abs_clip_write in Ev0.
  assert (Hc2 : cursor (clip_write s (text d)) = cursor s) by (unfold clip_write; destruct (clip s); auto).
  rewrite Hc2 in Ev0. fold (abs s). rewrite Ev0. apply repaint_ref in H. rewrite H. reflexivity.
Qed.

Lemma swap_ref l i j l' : swap_cells l i j = Some l' -> aswap (emojis l) i j = Some (emojis l').
Proof.
  unfold swap_cells, aswap. intros H. opt H. rewrite !index_emojis, Ev, Ev0. cbn [option_map].
  unfold emojis. rewrite set_index_map, Ev1. cbn [option_map]. rewrite set_index_map, H. reflexivity.
Qed.

Lemma cmdSwapChar_ref s s' : cmdSwapChar C s = Some s' -> aSwapChar (abs s) = Some (abs s').
Proof.
  unfold cmdSwapChar, aSwapChar. cbn [aline acur abs]. rewrite zlen_emojis.
  destruct (zlen (cells s) =? cursor s).
  - destruct (cursor s <? 2); [intros H; injection H as <-; reflexivity|].
    intros H. opt H. apply SubString_ref in Ev as (d & Hd & ->). cbn [aline abs] in Hd. rewrite Hd.
    cbn in Ev0. apply swap_ref in Ev0. rewrite Ev0. apply puts_paints, paints_abs in H.
    rewrite H. reflexivity.
  - destruct (cursor s <? 1); [intros H; injection H as <-; reflexivity|].
    intros H. opt H. apply SubString_ref in Ev as (d & Hd & ->). cbn [aline abs] in Hd. rewrite Hd.
    cbn in Ev1. apply swap_ref in Ev1. rewrite Ev1. apply puts_paints, paints_abs in H.
    rewrite H. f_equal. destruct (_ <=? _); reflexivity.
Qed.

Lemma rev_emojis l : rev (emojis l) = emojis (rev l).
Proof. unfold emojis. now rewrite map_rev. Qed.
Lemma skipn_emojis n l : skipn n (emojis l) = emojis (skipn n l).
Proof. apply skipn_map. Qed.

Lemma cmdBackwardWord_ref s s' : cmdBackwardWord C s = Some s' -> aBackwardWord C (abs s) = Some (abs s').
Proof.
  unfold cmdBackwardWord, aBackwardWord. intros H. opt H. cbn [aline acur abs].
  rewrite slice_emojis, Ev. cbn [option_map].
  rewrite rev_emojis, count_space, skipn_emojis, count_nospace.
  fold (abs s). apply repaint_ref in H. rewrite H. f_equal. f_equal. destruct (_ <? view s); reflexivity.
Qed.

Lemma cmdForwardWord_ref s s' : cmdForwardWord C s = Some s' ->
  exists b, aForwardWord C b (abs s) = Some (abs s').
Proof.
  unfold cmdForwardWord, aForwardWord. intros H. opt H. cbn [aline acur abs].
  rewrite zlen_emojis, slice_emojis, Ev. cbn [option_map].
  rewrite count_nospace, skipn_emojis, count_space. fold (abs s).
  destruct (z <? ViewWidth s).
  - exists false. opt H. injection H as <-. apply puts_paints, paints_abs in Ev1.
    rewrite abs_set_cursor, Ev1. reflexivity.
  - exists true. apply repaint_ref in H. now rewrite H.
Qed.

Lemma cmdUndo_ref s s' : cmdUndo C s = Some s' -> aUndo C (abs s) = Some (abs s').
Proof.
  unfold cmdUndo, aUndo. cbn [aundo abs]. destruct (undoes s) as [|u rest] eqn:Hu.
  { intros H. injection H as <-. rewrite abs_emit. unfold abs. now rewrite Hu. }
  intros H. opt H. change (aline (abs s)) with (emojis (cells s)).
  assert (Hl : (if 0 <? u_del u then sliceDelete (emojis (cells s)) (u_pos u) (u_del u)
                else Some (emojis (cells s))) = Some (emojis l)).
  { cbn in Ev. destruct (0 <? u_del u) eqn:Hd.
    - unfold emojis. rewrite sliceDelete_map, Ev by lia. reflexivity.
    - injection Ev as <-. reflexivity. }
  rewrite Hl. apply repaint_ref in H.
  destruct (u_text u) as [|x t].
  - injection Ev0 as <-. rewrite H. reflexivity.
  - opt Ev0. injection Ev0 as <-. cbn [cells set_cells] in Ev1.
    rewrite <- emojis_units. unfold emojis at 1 2. rewrite sliceInsert_map, Ev1. cbn [option_map].
    rewrite H. f_equal. f_equal. rewrite abs_ResetViewStart, abs_set_cursor, abs_set_cells, zlen_emojis. reflexivity.
Qed.

Lemma save_ref s s' : saveModifiedHistory C s = Some s' -> asave C (abs s) = Some (abs s').
Proof.
  unfold saveModifiedHistory, asave. cbn [ahptr amodh abs].
  assert (Ht : atext (abs s) = buf_string s) by (unfold atext, buf_string; cbn; now rewrite cell2string_text).
  rewrite Ht. destruct (hptr s <? zlen (hist C)).
  - intros H. opt H. destruct (str_eqb _ _); injection H as <-; reflexivity.
  - intros H. injection H as <-. reflexivity.
Qed.

Lemma cmdEndOfLine_ref s s' : cmdEndOfLine C s = Some s' -> abs s' = aset_cur (abs s) (zlen (aline (abs s))).
Proof.
  unfold cmdEndOfLine. intros H. opt H. injection H as <-.
  rewrite (paints_abs _ _ (eraseline_paints b)). cbn [aline abs]. rewrite zlen_emojis. fold (abs s).
  destruct (z <? ViewWidth s).
  - opt Ev0. injection Ev0 as <-. apply puts_paints, paints_abs in Ev1.
    rewrite abs_set_cursor, Ev1. reflexivity.
  - opt Ev0. injection Ev0 as <-. apply puts_paints, paints_abs in Ev2.
    rewrite abs_set_cursor, Ev2. reflexivity.
Qed.

Lemma getHistory_ref s : agetHistory C (abs s) = getHistory C s.
Proof. reflexivity. Qed.

Lemma show_history_ref s s' : show_history C s = Some s' -> ashow C (abs s) = Some (abs s').
Proof.
  unfold show_history, ashow. intros H. opt H.
  apply cmdKillWholeLine_ref in Ev. rewrite <- Ev, getHistory_ref, Ev0.
  destruct s0 as [|x t].
  - injection H as <-. reflexivity.
  - opt H. apply InsertString_ref in Ev1 as [Hi _]. rewrite Hi.
    apply cmdEndOfLine_ref in H. rewrite H. reflexivity.
Qed.

Lemma cmdPreviousHistory_ref s s' : cmdPreviousHistory C s = Some s' -> aPrevious C (abs s) = Some (abs s').
Proof.
  unfold cmdPreviousHistory, aPrevious. cbn [ahptr abs].
  destruct (zlen (hist C) <=? 0); [intros H; injection H as <-; reflexivity|].
  assert (G : forall s0, (let* s1 := saveModifiedHistory C s0 in show_history C (set_hptr s1 (hptr s1 - 1))) = Some s' ->
              (let* a1 := asave C (abs s0) in ashow C (aset_hptr a1 (ahptr a1 - 1))) = Some (abs s')).
  { intros s0 H. opt H. apply save_ref in Ev. rewrite Ev. now apply show_history_ref in H. }
  destruct (hptr s <=? 0).
  - destruct (negb (cycling C)); [intros H; injection H as <-; reflexivity|].
    intros H. now apply G in H.
  - intros H. now apply G in H.
Qed.

Lemma cmdNextHistory_ref s s' : cmdNextHistory C s = Some s' -> aNext C (abs s) = Some (abs s').
Proof.
  unfold cmdNextHistory, aNext. cbn [ahptr abs].
  destruct (zlen (hist C) <=? 0); [intros H; injection H as <-; reflexivity|].
  destruct (zlen (hist C) <? hptr s + 1); [intros H; injection H as <-; reflexivity|].
  intros H. opt H. fold (abs s). apply save_ref in Ev. rewrite Ev. now apply show_history_ref in H.
Qed.

Lemma RepaintAll_ref s s' : RepaintAll C s = Some s' -> abs s' = aupdate C (abs s).
Proof.
  unfold RepaintAll. intros H. opt H. apply repaint_ref in H. rewrite H. reflexivity.
Qed.

Definition builtin (c : cmd) : Prop := match c with CUser _ => False | _ => True end.

Lemma exec_ref c s s' r : builtin c -> exec C c s = Some (s', r) ->
  exists b, aexec C b c (abs s) = Some (abs s', r).
Proof.
  intros Hb H. destruct c; cbn [exec] in H; unfold continue_ in H; 
    lazymatch goal with |- exists b, aexec _ b CForwardWord _ = _ => idtac | _ => exists true; cbn [aexec]; unfold acontinue end.
  - injection H as <- <-. reflexivity.
  - unfold cmdInterrupt in H. injection H as <- <-. reflexivity.
  - opt H. injection H as <- <-. apply repaint_ref in Ev. now rewrite Ev.
  - opt H. injection H as <- <-. unfold cmdBackwardChar in Ev. unfold aBackwardChar. cbn [acur abs].
    destruct (cursor s <=? 0); [injection Ev as <-; reflexivity|].
    apply repaint_ref in Ev. rewrite Ev. do 3 f_equal.
    destruct (_ <? _); reflexivity.
  - opt H. injection H as <- <-. apply cmdEndOfLine_ref in Ev. now rewrite Ev.
  - opt H. injection H as <- <-. apply cmdForwardChar_ref in Ev. now rewrite Ev.
  - opt H. injection H as <- <-. apply cmdBackwardDeleteChar_ref in Ev. now rewrite Ev.
  - opt H. injection H as <- <-. apply cmdDeleteChar_ref in Ev. now rewrite Ev.
  - unfold cmdDeleteOrAbort in H. cbn [aline abs]. rewrite zlen_emojis. fold (abs s).
    destruct (0 <? zlen (cells s)).
    + opt H. injection H as <- <-. apply cmdDeleteChar_ref in Ev. now rewrite Ev.
    + injection H as <- <-. reflexivity.
  - opt H. injection H as <- <-. apply cmdKillLine_ref in Ev. now rewrite Ev.
  - opt H. injection H as <- <-. apply cmdKillWholeLine_ref in Ev. now rewrite Ev.
  - opt H. injection H as <- <-. apply cmdUnixWordRubout_ref in Ev. now rewrite Ev.
  - opt H. injection H as <- <-. apply cmdUnixLineDiscard_ref in Ev. now rewrite Ev.
  - opt H. injection H as <- <-. apply RepaintAll_ref in Ev. now rewrite Ev.
  - opt H. injection H as <- <-. apply RepaintAll_ref in Ev. now rewrite Ev.
  - injection H as <- <-. reflexivity.
  - opt H. injection H as <- <-. unfold cmdYank in Ev. unfold aYank. cbn [aclip acur abs]. fold (abs s).
    destruct (clip s); [|injection Ev as <-; reflexivity].
    unfold InsertAndRepaint in Ev. apply ReplaceAndRepaint_ref in Ev. now rewrite Ev.
  - opt H. injection H as <- <-. unfold cmdYankWithQuote in Ev. unfold aYank. cbn [aclip acur abs]. fold (abs s).
    destruct (clip s); [|injection Ev as <-; reflexivity].
    unfold InsertAndRepaint in Ev. apply ReplaceAndRepaint_ref in Ev. now rewrite Ev.
  - opt H. injection H as <- <-. apply cmdSwapChar_ref in Ev. now rewrite Ev.
  - opt H. injection H as <- <-. apply cmdBackwardWord_ref in Ev. now rewrite Ev.
  - opt H. injection H as <- <-. apply cmdForwardWord_ref in Ev as [x Ev]. exists x. cbn [aexec].
    unfold acontinue. now rewrite Ev.
  - opt H. injection H as <- <-. apply cmdUndo_ref in Ev. now rewrite Ev.
  - opt H. injection H as <- <-. apply cmdPreviousHistory_ref in Ev. now rewrite Ev.
  - opt H. injection H as <- <-. apply cmdNextHistory_ref in Ev. now rewrite Ev.
  - injection H as <- <-. reflexivity.
  - opt H. injection H as <- <-. apply selfInsert_ref in Ev. now rewrite Ev.
  - destruct Hb.
Qed.

End WithCfg.
