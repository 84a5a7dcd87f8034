(** The commands on the concrete buffer. *)
From Verif Require Import Base Utf8 Moji Color Prompt Buffer Commands KeyMap Session MojiFacts
  Abs AbsRef AbsSess AbsSafe AbsInv Spec TextFacts Reach CmdFacts WordFacts EditFacts.

Lemma acont_some X a r : acontinue (Some X) = Some (a, r) -> a = X /\ r = CONTINUE.
Proof. cbn. intros H. now injection H as <- <-. Qed.

Lemma some_pair {A B} (X a : A) (r r' : B) : Some (X, r) = Some (a, r') -> a = X /\ r' = r.
Proof. intros H. now injection H as <- <-. Qed.

Record fields (s : buf) (X : astate) : Prop := mkFields {
  f_line : line s = aline X; f_cursor : cursor s = acur X; f_undoes : undoes s = aundo X;
  f_clip : clip s = aclip X; f_modh : modh s = amodh X; f_hptr : hptr s = ahptr X; f_pending : pending s = apend X }.
Lemma abs_fields s X : abs s = X -> fields s X.
Proof. intros <-. now split. Qed.
Lemma text_written l : text l = written l. Proof. reflexivity. Qed.

Section WithCfg.
Variable C : cfg.
Notation E := (cE C).

Ltac fin F := rewrite ?(f_line _ _ F), ?(f_cursor _ _ F), ?(f_clip _ _ F), ?(f_modh _ _ F), ?(f_hptr _ _ F), ?(f_pending _ _ F);
  rewrite ?aupdate_line, ?aupdate_cur, ?aupdate_clip, ?aupdate_modh, ?aupdate_hptr, ?aupdate_pend;
  cbn [aline acur aclip amodh ahptr apend aset_line aset_cur aset_pend apush aset_undo aset_clip];
  rewrite ?aclip_write_line, ?aclip_write_cur, ?aclip_write_clip, ?aclip_write_modh, ?aclip_write_hptr, ?aclip_write_pend,
    ?ajoin_line, ?ajoin_cur, ?ajoin_clip, ?ajoin_modh, ?ajoin_hptr, ?ajoin_pend;
  cbn [aline acur aclip amodh ahptr apend aset_line aset_cur aset_pend apush aset_undo aset_clip].

(** C08 *)
Lemma backward_char s s' r p m q : exec C CBackwardChar s = Some (s', r) -> at_split s (p ++ [m]) q -> at_split s' p (m :: q).
Proof.
  intros H [Hl Hc]. apply exec_ref in H as [b H]; [|exact I]. apply some_pair in H as [H _]. apply abs_fields in H as F.
  unfold aBackwardChar in F. cbn [acur abs] in F. rewrite Hc, zlen_snoc in F. pose proof (zlen_nonneg p).
  replace (_ <=? 0) with false in F by lia. split; fin F.
  - change (aline (abs s)) with (line s). now rewrite Hl, <- app_assoc.
  - lia.
Qed.
Lemma backward_char_start s s' r q : exec C CBackwardChar s = Some (s', r) -> at_split s [] q -> s' = s.
Proof. intros H [_ Hc]. cbn in H. unfold cmdBackwardChar in H. rewrite Hc in H. cbn in H. now injection H as <- _. Qed.
Lemma forward_char s s' r p m q : exec C CForwardChar s = Some (s', r) -> at_split s p (m :: q) -> at_split s' (p ++ [m]) q.
Proof.
  intros H [Hl Hc]. apply exec_ref in H as [b H]; [|exact I]. cbn [aexec] in H. unfold aForwardChar in H. cbn [acur abs aline] in H.
  assert (Hz : zlen (emojis (cells s)) = zlen p + zlen q + 1).
  { change (emojis (cells s)) with (line s). rewrite Hl, zlen_app, zlen_cons. lia. }
  pose proof (zlen_nonneg q). replace (_ <=? _) with false in H by lia. apply acont_some in H as [H _]. apply abs_fields in H as F.
  split; fin F; [|rewrite zlen_snoc; lia]. change (aline (abs s)) with (line s). now rewrite Hl, <- app_assoc.
Qed.
Lemma forward_char_end s s' r p : exec C CForwardChar s = Some (s', r) -> at_split s p [] ->
  suffix s = None \/ suffix s = Some [] -> s' = s.
Proof.
  intros H [Hl Hc] Hs. cbn in H. unfold cmdForwardChar in H.
  assert (Hz : zlen (cells s) = zlen p). { rewrite <- (zlen_map (fun c => unit_of (c_moji c))). fold (line s). now rewrite Hl, app_nil_r. }
  replace (_ <=? _) with true in H by lia. destruct Hs as [Hs|Hs]; rewrite Hs in H; now injection H as <- _.
Qed.
Lemma beginning_of_line s s' r : exec C CBeginningOfLine s = Some (s', r) -> at_split s' [] (line s).
Proof.
  intros H. apply exec_ref in H as [b H]; [|exact I]. apply some_pair in H as [H _]. apply abs_fields in H as F.
  split; fin F; reflexivity.
Qed.
Lemma end_of_line s s' r : exec C CEndOfLine s = Some (s', r) -> at_split s' (line s) [].
Proof.
  intros H. apply exec_ref in H as [b H]; [|exact I]. apply some_pair in H as [H _]. apply abs_fields in H as F.
  split; fin F; [now rewrite app_nil_r|reflexivity].
Qed.
Lemma backward_word s s' r p q : exec C CBackwardWord s = Some (s', r) -> at_split s p q ->
  exists u w b, p = u ++ w ++ b /\ all_blank b /\ no_blank w /\
    (u = [] \/ exists u' x, u = u' ++ [x] /\ blank x = true) /\ (w = [] -> u = []) /\
    at_split s' u (w ++ b ++ q).
Proof.
  intros H [Hl Hc]. apply exec_ref in H as [bb H]; [|exact I]. cbn [aexec] in H.
  destruct (aBackwardWord_eq C (abs s) p q Hl Hc) as (u & w & b & Hp & Hb & Hw & Hu & Hwu & Heq).
  rewrite Heq in H. apply acont_some in H as [H _]. apply abs_fields in H as F.
  exists u, w, b. repeat (split; [assumption|]). split; fin F; [|reflexivity].
  change (aline (abs s)) with (line s). now rewrite Hl, Hp, <- !app_assoc.
Qed.
Lemma forward_word s s' r p q : exec C CForwardWord s = Some (s', r) -> at_split s p q ->
  exists w b t, q = w ++ b ++ t /\ no_blank w /\ all_blank b /\
    (t = [] \/ exists x t', t = x :: t' /\ blank x = false) /\ (b = [] -> t = []) /\
    at_split s' (p ++ w ++ b) t.
Proof.
  intros H [Hl Hc]. apply exec_ref in H as [bb H]; [|exact I]. cbn [aexec] in H.
  destruct (aForwardWord_eq C bb (abs s) p q Hl Hc) as (w & b & t & Hq & Hw & Hb & Ht & Hbt & Heq).
  rewrite Heq in H. apply acont_some in H as [H _].
  exists w, b, t. repeat (split; [assumption|]).
  assert (Hr : line s' = line s /\ cursor s' = zlen (p ++ w ++ b)).
  { destruct bb; apply abs_fields in H as F; split; fin F; reflexivity. }
  destruct Hr as [Hr1 Hr2]. split; [|exact Hr2]. now rewrite Hr1, Hl, Hq, <- !app_assoc.
Qed.

(** C09, C11 *)
Lemma backward_delete s s' r p m q : exec C CBackwardDeleteChar s = Some (s', r) -> at_split s (p ++ [m]) q ->
  at_split s' p q /\ clip s' = clip s /\ rest_kept s s'.
Proof.
  intros H [Hl Hc]. apply exec_ref in H as [b H]; [|exact I]. cbn [aexec] in H.
  rewrite (aBackwardDelete_eq C (abs s) p m q Hl Hc) in H. apply acont_some in H as [H _]. apply abs_fields in H as F.
  split; [split; fin F; reflexivity|]. split; [fin F; reflexivity|]. split; [split|]; fin F; reflexivity.
Qed.
Lemma backward_delete_start s s' r q : exec C CBackwardDeleteChar s = Some (s', r) -> at_split s [] q -> s' = s.
Proof. intros H [_ Hc]. cbn in H. unfold cmdBackwardDeleteChar in H. rewrite Hc in H. now injection H as <- _. Qed.
Lemma delete_char s s' r p m q c : c = CDeleteChar \/ c = CDeleteOrAbort -> exec C c s = Some (s', r) -> at_split s p (m :: q) ->
  at_split s' p q /\ clip s' = clip s /\ rest_kept s s' /\ r = CONTINUE.
Proof.
  intros Hcc H [Hl Hc].
  assert (Ha : exists b, aexec C b CDeleteChar (abs s) = Some (abs s', r)).
  { destruct Hcc as [->| ->]; apply exec_ref in H as [b H]; try exact I; exists b; [exact H|]. cbn [aexec] in *.
    cbn [aline abs] in H. change (emojis (cells s)) with (line s) in H. rewrite Hl, zlen_app, zlen_cons in H.
    pose proof (zlen_nonneg p). pose proof (zlen_nonneg q). now replace (0 <? _) with true in H by lia. }
  clear H. destruct Ha as [b H]. cbn [aexec] in H.
  rewrite (aDelete_eq C (abs s) p m q Hl Hc) in H. apply acont_some in H as [H Hr]. apply abs_fields in H as F.
  split; [split; fin F; [reflexivity|exact Hc]|]. split; [fin F; reflexivity|]. split; [|exact Hr]. split; [split|]; fin F; reflexivity.
Qed.
Lemma delete_char_end s s' r p : exec C CDeleteChar s = Some (s', r) -> at_split s p [] -> same_content s s' /\ at_split s' p [].
Proof.
  intros H [Hl Hc]. apply exec_ref in H as [b H]; [|exact I]. cbn [aexec] in H. rewrite aDelete_end in H.
  - apply acont_some in H as [H _]. apply abs_fields in H as F. split.
    + unfold same_content. rewrite (f_undoes _ _ F), aupdate_undo. fin F. now repeat split.
    + split; fin F; [exact Hl|exact Hc].
  - cbn [acur abs aline]. change (emojis (cells s)) with (line s). now rewrite Hl, app_nil_r.
Qed.
Lemma kill_line s s' r p q : exec C CKillLine s = Some (s', r) -> at_split s p q ->
  at_split s' p [] /\ copied (written q) s s' /\ rest_kept s s'.
Proof.
  intros H [Hl Hc]. apply exec_ref in H as [b H]; [|exact I]. cbn [aexec] in H.
  rewrite (aKillLine_eq (abs s) p q Hl Hc) in H. apply acont_some in H as [H _]. apply abs_fields in H as F.
  split; [split; fin F; [now rewrite app_nil_r|exact Hc]|]. split; [unfold copied; fin F; reflexivity|].
  split; [split|]; fin F; reflexivity.
Qed.
Lemma line_discard s s' r p q : exec C CUnixLineDiscard s = Some (s', r) -> at_split s p q ->
  at_split s' [] q /\ copied (written p) s s' /\ rest_kept s s'.
Proof.
  intros H [Hl Hc]. apply exec_ref in H as [b H]; [|exact I]. cbn [aexec] in H. destruct p as [|m p].
  - rewrite (aLineDiscard_start C (abs s)) in H by exact Hc. apply acont_some in H as [H _]. apply abs_fields in H as F.
    split; [split; fin F; [exact Hl|reflexivity]|]. split; [unfold copied; fin F; reflexivity|].
    split; [split|]; fin F; reflexivity.
  - rewrite (aLineDiscard_eq C (abs s) (m :: p) q Hl Hc) in H by discriminate. apply acont_some in H as [H _]. apply abs_fields in H as F.
    split; [split; fin F; reflexivity|]. split; [unfold copied; fin F; reflexivity|].
    split; [split|]; fin F; reflexivity.
Qed.
Lemma kill_whole_line s s' r : exec C CKillWholeLine s = Some (s', r) ->
  at_split s' [] [] /\ clip s' = clip s /\ rest_kept s s'.
Proof.
  intros H. apply exec_ref in H as [b H]; [|exact I]. apply some_pair in H as [H _]. apply abs_fields in H as F.
  split; [split; fin F; reflexivity|]. split; [fin F; reflexivity|]. split; [split|]; fin F; reflexivity.
Qed.
(** C13 *)
Lemma word_rubout s s' r p q : exec C CUnixWordRubout s = Some (s', r) -> at_split s p q ->
  exists p0 b u sk w, p = p0 ++ b /\ all_blank b /\ (p0 = [] \/ exists p' x, p0 = p' ++ [x] /\ blank x = false) /\
    word_split p0 u sk w /\
    at_split s' (u ++ sk) q /\ copied (written (w ++ b)) s s' /\ rest_kept s s'.
Proof.
  intros H [Hl Hc]. apply exec_ref in H as [bb H]; [|exact I]. cbn [aexec] in H.
  destruct (aWordRubout_eq C (abs s) p q Hl Hc) as (p0 & b & u & sk & w & Hp & Hb & Hend & Hw & Heq).
  rewrite Heq in H. apply acont_some in H as [H _]. exists p0, b, u, sk, w. repeat (split; [assumption|]).
  destruct (w ++ b) as [|x d] eqn:Hd; cbn zeta iota in H; apply abs_fields in H as F.
  - split; [split; fin F|split; [unfold copied; fin F; reflexivity|split; [split|]; fin F; reflexivity]]; [|reflexivity].
    change (aline (abs s)) with (line s). destruct Hw as (Hw & _). rewrite Hl, Hp, Hw, <- !app_assoc.
    apply app_eq_nil in Hd as [-> ->]. reflexivity.
  - split; [split; fin F; reflexivity|]. split; [unfold copied; fin F; reflexivity|].
    split; [split|]; fin F; reflexivity.
Qed.
Lemma word_rubout_single s s' r p q : exec C CUnixWordRubout s = Some (s', r) -> at_split s p q ->
  forallb single p = true ->
  exists u w b, p = u ++ w ++ b /\ all_blank b /\ (u ++ w = [] \/ exists p' x, u ++ w = p' ++ [x] /\ blank x = false) /\
    word_boundary u /\ one_word u w /\
    at_split s' u q /\ copied (written (w ++ b)) s s' /\ rest_kept s s'.
Proof.
  intros H Hs Hp. destruct (word_rubout s s' r p q H Hs) as (p0 & b & u & sk & w & Hpb & Hb & Hend & (Hw & Hu & Hsk & Ho & _) & H1 & H2 & H3).
  assert (sk = []).
  { apply (single_skip u sk w); [|exact Hsk]. rewrite Hpb, forallb_app in Hp. apply andb_true_iff in Hp as [Hp _]. now rewrite <- Hw. }
  subst sk. rewrite app_nil_r in *. cbn [app] in Hw. exists u, w, b. rewrite <- Hw.
  split; [rewrite Hpb, Hw, <- app_assoc; reflexivity|]. auto 10.
Qed.
(** C12 *)
Lemma swap_mid s s' r p x y q : exec C CSwapChar s = Some (s', r) -> at_split s (p ++ [x]) (y :: q) ->
  at_split s' (p ++ [y; x]) q /\ clip s' = clip s /\ rest_kept s s'.
Proof.
  intros H [Hl Hc]. apply exec_ref in H as [b H]; [|exact I]. cbn [aexec] in H.
  rewrite (aSwapChar_mid (abs s) p x y q Hl Hc) in H. apply acont_some in H as [H _]. apply abs_fields in H as F.
  split; [split; fin F; [now rewrite <- app_assoc|now rewrite zlen_app]|]. split; [fin F; reflexivity|]. split; [split|]; fin F; reflexivity.
Qed.
Lemma swap_end s s' r p x y : exec C CSwapChar s = Some (s', r) -> at_split s (p ++ [x; y]) [] ->
  at_split s' (p ++ [y; x]) [] /\ clip s' = clip s /\ rest_kept s s'.
Proof.
  intros H [Hl Hc]. apply exec_ref in H as [b H]; [|exact I]. cbn [aexec] in H. rewrite app_nil_r in Hl.
  rewrite (aSwapChar_end (abs s) p x y Hl Hc) in H. apply acont_some in H as [H _]. apply abs_fields in H as F.
  split; [split; fin F; [now rewrite app_nil_r|cbn [acur abs]; rewrite Hc, !zlen_app; reflexivity]|].
  split; [fin F; reflexivity|]. split; [split|]; fin F; reflexivity.
Qed.
Lemma swap_none s s' r p q : exec C CSwapChar s = Some (s', r) -> at_split s p q ->
  p = [] \/ (zlen p = 1 /\ q = []) -> s' = s.
Proof.
  intros H [Hl Hc] Hpq. cbn in H. unfold cmdSwapChar in H.
  assert (Hz : zlen (cells s) = zlen p + zlen q). { rewrite <- (zlen_map (fun c => unit_of (c_moji c))). fold (line s). now rewrite Hl, zlen_app. }
  destruct Hpq as [->|[Hp ->]].
  - change (zlen []) with 0 in *. rewrite Hc in H. cbn in H. destruct (_ =? 0); now injection H as <- _.
  - change (zlen []) with 0 in *. rewrite Hc, Hp in H. replace (_ =? 1) with true in H by lia. now injection H as <- _.
Qed.
(** C11, C45 *)
Lemma yank s s' r p q t c f : (c = CYank /\ f = trim_right) \/ (c = CYankWithQuote /\ f = yank_quote) ->
  exec C c s = Some (s', r) -> at_split s p q -> clip s = Some t ->
  at_split s' (p ++ split E (f t)) q /\ clip s' = Some t /\ rest_kept s s'.
Proof.
  intros Hcf H [Hl Hc] Ht.
  assert (Ha : acontinue (aYank C f (abs s)) = Some (abs s', r)).
  { destruct Hcf as [[-> ->]|[-> ->]]; apply exec_ref in H as [b H]; try exact I; exact H. }
  clear H. unfold aYank in Ha. change (aclip (abs s)) with (clip s) in Ha. rewrite Ht in Ha.
  rewrite (areplace_here C (abs s) p q (f t) Hl Hc) in Ha. apply acont_some in Ha as [H _]. apply abs_fields in H as F.
  rewrite split_units. split; [split; fin F; [now rewrite <- app_assoc|now rewrite zlen_app]|]. split; [fin F; exact Ht|].
  split; [split|]; fin F; reflexivity.
Qed.
Lemma yank_none s s' r c : c = CYank \/ c = CYankWithQuote -> exec C c s = Some (s', r) -> clip s = None -> s' = s.
Proof.
  intros [->| ->] H Ht; cbn in H; [unfold cmdYank in H|unfold cmdYankWithQuote in H]; rewrite Ht in H; now injection H as <- _.
Qed.
(** C03, C47 *)
Lemma decode_first k : fst (decode_rune k) = first_rune k.
Proof. destruct k as [|b k]; [reflexivity|]. unfold first_rune. now rewrite runes_step. Qed.
Lemma plain_key k : joins E (first_rune k) = false ->
  AreZeroWidthJoin E k = false /\ AreVariationSelectorLike E k = false /\ AreEmojiModifier E k = false.
Proof.
  unfold joins, AreZeroWidthJoin, AreVariationSelectorLike, AreEmojiModifier, isZeroWidthJoin, isEmojiModifier, isVariationSelectorLike, in_range.
  rewrite <- decode_first. set (r := fst (decode_rune k)). intros H. apply orb_false_iff in H as [H H3]. apply orb_false_iff in H as [H1 H2].
  rewrite <- andb_assoc in H3. destruct (zwj_ok E), (vs_ok E), (mod_ok E); cbn in *; auto.
Qed.
Lemma self_insert s s' r p q k : exec C (CSelfInsert k) s = Some (s', r) -> at_split s p q ->
  joins E (first_rune (altgr k)) = false ->
  at_split s' (p ++ split E (pending s ++ altgr k)) q /\ clip s' = clip s /\ history_untouched s s' /\ pending s' = [] /\ r = CONTINUE.
Proof.
  intros H [Hl Hc] Hj. apply exec_ref in H as [b H]; [|exact I]. cbn [aexec] in H. unfold aselfInsert in H.
  destruct (plain_key _ Hj) as (H1 & H2 & H3). rewrite H1, H2, H3 in H. cbn [andb orb] in H.
  rewrite split_units. change (apend (abs s)) with (pending s) in H. destruct (pending s) as [|z pd] eqn:Hpd.
  - rewrite (aself_tail_eq C (abs s) p q _ Hl Hc) in H. apply acont_some in H as [H Hr]. apply abs_fields in H as F. cbn [app].
    split; [split; fin F; [now rewrite <- app_assoc|now rewrite zlen_app]|]. split; [fin F; reflexivity|]. split; [split; fin F; reflexivity|].
    split; [fin F; exact Hpd|exact Hr].
  - rewrite (aself_tail_eq C (aset_pend (abs s) []) p q _ Hl Hc) in H. apply acont_some in H as [H Hr]. apply abs_fields in H as F.
    split; [split; fin F; [now rewrite <- app_assoc|now rewrite zlen_app]|]. split; [fin F; reflexivity|]. split; [split; fin F; reflexivity|].
    split; [fin F; reflexivity|exact Hr].
Qed.
End WithCfg.
