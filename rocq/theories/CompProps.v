(** Completion: the lemmas PComp.v refers to. *)
From Verif Require Import Base Utf8 Moji Color Prompt Buffer Commands KeyMap Session SpecScript MojiFacts Abs AbsRef AbsSess
  AbsSafe AbsInv Safe SafeSess Plain Spec Reach SafetyFacts LineInv OutFacts EditProps Completion SpecComp CompFacts CompSafe.
Ltac lia := unfold rune in *; Lia.lia.

(** * Units are one ASCII byte or not ASCII *)
Lemma high_byte k x n : 128 <= k -> 0 <= x -> 0 < n -> 128 <= k + x / n /\ 128 <= k + x mod n.
Proof. intros Hk Hx Hn. pose proof (Z.div_pos x n Hx Hn). pose proof (Z.mod_pos_bound x n Hn). lia. Qed.
Lemma high_rune r : 128 <= r \/ r < 0 -> Forall (fun b => 128 <= b) (encode_rune r).
Proof.
  intros Hr. unfold encode_rune. cbv zeta. destruct (valid_rune r) eqn:Hv.
  2:{ vm_compute. repeat (apply Forall_cons; [discriminate|]). apply Forall_nil. }
  apply valid_rune_spec in Hv. assert (H : 128 <= r) by lia. replace (r <? 128) with false by lia.
  destruct (r <? 2048); [|destruct (r <? 65536)]; repeat (apply Forall_cons; [try (first [apply (high_byte 192) | apply (high_byte 224) | apply (high_byte 240) | apply (high_byte 128)]; try lia; apply Z.div_pos; lia)|]); apply Forall_nil.
Qed.
Lemma high_exists r : 128 <= r \/ r < 0 -> Exists (fun b => 128 <= b) (encode_rune r).
Proof.
  intros Hr. pose proof (high_rune r Hr) as H. pose proof (encode_rune_len r) as Hl. destruct (encode_rune r) as [|b l]; [cbn in Hl; lia|].
  inversion H; subst. now constructor.
Qed.
Lemma unit_text_rune r : unit_text (encode_rune r).
Proof.
  destruct (Z_lt_dec r 0); [right; apply high_exists; lia|]. destruct (Z_lt_dec r 128); [left; exists r; apply ascii_encode; lia|right; apply high_exists; lia].
Qed.
Lemma unit_text_one m r : mrunes m = [r] -> unit_text (write m).
Proof. intros H. rewrite write_mrunes, H. cbn. rewrite app_nil_r. apply unit_text_rune. Qed.
Lemma unit_text_high m r : In r (mrunes m) -> 128 <= r -> unit_text (write m).
Proof.
  intros H Hr. right. rewrite write_mrunes. apply in_split in H as (a & b & ->). rewrite encode_app, encode_cons.
  apply Exists_app. right. apply Exists_app. left. apply high_exists. lia.
Qed.
Section Units.
Variable E : env.
Hypothesis Hvs : forall r, vsme E r = true -> 128 <= r.
Notation good m := (unit_text (write m)).
Lemma join_unit_text m r : 
  good (MZwj m (MRaw r)) /\ (isVariationSelectorLike E r = true -> good (MVar m (MRaw r))) /\ (isEmojiModifier E r = true -> good (MMod m (MRaw r))).
Proof.
  repeat split.
  - apply (unit_text_high _ zeroWidthJoinRune); [|vm_compute; discriminate]. cbn. rewrite in_app_iff. right. now left.
  - intros H. apply (unit_text_high _ r); [cbn; rewrite in_app_iff; right; now left|]. unfold isVariationSelectorLike in H. apply Hvs. now apply andb_true_iff in H.
  - intros H. apply (unit_text_high _ r); [cbn; rewrite in_app_iff; right; now left|]. unfold isEmojiModifier, in_range in H. lia.
Qed.
Lemma units_from_text rs : forall last, (forall m, last = Some m -> good m) -> Forall (fun m => good m) (units_from E last rs).
Proof.
  assert (R : forall r, good (rune2moji E r 0)) by (intros r; apply (unit_text_one _ r), mrunes_rune2moji).
  induction rs as [|r|r n rs IH1 IH2] using rune_list_ind; intros last Hl.
  - destruct last; cbn; auto.
  - destruct last as [m|].
    + specialize (Hl m eq_refl). rewrite units_some1. destruct (join_unit_text m r) as (J1 & J2 & J3). destruct (join_unit_text m RuneError) as (J0 & _).
      destruct (isZeroWidthJoin E r); [auto|]. destruct (isVariationSelectorLike E r); [auto|]. destruct (isEmojiModifier E r); auto.
    + rewrite units_none. cbn. auto.
  - destruct last as [m|].
    + specialize (Hl m eq_refl). rewrite units_some2. destruct (join_unit_text m r) as (J1 & J2 & J3). destruct (join_unit_text m n) as (J0 & _).
      destruct (isZeroWidthJoin E r); [apply IH1; intros ? [= <-]; auto|].
      destruct (isVariationSelectorLike E r); [apply IH2; intros ? [= <-]; auto|].
      destruct (isEmojiModifier E r); [apply IH2; intros ? [= <-]; auto|].
      constructor; [auto|]. apply IH2. intros ? [= <-]; auto.
    + rewrite units_none. apply IH2. intros ? [= <-]; auto.
Qed.
End Units.
Lemma reached_units S x : scripted S -> (forall r, vsme (cE (base S)) r = true -> 128 <= r) -> reached S x ->
  Forall unit_text (map write (line (buf_of x))).
Proof.
  intros HB Hvs HR. apply Forall_map. apply (LIS_reached S (fun m => unit_text (write m))); [|exact HB|exact HR].
  intros t. unfold units. apply units_from_text; [exact Hvs|discriminate].
Qed.

(** * The commands *)
Section Commands.
Variables up fold : rune -> rune.
Variable C : cfg.
Notation E := (cE C).
Variable P : completion.
Variable postfix : str.
Notation quotes := (Enclosures P).
Notation del := (Delimiters P).

Lemma pre_of hits pre : (2 <= zlen hits -> commonPrefix up hits = Some pre) -> 2 <= zlen hits ->
  exists m rest, In m hits /\ (forall x, In x hits -> zlen m <= zlen x) /\ m = pre ++ rest.
Proof.
  intros H Hz. apply commonPrefix_of with (up := up); [auto|]. intros ->. change (zlen (@nil str)) with 0 in Hz. lia.
Qed.
Lemma cmd_effect s s' res p w r fs : exec C (CmdCompletion up fold C P postfix) s = Some (s', res) ->
  chars_ok quotes white del -> at_split s (p ++ w) r -> Forall unit_text (map write (p ++ w)) ->
  between_words quotes white del (map write p) fs -> in_word quotes white del (map write w) -> w <> [] ->
  let word := without quotes (written w) in
  res = CONTINUE /\ exists names bases hits pre show,
    List_ P (fs ++ [word]) = Some (names, bases) /\ selected (begins fold word) names hits /\
    (2 <= zlen hits -> exists m rest, In m hits /\ (forall x, In x hits -> zlen m <= zlen x) /\ m = pre ++ rest) /\
    completed E fold quotes white del postfix word p r s hits pre s' show.
Proof.
  intros H Hok Hat Hu Hp Hw Hne word. cbn [exec CmdCompletion] in H. opt H. idtac. injection H as <- <-. split; [reflexivity|].
  apply (complete_effect fold C up _ _ _ _ _ _ _ p w r fs) in Ev as (names & bases & hits & pre & show & H1 & H2 & H3 & H4 & _); try assumption.
  exists names, bases, hits, pre, show. split; [exact H1|]. split; [exact H2|]. split; [now apply pre_of|exact H4].
Qed.
Lemma cmd_common s s' res p w r fs names bases hits : exec C (CmdCompletion up fold C P postfix) s = Some (s', res) ->
  chars_ok quotes white del -> at_split s (p ++ w) r -> Forall unit_text (map write (p ++ w)) ->
  between_words quotes white del (map write p) fs -> in_word quotes white del (map write w) -> w <> [] ->
  let word := without quotes (written w) in
  List_ P (fs ++ [word]) = Some (names, bases) -> selected (begins fold word) names hits -> 2 <= zlen hits -> even_case up hits ->
  exists pre show, longest_common up hits pre /\ completed E fold quotes white del postfix word p r s hits pre s' show /\
    (~ In RuneError (runes word) -> (forall c, fold c = fold RuneError -> c = RuneError) ->
     (forall a b, In a (runes word) -> In b (flat_map runes hits) -> fold a = fold b -> up a = up b) -> begins fold word pre).
Proof.
  intros H Hok Hat Hu Hp Hw Hne word HL HS Hz He. cbn [exec CmdCompletion] in H. opt H. idtac. injection H as <- <-.
  apply (complete_effect fold C up _ _ _ _ _ _ _ p w r fs) in Ev as (names' & bases' & hits' & pre & show & H1 & H2 & H3 & H4 & _); try assumption.
  fold word in H1, H2, H3, H4. rewrite HL in H1. injection H1 as <- <-.
  assert (hits' = hits) as ->.
  { clear -HS H2. revert hits' H2. induction HS as [|x l1 l' Hx _ IH|x l1 l' Hx _ IH]; intros h H2; inversion H2; subst; try easy; [f_equal|]; auto. }
  specialize (H3 Hz). assert (Hne2 : hits <> []) by (intros ->; change (zlen (@nil str)) with 0 in Hz; lia).
  exists pre, show. split; [|split; [exact H4|]].
  - destruct (commonPrefix_ok up hits Hne2 He) as (p' & Hp' & _ & Hl). rewrite H3 in Hp'. injection Hp' as <-. exact Hl.
  - intros Hn Hre Hc. apply (extends_word fold up word hits pre); try assumption.
    clear -HS. induction HS; auto.
Qed.
Lemma list_effect box s s' res p w r fs : exec C (CmdCompletionOrList up fold C box P postfix) s = Some (s', res) ->
  chars_ok quotes white del -> at_split s (p ++ w) r -> Forall unit_text (map write (p ++ w)) ->
  between_words quotes white del (map write p) fs -> in_word quotes white del (map write w) -> w <> [] ->
  let word := without quotes (written w) in
  res = CONTINUE /\ exists names bases hits pre show s1,
    List_ P (fs ++ [word]) = Some (names, bases) /\ selected (begins fold word) names hits /\
    (2 <= zlen hits -> exists m rest, In m hits /\ (forall x, In x hits -> zlen m <= zlen x) /\ m = pre ++ rest) /\
    completed E fold quotes white del postfix word p r s hits pre s1 show /\
    (show = false -> s' = s1) /\
    (show = true -> at_split s' (p ++ w) r /\ same_content s s' /\ exists shown more,
       zlen shown = zlen hits /\
       selected (fun e => begins fold word (fst e)) (combine names (match bases with [] => names | _ => bases end)) (combine hits shown) /\
       out s' = out s ++ [TBell; TNewline; TAttr (box shown)] ++ more).
Proof.
  intros H Hok Hat Hu Hp Hw Hne word. cbn [exec CmdCompletionOrList] in H. opt H. match type of Ev with _ = Some (?a, ?b) => rename a into s1; try rename b into l end.
  apply (complete_effect fold C up _ _ _ _ _ _ _ p w r fs) in Ev as (names & bases & hits & pre & show & H1 & H2 & H3 & H4 & H5 & H6); try assumption.
  fold word in H1, H2, H4, H6. pose proof (pre_of _ _ H3) as Hpre.
  destruct show.
  - destruct (H6 eq_refl) as [Hz Hsel]. assert (s1 = emit s [TBell] /\ 2 <= zlen hits) as [-> Hz2] by (inversion H4; subst; auto).
    destruct l as [|x l]; [change (zlen (@nil str)) with 0 in Hz; lia|]. opt H. injection H as <- <-. split; [reflexivity|].
    exists names, bases, hits, pre, true, (emit s [TBell]). repeat (split; [assumption|]). split; [discriminate|]. intros _.
    pose proof (RepaintAll_ref _ _ _ Ev) as Ha. rewrite !abs_emit in Ha. apply ext_RepaintAll in Ev. destruct Ev as [more Hmore].
    apply abs_fields in Ha. split; [|split].
    + destruct Hat as [Ha1 Ha2]. split; [rewrite (f_line _ _ Ha), EditFacts.aupdate_line; exact Ha1|rewrite (f_cursor _ _ Ha), EditFacts.aupdate_cur; exact Ha2].
    + unfold same_content. rewrite (f_line _ _ Ha), (f_undoes _ _ Ha), (f_clip _ _ Ha), (f_modh _ _ Ha), (f_hptr _ _ Ha), (f_pending _ _ Ha).
      rewrite EditFacts.aupdate_line, EditFacts.aupdate_undo, EditFacts.aupdate_clip, EditFacts.aupdate_modh, EditFacts.aupdate_hptr, EditFacts.aupdate_pend. repeat split.
    + exists (x :: l), more. split; [exact Hz|]. split; [exact Hsel|]. rewrite Hmore. cbn. now rewrite <- !app_assoc.
  - rewrite (H5 eq_refl) in H. injection H as <- <-. split; [reflexivity|]. exists names, bases, hits, pre, false, s1.
    repeat (split; [assumption|]). split; [reflexivity|discriminate].
Qed.
End Commands.

(** * Sessions *)
Lemma completing_safe S up fold box default cur w cl es : completing_editor S up fold box ->
  simple_text (cE (base S)) default -> simple_clip (cE (base S)) cl ->
  (forall es1 e es2 x, es = es1 ++ e :: es2 -> readline S default cur w cl es1 = Some x -> simple_or_command S e x) ->
  0 <= cur -> prompt_width (base S) + 11 < w ->
  exists x, readline S default cur w cl es = Some x /\ in_bounds (buf_of x).
Proof.
  intros (HU & HE & Hrw & H4 & H5 & H6 & H7) Hd Hcl Hes Hc Hw.
  assert (Hpred : pcolor0 (base S) = [] \/ forall t c, plain S (predictor (base S) t c)) by (destruct H6 as [H6|H6]; [now left|right; intros t c; now apply simple_plain]).
  destruct (readline_keep S) with (default := default) (cur := cur) (w := w) (cl := cl) (es := es) as (x & w' & Hx & HS & _); auto.
  - now rewrite <- joins_like.
  - split; [lia|]. now rewrite <- joins_like.
  - eapply Forall_impl; [|exact H7]. apply simple_plain.
  - intros k f Hk. destruct (HU k f Hk) as (P & postfix & Hf & Ha & Hp & Hq).
    assert (Hq' : Forall (fun q => plain S (encode_rune q)) (Enclosures P)).
    { eapply Forall_impl; [|exact Hq]. cbn. intros q (Hq1 & Hq2 & Hq3). apply simple_plain. intros r Hr. rewrite ascii_encode, runes_low in Hr by (lia || (intros b [<-|[]]; lia)).
      destruct Hr as [<-|[]]. split; assumption. }
    destruct Hf as [Hf|Hf].
    + eapply (completion_keeps S Hpred HE Hrw up fold P postfix); try eassumption. now apply simple_plain.
    + eapply (completion_list_keeps S Hpred HE Hrw up fold P postfix); try eassumption. now apply simple_plain.
  - unfold prompt_width, PW in *. lia.
  - now apply simple_plain.
  - destruct cl; [|exact I]. now apply simple_plain, Hcl.
  - intros es1 e es2 y He Hr. destruct (Hes es1 e es2 y He Hr) as [H|H]; [left; now apply simple_plain_event|now right].
  - exists x. split; [exact Hx|]. destruct x; apply HS.
Qed.
