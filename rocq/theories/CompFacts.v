(** Completion: lemmas for PComp.v. *)
From Verif Require Import Base Utf8 Moji Color Prompt Buffer Commands KeyMap Session MojiFacts Abs AbsRef AbsSess AbsSafe AbsInv Spec TextFacts Reach CmdFacts WordFacts EditFacts EditProps
  Completion SpecComp.
Ltac lia := unfold rune in *; Lia.lia.

(** * Words *)
Lemma has_prefix_one s b : has_prefix s [b] = true <-> exists t, s = b :: t.
Proof. rewrite has_prefix_spec. split; intros [t ->]; exists t; reflexivity. Qed.
Lemma str_index_range s c : -1 <= str_index s c.
Proof.
  induction s as [|x s IH]; cbn [str_index]; [destruct (has_prefix [] c); lia|].
  destruct (has_prefix (x :: s) c); [lia|]. cbv zeta. destruct (str_index s c <? 0) eqn:H; lia.
Qed.
Lemma has_prefix_b x s b : has_prefix (x :: s) [b] = (x =? b).
Proof. destruct s; cbn; now rewrite andb_true_r. Qed.
Lemma str_index_one s b : 0 <= str_index s [b] <-> In b s.
Proof.
  induction s as [|x s IH]; cbn [str_index]; [cbn; split; [lia|tauto]|]. rewrite has_prefix_b. cbv zeta.
  destruct (x =? b) eqn:Hx.
  - cbn. split; [left; lia|lia].
  - cbn [In]. pose proof (str_index_range s [b]). destruct (str_index s [b] <? 0) eqn:Hs; split; intros H0.
    + lia.
    + destruct H0 as [H0|H0]; [lia|]. apply IH in H0. lia.
    + right. apply IH. lia.
    + lia.
Qed.
Lemma has_prefix_high s c : (forall x, In x s -> x < 128) -> Exists (fun b => 128 <= b) c -> has_prefix s c = false.
Proof.
  intros Hs Hc. destruct (has_prefix s c) eqn:Hp; [|reflexivity]. apply has_prefix_spec in Hp as [t ->].
  apply Exists_exists in Hc as (x & Hx & Hx'). specialize (Hs x (in_or_app _ _ _ (or_introl Hx))). lia.
Qed.
Lemma str_index_high s c : (forall x, In x s -> x < 128) -> Exists (fun b => 128 <= b) c -> str_index s c = -1.
Proof.
  intros Hs Hc. induction s as [|x s IH]; cbn [str_index]; rewrite has_prefix_high by assumption; [reflexivity|].
  rewrite IH; [reflexivity|]. intros y Hy. apply Hs. now right.
Qed.
Lemma str_index_nth s b : 0 <= str_index s [b] -> nth_error s (Z.to_nat (str_index s [b])) = Some b.
Proof.
  induction s as [|x s IH]; cbn [str_index]; [cbn; lia|]. rewrite has_prefix_b. cbv zeta.
  destruct (x =? b) eqn:Hx; intros H; [cbn; f_equal; lia|].
  destruct (str_index s [b] <? 0) eqn:Hs; [lia|]. replace (Z.to_nat (str_index s [b] + 1)) with (S (Z.to_nat (str_index s [b]))) by lia.
  cbn. apply IH. lia.
Qed.

Section Words.
Variables quotes del : list Z.
Hypothesis Hok : chars_ok quotes blanks del.

Lemma unit_of_set set c : (forall x, In x set -> x < 128) -> unit_text c ->
  (str_contains set c = true <-> exists b, c = [b] /\ In b set).
Proof.
  intros Hs Hc. unfold str_contains. destruct Hc as [[b ->]|Hc].
  - rewrite Z.leb_le, str_index_one. split; [eauto|]. now intros (b' & [= <-] & H).
  - rewrite str_index_high by assumption. split; [discriminate|]. intros (b & -> & Hb). inversion Hc as [? ? H|? ? H]; subst; [specialize (Hs b Hb); lia|inversion H].
Qed.
Lemma low_quotes x : In x quotes -> x < 128.
Proof. intros H. destruct Hok as (_ & _ & Hr). apply Hr. rewrite !in_app_iff. tauto. Qed.
Lemma low_blanks x : In x blanks -> x < 128.
Proof. intros H. destruct Hok as (_ & _ & Hr). apply Hr. rewrite !in_app_iff. tauto. Qed.
Lemma low_del x : In x del -> x < 128.
Proof. intros H. destruct Hok as (_ & _ & Hr). apply Hr. rewrite !in_app_iff. tauto. Qed.

(** The bits of the enclosures. *)
Definition bit_of (c : str) : Z := if 0 <=? str_index quotes c then Z.shiftl 1 (str_index quotes c) else 0.
Definition bits_of (b0 : Z) (l : list str) : Z := fold_left (fun b c => Z.lxor b (bit_of c)) l b0.

Lemma bit_of_test c j : unit_text c -> 0 <= j -> Z.testbit (bit_of c) j = match nth_error quotes (Z.to_nat j) with Some q => str_eqb [q] c | None => false end.
Proof.
  intros Hc Hj. unfold bit_of. destruct Hc as [[b ->]|Hc].
  - destruct (0 <=? str_index quotes [b]) eqn:Hi.
    + rewrite Z.shiftl_spec by lia. pose proof (str_index_nth quotes b ltac:(lia)) as Hn.
      destruct (Z.eq_dec j (str_index quotes [b])) as [->|Hne].
      * rewrite Z.sub_diag, Hn, str_eqb_refl. reflexivity.
      * replace (Z.testbit 1 (j - str_index quotes [b])) with false.
        2:{ destruct (Z_lt_dec (j - str_index quotes [b]) 0) as [Hl|Hl]; [now rewrite Z.testbit_neg_r|].
            change 1 with (2 ^ 0). rewrite Z.pow2_bits_false; [reflexivity|lia]. }
        destruct (nth_error quotes (Z.to_nat j)) as [q|] eqn:Hq; [|reflexivity]. symmetry. apply str_eqb_neq. intros [= ->].
        destruct Hok as (Hnd & _). apply NoDup_nth_error with (i := Z.to_nat j) (j := Z.to_nat (str_index quotes [b])) in Hnd.
        -- lia.
        -- apply nth_error_Some. now rewrite Hq.
        -- now rewrite Hq, Hn.
    + rewrite Z.testbit_0_l. destruct (nth_error quotes (Z.to_nat j)) as [q|] eqn:Hq; [|reflexivity]. symmetry. apply str_eqb_neq.
      intros [= ->]. apply nth_error_In, str_index_one in Hq. lia.
  - rewrite str_index_high by (assumption || exact low_quotes). cbn [Z.leb]. rewrite Z.testbit_0_l.
    destruct (nth_error quotes (Z.to_nat j)) as [q|] eqn:Hq; [|reflexivity]. symmetry. apply str_eqb_neq. intros <-.
    apply nth_error_In, low_quotes in Hq. inversion Hc as [? ? H|? ? H]; subst; [lia|inversion H].
Qed.

Lemma occurrences_cons q c l : occurrences q (c :: l) = ((if str_eqb [q] c then 1 else 0) + occurrences q l)%nat.
Proof. unfold occurrences. cbn [filter]. now destruct (str_eqb [q] c). Qed.
Lemma bits_of_test l : Forall unit_text l -> forall b j, 0 <= j -> Z.testbit (bits_of b l) j =
  xorb (Z.testbit b j) (match nth_error quotes (Z.to_nat j) with Some q => Nat.odd (occurrences q l) | None => false end).
Proof.
  induction l as [|c l IH]; intros Hl b j Hj.
  - cbn. destruct (nth_error quotes (Z.to_nat j)); cbn; now rewrite xorb_false_r.
  - inversion Hl as [|? ? Hc Hl']; subst. change (bits_of b (c :: l)) with (bits_of (Z.lxor b (bit_of c)) l).
    rewrite IH by assumption. rewrite Z.lxor_spec, bit_of_test by assumption.
    destruct (nth_error quotes (Z.to_nat j)) as [q|]; [|now rewrite !xorb_false_r].
    rewrite occurrences_cons. destruct (str_eqb [q] c); [|now rewrite xorb_false_r].
    change (1 + occurrences q l)%nat with (S (occurrences q l)). rewrite Nat.odd_succ, <- Nat.negb_odd.
    destruct (Z.testbit b j), (Nat.odd (occurrences q l)); reflexivity.
Qed.
Lemma bits_closed l : Forall unit_text l -> (bits_of 0 l = 0 <-> closed quotes l).
Proof.
  intros Hl. split.
  - intros H q Hq. apply In_nth_error in Hq as [n Hn]. pose proof (bits_of_test l Hl 0 (Z.of_nat n) ltac:(lia)) as Ht.
    rewrite H, Z.testbit_0_l, Nat2Z.id, Hn in Ht. rewrite <- Nat.negb_odd. rewrite xorb_false_l in Ht. now rewrite <- Ht.
  - intros H. apply Z.bits_inj'. intros j Hj. rewrite bits_of_test, Z.testbit_0_l by assumption.
    destruct (nth_error quotes (Z.to_nat j)) as [q|] eqn:Hq; [|reflexivity].
    apply nth_error_In in Hq. specialize (H q Hq). rewrite <- Nat.negb_even, H. reflexivity.
Qed.

(** One unit that does not end the word. *)
Lemma split_in c l i start w b fs lws : (b = 0 -> ~ separates blanks del c) -> unit_text c ->
  split_loop quotes del (c :: l) i (Some (start, w, b)) fs lws =
  split_loop quotes del l (i + 1) (Some (start, w ++ c, Z.lxor b (bit_of c))) fs lws.
Proof.
  intros Hb Hc. cbn [split_loop]. cbv zeta. unfold bit_of. destruct (0 <=? str_index quotes c); [reflexivity|].
  rewrite Z.lxor_0_r. destruct (b =? 0) eqn:H0; [|reflexivity]. assert (Hs : ~ separates blanks del c) by (apply Hb; lia).
  cbn [andb]. destruct (str_contains blanks c) eqn:H1.
  { apply unit_of_set in H1 as (x & -> & Hx); [|exact low_blanks|assumption]. destruct Hs. exists x. rewrite in_app_iff. tauto. }
  destruct (str_contains del c) eqn:H2; [|reflexivity].
  apply unit_of_set in H2 as (x & -> & Hx); [|exact low_del|assumption]. destruct Hs. exists x. rewrite in_app_iff. tauto.
Qed.
Lemma split_word w : Forall unit_text w -> forall l i start v b fs lws,
  (forall p c r, w = p ++ c :: r -> bits_of b p = 0 -> ~ separates blanks del c) ->
  split_loop quotes del (w ++ l) i (Some (start, v, b)) fs lws =
  split_loop quotes del l (i + zlen w) (Some (start, v ++ List.concat w, bits_of b w)) fs lws.
Proof.
  induction w as [|c w IH]; intros Hw l i start v b fs lws Hs.
  - cbn. now rewrite Z.add_0_r, app_nil_r.
  - inversion Hw as [|? ? Hc Hw']; subst. change ((c :: w) ++ l) with (c :: (w ++ l)). rewrite split_in; [|intros ->; now apply (Hs [] c w)|assumption].
    rewrite IH; [|assumption|].
    + cbn [List.concat]. rewrite app_assoc. f_equal. rewrite zlen_cons. lia.
    + intros p c' r -> Hp. apply (Hs (c :: p) c' r); [reflexivity|exact Hp].
Qed.
Lemma in_word_bits w : Forall unit_text w -> in_word quotes blanks del w ->
  forall p c r, w = p ++ c :: r -> bits_of 0 p = 0 -> ~ separates blanks del c.
Proof.
  intros Hw Hin p c r -> Hb. apply (Hin p c r eq_refl). apply bits_closed; [|assumption]. apply Forall_app in Hw. tauto.
Qed.
Lemma split_begin c l i fs lws : ~ In c (map (fun b => [b]) blanks) -> unit_text c ->
  split_loop quotes del (c :: l) i None fs lws = split_loop quotes del (c :: l) i (Some (i, [], 0)) fs lws.
Proof.
  intros Hn Hc. cbn [split_loop]. destruct (str_contains blanks c) eqn:H1; [|reflexivity].
  apply unit_of_set in H1 as (x & -> & Hx); [|exact low_blanks|assumption]. destruct Hn. apply in_map_iff. eauto.
Qed.
Lemma not_blank_of_word c w : in_word quotes blanks del (c :: w) -> ~ In c (map (fun b => [b]) blanks).
Proof.
  intros Hw Hin. apply in_map_iff in Hin as (b & <- & Hb). apply (Hw [] [b] w eq_refl).
  - intros q _. reflexivity.
  - exists b. rewrite in_app_iff. tauto.
Qed.
Lemma split_new_word w : Forall unit_text w -> in_word quotes blanks del w -> w <> [] -> forall l i fs lws,
  split_loop quotes del (w ++ l) i None fs lws =
  split_loop quotes del l (i + zlen w) (Some (i, List.concat w, bits_of 0 w)) fs lws.
Proof.
  intros Hu Hw Hne l i fs lws. destruct w as [|c w]; [now destruct Hne|].
  change ((c :: w) ++ l) with (c :: (w ++ l)). rewrite split_begin; [|eapply not_blank_of_word; eassumption|inversion Hu; assumption].
  change (c :: (w ++ l)) with ((c :: w) ++ l). rewrite split_word; [reflexivity|assumption|]. now apply in_word_bits.
Qed.
Lemma quote_not_sep b : In b (blanks ++ del) -> str_index quotes [b] < 0.
Proof.
  intros Hb. destruct (Z_lt_dec (str_index quotes [b]) 0) as [H|H]; [assumption|]. assert (Hq : 0 <= str_index quotes [b]) by lia.
  apply str_index_one in Hq. destruct Hok as (_ & Hd & _). specialize (Hd b Hq). rewrite in_app_iff in Hb. tauto.
Qed.
Lemma contains_one set b : str_contains set [b] = true <-> In b set.
Proof. unfold str_contains. rewrite Z.leb_le. apply str_index_one. Qed.
Lemma split_blank_end b l i start v fs lws : In b blanks ->
  split_loop quotes del ([b] :: l) i (Some (start, v, 0)) fs lws = split_loop quotes del l (i + 1) None (fs ++ [removeQuotes v quotes]) start.
Proof.
  intros Hb. cbn [split_loop]. cbv zeta. pose proof (quote_not_sep b ltac:(rewrite in_app_iff; tauto)).
  destruct (0 <=? str_index quotes [b]) eqn:Hq; [lia|]. cbn [andb Z.eqb].
  apply contains_one in Hb. now rewrite Hb.
Qed.
Lemma split_delim_end b l i start v fs lws : In b del -> ~ In b blanks ->
  split_loop quotes del ([b] :: l) i (Some (start, v, 0)) fs lws = split_loop quotes del l (i + 1) None (fs ++ [removeQuotes v quotes; [b]]) i.
Proof.
  intros Hb Hn. cbn [split_loop]. cbv zeta. pose proof (quote_not_sep b ltac:(rewrite in_app_iff; tauto)).
  destruct (0 <=? str_index quotes [b]) eqn:Hq; [lia|]. cbn [andb Z.eqb].
  destruct (str_contains blanks [b]) eqn:H1; [apply contains_one in H1; tauto|]. apply contains_one in Hb. now rewrite Hb.
Qed.

Lemma encode_low l : (forall b, In b l -> 0 <= b < 128) -> encode l = l.
Proof.
  induction l as [|b l IH]; intros H; [reflexivity|]. rewrite encode_cons, ascii_encode by (apply H; now left).
  rewrite IH; [reflexivity|]. intros x Hx. apply H. now right.
Qed.
Lemma runes_low l : (forall b, In b l -> 0 <= b < 128) -> runes l = l.
Proof.
  intros H. rewrite <- (encode_low l H) at 1. apply runes_encode. apply Forall_forall. intros x Hx. specialize (H x Hx).
  apply valid_rune_spec. lia.
Qed.
Lemma removeQuotes_without v : removeQuotes v quotes = without quotes v.
Proof.
  unfold removeQuotes, without, contains_rune. rewrite runes_low; [reflexivity|].
  destruct Hok as (_ & _ & Hr). intros b Hb. apply Hr. rewrite in_app_iff. tauto.
Qed.
Lemma unit_low b : unit_text [b]. Proof. left. eauto. Qed.

Lemma split_before p fs : between_words quotes blanks del p fs -> Forall unit_text p -> exists lws, forall l,
  split_loop quotes del (p ++ l) 0 None [] 0 = split_loop quotes del l (zlen p) None fs lws.
Proof.
  induction 1 as [|p fs b Hp IH Hb|p fs w b Hp IH Hne Hw Hc Hb|p fs w b Hp IH Hw Hc Hb Hn]; intros Hu.
  - exists 0. reflexivity.
  - apply Forall_app in Hu as [Hu _]. destruct (IH Hu) as [lws Hl]. exists lws. intros l. rewrite <- app_assoc, Hl.
    cbn [app split_loop]. rewrite (proj2 (contains_one blanks b) Hb). now rewrite zlen_app.
  - apply Forall_app in Hu as [Hu Hu']. apply Forall_app in Hu' as [Huw _]. destruct (IH Hu) as [lws Hl]. exists (zlen p). intros l.
    rewrite <- !app_assoc, Hl, split_new_word by assumption. rewrite (proj2 (bits_closed w Huw) Hc). cbn [app].
    rewrite split_blank_end, removeQuotes_without by assumption. f_equal. unfold zlen. repeat (rewrite app_length || cbn [List.length]). lia.
  - apply Forall_app in Hu as [Hu Hu']. apply Forall_app in Hu' as [Huw _]. destruct (IH Hu) as [lws Hl]. destruct w as [|c w].
    + exists (zlen p). intros l. rewrite <- !app_assoc, Hl. cbn [app List.concat]. rewrite split_begin; [| |apply unit_low].
      * rewrite split_delim_end, removeQuotes_without by assumption. f_equal. rewrite !zlen_app. reflexivity.
      * intros Hin. apply in_map_iff in Hin as (x & [= ->] & Hx). tauto.
    + exists (zlen p + zlen (c :: w)). intros l. rewrite <- !app_assoc, Hl, split_new_word by (assumption || discriminate).
      rewrite (proj2 (bits_closed (c :: w) Huw) Hc). cbn [app].
      rewrite split_delim_end, removeQuotes_without by assumption. f_equal. unfold zlen. repeat (rewrite app_length || cbn [List.length]). lia.
Qed.
Lemma split_loop_word p fs w : between_words quotes blanks del p fs -> in_word quotes blanks del w -> w <> [] ->
  Forall unit_text (p ++ w) ->
  split_loop quotes del (p ++ w) 0 None [] 0 = (fs ++ [without quotes (List.concat w)], zlen p).
Proof.
  intros Hp Hw Hne Hu. apply Forall_app in Hu as [Hup Huw]. destruct (split_before p fs Hp Hup) as [lws Hl]. rewrite Hl.
  rewrite <- (app_nil_r w) at 1. rewrite split_new_word by assumption. cbn [split_loop]. now rewrite removeQuotes_without.
Qed.
End Words.

(** * The common beginning *)
Section Case.
Variable up : rune -> rune.

Lemma starts_refl a : starts up a a. Proof. exists []. now rewrite app_nil_r. Qed.
Lemma starts_app a b t : starts up (a ++ b) t -> starts up a t.
Proof. intros [r H]. rewrite map_app, <- app_assoc in H. eexists; exact H. Qed.
Lemma starts_trans a b c : starts up a b -> starts up b c -> starts up a c.
Proof. intros [r H] [r' H']. rewrite H, <- app_assoc in H'. eexists; eassumption. Qed.
Lemma starts_two a b c : starts up a c -> starts up b c -> zlen a <= zlen b -> starts up a b.
Proof.
  intros [r H] [r' H'] Hl. exists (skipn (List.length a) (map up b)). rewrite H in H'.
  assert (Hf : firstn (List.length a) (map up a ++ r) = firstn (List.length a) (map up b ++ r')) by now rewrite H'.
  rewrite firstn_app, map_length, Nat.sub_diag, firstn_O, app_nil_r, firstn_all2 in Hf by (rewrite map_length; lia).
  rewrite firstn_app in Hf. replace (List.length a - List.length (map up b))%nat with 0%nat in Hf by (rewrite map_length; unfold zlen in Hl; lia).
  rewrite firstn_O, app_nil_r in Hf. rewrite Hf. now rewrite firstn_skipn.
Qed.
Lemma common_runes_spec a : forall b, let c := common_runes up a b in
  (exists r, a = c ++ r) /\ starts up c b /\ (forall q, starts up q a -> starts up q b -> zlen q <= zlen c).
Proof.
  induction a as [|x a IH]; intros b.
  { cbn. repeat split; [now exists []|now exists (map up b)|]. intros q [r H] _. destruct q; [lia|discriminate]. }
  destruct b as [|y b].
  { cbn. repeat split; [now exists (x :: a)|now exists []|]. intros q _ [r H]. destruct q; [lia|discriminate]. }
  cbn. destruct (up x =? up y) eqn:Hxy.
  - destruct (IH b) as ((r & Hr) & (r' & Hr') & Hm). repeat split.
    + exists r. cbn. now rewrite <- Hr.
    + exists r'. cbn. rewrite Hr'. f_equal. lia.
    + intros q [t Ht] [t' Ht']. destruct q as [|z q]; [unfold zlen; cbn; lia|]. rewrite !zlen_cons. cbn in Ht, Ht'.
      injection Ht as _ Ht. injection Ht' as _ Ht'. specialize (Hm q). assert (starts up q a) by (eexists; eassumption).
      assert (starts up q b) by (eexists; eassumption). intuition lia.
  - repeat split; [now exists (x :: a)|now exists (map up (y :: b))|]. intros q [t Ht] [t' Ht']. destruct q as [|z q]; [lia|].
    cbn in Ht, Ht'. injection Ht as Ht _. injection Ht' as Ht' _. lia.
Qed.

Lemma prefix_loop_spec l : forall seen common m c' m', seen <> [] -> In m seen ->
  longest_common up seen common -> (forall x, In x seen -> zlen m <= zlen x) ->
  prefix_loop up common m l = (c', m') ->
  In m' (seen ++ l) /\ (forall x, In x (seen ++ l) -> zlen m' <= zlen x) /\ longest_common up (seen ++ l) c'.
Proof.
  induction l as [|f l IH]; intros seen common m c' m' Hne Hm [Hl Hmax] Hmin H.
  - cbn in H. injection H as <- <-. rewrite app_nil_r. repeat split; assumption.
  - cbn [prefix_loop] in H. replace (seen ++ f :: l) with ((seen ++ [f]) ++ l) by now rewrite <- app_assoc.
    apply (IH (seen ++ [f])) in H; [exact H| | | |].
    + destruct seen; discriminate.
    + destruct (zlen f <? zlen m); rewrite in_app_iff; [right; now left|now left].
    + destruct (common_runes_spec (runes common) (runes f)) as ((r & Hr) & Hst & Hcm). set (c := common_runes up (runes common) (runes f)) in *.
      assert (Hv : runes (encode c) = c).
      { apply runes_encode. pose proof (runes_valid common) as V. rewrite Hr in V. apply Forall_app in V. tauto. }
      split; rewrite Hv.
      * intros x Hx. apply in_app_iff in Hx as [Hx|[<-|[]]]; [|assumption]. specialize (Hl x Hx). rewrite Hr in Hl. eapply starts_app; eassumption.
      * intros q Hq. apply Hcm; [|apply Hq, in_app_iff; right; now left]. destruct seen as [|y seen]; [now destruct Hne|].
        apply (starts_two q (runes common) (runes y)).
        -- apply Hq. now left.
        -- apply Hl. now left.
        -- apply Hmax. intros x Hx. apply Hq. apply in_app_iff. now left.
    + intros x Hx. apply in_app_iff in Hx as [Hx|[<-|[]]]; destruct (zlen f <? zlen m) eqn:Hfm; try lia; specialize (Hmin x Hx); lia.
Qed.
Lemma encode_len_case a b : map up a = map up b ->
  (forall x y, In x a -> In y b -> up x = up y -> zlen (encode_rune x) = zlen (encode_rune y)) -> zlen (encode a) = zlen (encode b).
Proof.
  revert b. induction a as [|x a IH]; intros [|y b] H Hl; try discriminate; [reflexivity|]. cbn in H. injection H as H1 H2.
  rewrite !encode_cons, !zlen_app. rewrite (Hl x y) by (now left || assumption). rewrite (IH b H2); [reflexivity|].
  intros u v Hu Hv. apply Hl; now right.
Qed.
Lemma map_prefix_split a t r : map up t = map up a ++ r -> exists t1 t2, t = t1 ++ t2 /\ map up t1 = map up a.
Proof.
  revert t. induction a as [|x a IH]; intros t H; [exists [], t; split; reflexivity|]. destruct t as [|y t]; [discriminate|].
  cbn in H. injection H as H1 H2. destruct (IH t H2) as (t1 & t2 & -> & Ht). exists (y :: t1), t2. cbn. split; congruence.
Qed.

Lemma common_valid a b : Forall (fun r => valid_rune r = true) (common_runes up (runes a) b).
Proof.
  destruct (common_runes_spec (runes a) b) as ((r & Hr) & _). pose proof (runes_valid a) as V. rewrite Hr in V. apply Forall_app in V. tauto.
Qed.
Lemma prefix_loop_valid l : forall common m c m', prefix_loop up common m l = (c, m') -> valid_utf8 common -> valid_utf8 c.
Proof.
  induction l as [|g l IH]; intros common m c m' Hp Hf; cbn [prefix_loop] in Hp.
  - now injection Hp as <- _.
  - apply IH in Hp; [assumption|]. apply valid_utf8_encode, common_valid.
Qed.
Lemma prefix_loop_sub l : forall common m c m', prefix_loop up common m l = (c, m') -> exists r, runes common = runes c ++ r.
Proof.
  induction l as [|g l IH]; intros common m c m' Hp; cbn [prefix_loop] in Hp.
  - injection Hp as <- _. exists []. now rewrite app_nil_r.
  - apply IH in Hp as [r' Hp]. rewrite (runes_encode _ (common_valid _ _)) in Hp.
    destruct (common_runes_spec (runes common) (runes g)) as ((r & Hr) & _). exists (r' ++ r). now rewrite app_assoc, <- Hp.
Qed.

(** With at least one candidate, and whatever they contain, the result is a beginning of
    one of the shortest. *)
Lemma commonPrefix_of l p : commonPrefix up l = Some p -> l <> [] -> exists m r, In m l /\ (forall x, In x l -> zlen m <= zlen x) /\ m = p ++ r.
Proof.
  destruct l as [|f l]; [easy|]. intros H _. cbn in H. destruct (prefix_loop up f f l) as [c m] eqn:Hp.
  assert (Hl : longest_common up [f] f).
  { split; [intros x [<-|[]]; apply starts_refl|]. intros q Hq. specialize (Hq f (or_introl eq_refl)) as [r Hr].
    rewrite <- (zlen_map up q), <- (zlen_map up (runes f)), Hr, zlen_app. pose proof (zlen_nonneg r). lia. }
  apply (prefix_loop_spec l [f]) in Hp as (H1 & H2 & _); [|discriminate|now left|assumption|intros x [<-|[]]; lia].
  unfold slice in H. destruct ((0 <=? 0) && (0 <=? zlen c) && (zlen c <=? zlen m)) eqn:Hb; [|discriminate]. injection H as <-.
  exists m. exists (skipn (Z.to_nat (zlen c)) m). repeat split; [exact H1|exact H2|]. rewrite Z.sub_0_r. symmetry. apply firstn_skipn.
Qed.
Lemma commonPrefix_ok l : l <> [] -> even_case up l -> exists p, commonPrefix up l = Some p /\ valid_utf8 p /\ longest_common up l p.
Proof.
  destruct l as [|f l]; [easy|]. intros _ [Hv He]. cbn [commonPrefix]. destruct (prefix_loop up f f l) as [c m] eqn:Hp.
  assert (Hvc : valid_utf8 c) by (eapply prefix_loop_valid; [exact Hp|inversion Hv; assumption]).
  assert (Hsub : forall x, In x (runes c) -> In x (flat_map runes (f :: l))).
  { destruct (prefix_loop_sub _ _ _ _ _ Hp) as [r Hr]. intros x Hx. cbn. rewrite in_app_iff, Hr, in_app_iff. tauto. }
  assert (Hl : longest_common up [f] f).
  { split; [intros x [<-|[]]; apply starts_refl|]. intros q Hq. specialize (Hq f (or_introl eq_refl)) as [r Hr].
    rewrite <- (zlen_map up q), <- (zlen_map up (runes f)), Hr, zlen_app. pose proof (zlen_nonneg r). lia. }
  apply (prefix_loop_spec l [f]) in Hp as (H1 & H2 & H3 & H4); [|discriminate|now left|assumption|intros x [<-|[]]; lia].
  cbn [app] in H1, H3, H4. pose proof (H3 m H1) as [r Hr]. apply map_prefix_split in Hr as (t1 & t2 & Ht & Hu).
  assert (Hvm : valid_utf8 m) by (eapply Forall_forall in Hv; eauto).
  assert (Hm : m = encode t1 ++ encode t2) by (rewrite <- encode_app, <- Ht; symmetry; now apply encode_runes_valid).
  assert (Hlen : zlen (encode t1) = zlen c).
  { rewrite <- (encode_runes_valid c Hvc). apply encode_len_case; [assumption|]. intros x y Hx Hy Hxy. apply He; [|apply Hsub; assumption|assumption].
    apply in_flat_map. exists m. split; [assumption|]. rewrite Ht, in_app_iff. tauto. }
  assert (V1 : Forall (fun r => valid_rune r = true) t1) by (pose proof (runes_valid m) as V; rewrite Ht in V; apply Forall_app in V; tauto).
  exists (encode t1). split; [|split].
  - rewrite Hm, <- Hlen. unfold slice. pose proof (zlen_nonneg (encode t1)). pose proof (zlen_nonneg (encode t2)).
    rewrite zlen_app. replace (_ && _ && _) with true by lia. rewrite Z.sub_0_r. f_equal. cbn [Z.to_nat skipn].
    replace (Z.to_nat (zlen (encode t1))) with (List.length (encode t1)) by (unfold zlen; lia). rewrite firstn_app, Nat.sub_diag, firstn_all. cbn. now rewrite app_nil_r.
  - now apply valid_utf8_encode.
  - unfold longest_common. rewrite (runes_encode _ V1). split.
    + intros x Hx. destruct (H3 x Hx) as [rx Hrx]. exists rx. rewrite Hrx. f_equal. now symmetry.
    + intros q Hq. specialize (H4 q Hq). rewrite <- (zlen_map up t1), Hu, zlen_map. assumption.
Qed.
End Case.

(** * The effect of a completion command *)
Section Effect.
Variable fold : rune -> rune.

Lemma EqualFold_alike a b : EqualFold fold a b = true <-> alike fold a b.
Proof. apply str_eqb_eq. Qed.
Lemma EqualFold_not a b : EqualFold fold a b = false <-> ~ alike fold a b.
Proof. apply str_eqb_neq. Qed.
Lemma begins_dec w n : (zlen w <=? zlen n) && EqualFold fold w (firstn (List.length w) n) = true <-> begins fold w n.
Proof.
  rewrite andb_true_iff, EqualFold_alike. split.
  - intros [Hz Ha]. exists (firstn (List.length w) n), (skipn (List.length w) n). rewrite firstn_skipn. repeat split; [|assumption].
    unfold zlen in *. rewrite firstn_length. lia.
  - intros (a & b & -> & Hz & Ha). assert (Hl : List.length w = List.length a) by (unfold zlen in Hz; lia). rewrite Hl, firstn_app, Nat.sub_diag, firstn_all.
    cbn. rewrite app_nil_r. split; [|assumption]. rewrite zlen_app. pose proof (zlen_nonneg b). lia.
Qed.
Lemma removeUnmatches_spec full : forall base source nf nb, removeUnmatches fold full base source = Some (nf, nb) ->
  selected (begins fold source) full nf /\ zlen nb = zlen nf /\
  selected (fun e => begins fold source (fst e)) (combine full base) (combine nf nb).
Proof.
  induction full as [|n full IH]; intros base source nf nb H; cbn [removeUnmatches] in H.
  - injection H as <- <-. repeat constructor.
  - opt H. destruct p as [nf0 nb0]. destruct (IH _ _ _ _ Ev) as (H1 & H2 & H3). destruct (_ && _) eqn:Hb.
    + apply begins_dec in Hb. destruct base as [|b base]; [discriminate|]. injection H as <- <-. cbn [tl] in *.
      split; [now constructor|]. split; [rewrite !zlen_cons; lia|]. cbn. now constructor.
    + injection H as <- <-. assert (Hn : ~ begins fold source n) by (rewrite <- begins_dec, Hb; discriminate).
      split; [now constructor|]. split; [assumption|]. destruct base as [|b base]; cbn in *.
      * replace (combine full []) with (@nil (str * str)) in H3 by (destruct full; reflexivity). assumption.
      * now constructor.
Qed.
Lemma has_any_spec set t : (forall b, In b set -> 0 <= b < 128) -> (contains_any t set = true <-> has_any set t).
Proof.
  intros Hs. unfold contains_any. rewrite runes_low by assumption. rewrite existsb_exists. unfold contains_rune, has_any.
  split; intros (c & H1 & H2); exists c; (split; [assumption|]).
  - apply existsb_exists in H2 as (x & Hx & He). apply Z.eqb_eq in He. now subst.
  - apply existsb_exists. exists c. split; [assumption|]. apply Z.eqb_refl.
Qed.

Variable C : cfg.
Notation E := (cE C).

Lemma replace_word s p w r t s' : ReplaceAndRepaint C s (zlen p) t = Some s' -> at_split s (p ++ w) r -> w <> [] ->
  at_split s' (p ++ split E t) r /\ clip s' = clip s /\ rest_kept s s'.
Proof.
  intros H [Hl Hc] Hw. apply ReplaceAndRepaint_ref in H. unfold areplace in H. change (acur (abs s)) with (cursor s) in H. rewrite Hc, zlen_app in H.
  replace (zlen p + zlen w - zlen p) with (zlen w) in H by lia. assert (Hl' : aline (abs s) = p ++ w ++ r) by (change (aline (abs s)) with (line s); now rewrite Hl, <- app_assoc).
  rewrite (adelete_mid _ p w r Hl' Hw) in H.
  rewrite (ains_mid _ p (units E t) r) in H by reflexivity. injection H as H. symmetry in H. apply abs_fields in H as F.
  unfold at_split, split, rest_kept, history_untouched. rewrite (f_line _ _ F), (f_cursor _ _ F), (f_clip _ _ F), (f_modh _ _ F), (f_hptr _ _ F), (f_pending _ _ F).
  rewrite ?aupdate_line, ?aupdate_cur, ?aupdate_clip, ?aupdate_modh, ?aupdate_hptr, ?aupdate_pend.
  cbn [aline acur aclip amodh ahptr apend aset_line aset_cur aset_pend apush aset_undo aset_clip].
  rewrite ?ajoin_line, ?ajoin_cur, ?ajoin_clip, ?ajoin_modh, ?ajoin_hptr, ?ajoin_pend.
  cbn [aline acur aclip amodh ahptr apend aset_line aset_cur aset_pend apush aset_undo aset_clip].
  rewrite StringToMoji_units, zlen_app, <- app_assoc. repeat split; reflexivity.
Qed.

Lemma cell_str_line l : map cell_str l = map write (map (fun c => unit_of (c_moji c)) l).
Proof. rewrite map_map. apply map_ext. intros c. unfold cell_str. now rewrite write_erase. Qed.

Lemma split_line_word quotes del s p w r fs : chars_ok quotes blanks del -> at_split s (p ++ w) r ->
  Forall unit_text (map write (p ++ w)) -> between_words quotes blanks del (map write p) fs ->
  in_word quotes blanks del (map write w) -> w <> [] ->
  split_line quotes del s = Some (fs ++ [without quotes (written w)], zlen p).
Proof.
  intros Hok [Hl Hc] Hu Hp Hw Hne. unfold split_line, line in *.
  assert (Hz : zlen (cells s) = zlen (p ++ w) + zlen r) by (rewrite <- (zlen_map (fun c => unit_of (c_moji c))), Hl, zlen_app; reflexivity).
  unfold slice. rewrite Hc, Hz. pose proof (zlen_nonneg (p ++ w)). pose proof (zlen_nonneg r). replace (_ && _ && _) with true by lia.
  f_equal. rewrite Z.sub_0_r. cbn [Z.to_nat skipn]. rewrite cell_str_line, <- firstn_map, Hl.
  replace (Z.to_nat (zlen (p ++ w))) with (List.length (p ++ w)) by (unfold zlen; lia). rewrite firstn_app, Nat.sub_diag, firstn_all. cbn [firstn].
  rewrite app_nil_r, map_app. rewrite (split_loop_word quotes del Hok _ fs); [|assumption|assumption|destruct w; [easy|discriminate]|now rewrite <- map_app].
  rewrite zlen_map. unfold written. now rewrite flat_map_concat_map.
Qed.

Variable up : rune -> rune.
Lemma complete_effect quotes del P postfix s s' l p w r fs :
  complete up fold C quotes del P postfix s = Some (s', l) ->
  chars_ok quotes blanks del -> at_split s (p ++ w) r -> Forall unit_text (map write (p ++ w)) ->
  between_words quotes blanks del (map write p) fs -> in_word quotes blanks del (map write w) -> w <> [] ->
  exists names bases hits pre show,
    let word := without quotes (written w) in
    List_ P (fs ++ [word]) = Some (names, bases) /\ selected (begins fold word) names hits /\
    (2 <= zlen hits -> commonPrefix up hits = Some pre) /\
    completed E fold quotes blanks del postfix word p r s hits pre s' show /\
    (show = false -> l = []) /\
    (show = true -> zlen l = zlen hits /\
       selected (fun e => begins fold word (fst e)) (combine names (match bases with [] => names | _ => bases end)) (combine hits l)).
Proof.
  intros H Hok Hat Hu Hp Hw Hne. unfold complete in H. rewrite (split_line_word quotes del s p w r fs) in H by assumption.
  set (word := without quotes (written w)) in *. rewrite rev_app_distr in H. cbn [rev app] in H.
  destruct (List_ P (fs ++ [word])) as [[names bases]|] eqn:HL; [|discriminate]. cbv beta iota in H.
  set (bs := match bases with [] => names | _ :: _ => bases end) in *.
  destruct (removeUnmatches fold names bs word) as [[hits lb]|] eqn:HR; [|discriminate]. apply removeUnmatches_spec in HR as (R1 & R2 & R3).
  assert (Hlow : forall b, In b (blanks ++ del) -> 0 <= b < 128) by (intros b Hb; apply Hok; rewrite in_app_iff; tauto).
  assert (Hq0 : forall q0 qs, quotes = q0 :: qs -> encode_rune q0 = [q0]) by (intros q0 qs ->; apply ascii_encode, Hok; now left).
  destruct hits as [|x [|y hits]].
  - injection H as <- <-. exists names, bases, [], [], false. cbn zeta. split; [exact HL|]. split; [assumption|]. split; [intros Hz; exfalso; unfold zlen in Hz; cbn in Hz; lia|].
    split; [constructor|]. split; [reflexivity|discriminate].
  - exists names, bases, [x], [], false. cbn zeta. split; [exact HL|]. split; [assumption|]. split; [intros Hz; exfalso; unfold zlen in Hz; cbn in Hz; lia|].
    destruct (EqualFold fold word x) eqn:HE.
    + injection H as <- <-. apply EqualFold_alike in HE. split; [now constructor|]. split; [reflexivity|discriminate].
    + opt H. injection H as <- <-. apply EqualFold_not in HE. split; [|split; [reflexivity|discriminate]].
      eapply replace_word in Ev as (H1 & H2 & H3); [|eassumption|assumption].
      set (ins := match quotes with [] => x | _ :: _ => _ end) in *. apply (Cm_one _ _ _ _ _ _ _ _ _ _ x [] ins); try assumption.
      unfold ins, for_one. destruct quotes as [|q0 qs]; [right; split; [now left|reflexivity]|]. destruct del as [|d ds]; [right; split; [tauto|reflexivity]|].
      destruct (contains_any x (blanks ++ d :: ds)) eqn:Hca.
      * left. exists q0, qs. apply has_any_spec in Hca; [|assumption]. rewrite (Hq0 q0 qs eq_refl). repeat split; [discriminate|assumption].
      * right. split; [|reflexivity]. right. right. rewrite <- has_any_spec, Hca by assumption. discriminate.
  - destruct (commonPrefix up (x :: y :: hits)) as [pre|] eqn:HC; [|discriminate].
    assert (Hz : 2 <= zlen (x :: y :: hits)) by (rewrite !zlen_cons; pose proof (zlen_nonneg hits); lia).
    destruct (EqualFold fold word pre) eqn:HE.
    + injection H as <- <-. apply EqualFold_alike in HE. exists names, bases, (x :: y :: hits), pre, true. cbn zeta.
      split; [exact HL|]. split; [assumption|]. split; [auto|]. split; [now constructor|]. split; [discriminate|]. intros _. split; assumption.
    + opt H. injection H as <- <-. apply EqualFold_not in HE. exists names, bases, (x :: y :: hits), pre, false. cbn zeta.
      split; [exact HL|]. split; [assumption|]. split; [auto|]. split; [|split; [reflexivity|discriminate]].
      eapply replace_word in Ev as (H1 & H2 & H3); [|eassumption|assumption].
      set (ins := match quotes with [] => pre | _ :: _ => _ end) in *. apply (Cm_many _ _ _ _ _ _ _ _ _ _ _ pre ins); try assumption.
      assert (Hhq : hasToInsertQuotation (x :: y :: hits) (blanks ++ del) = true <-> Exists (has_any (blanks ++ del)) (x :: y :: hits)).
      { unfold hasToInsertQuotation. rewrite existsb_exists, Exists_exists. split; intros (z & Hz1 & Hz2); exists z; (split; [assumption|]); apply has_any_spec; assumption. }
      unfold ins, for_many. destruct quotes as [|q0 qs]; [right; split; [now left|reflexivity]|].
      destruct (hasToInsertQuotation _ _) eqn:Hh.
      * left. exists q0, qs. rewrite (Hq0 q0 qs eq_refl). repeat split. now apply Hhq.
      * right. split; [|reflexivity]. right. intros Hx. apply Hhq in Hx. discriminate.
Qed.

(** * The inserted text extends the word *)
Lemma runes_exact s : ~ In RuneError (runes s) -> encode (runes s) = s.
Proof.
  remember (List.length s) as n eqn:Hn. assert (Hl : (List.length s <= n)%nat) by lia. clear Hn. revert s Hl.
  induction n as [|n IH]; intros s Hl H.
  - destruct s; [reflexivity|cbn in Hl; lia].
  - destruct s as [|b t]; [reflexivity|]. rewrite runes_step in *. destruct (decode_rune_cases b t) as [[Hv He]|He].
    + rewrite encode_cons, IH.
      * symmetry. exact He.
      * rewrite skipn_length. pose proof (decode_rune_size b t). cbn [List.length] in *. lia.
      * intros Hi. apply H. now right.
    + rewrite He in H. exfalso. apply H. now left.
Qed.
Lemma runes_app_exact a b : ~ In RuneError (runes a) -> runes (a ++ b) = runes a ++ runes b.
Proof.
  intros H. apply runes_app_valid. rewrite <- (runes_exact a H). apply valid_utf8_encode, runes_valid.
Qed.
Lemma alike_in (f : rune -> rune) a b x : alike f a b -> In x (runes b) -> exists y, In y (runes a) /\ f y = f x.
Proof.
  unfold alike. intros H Hx. apply (in_map f) in Hx. rewrite <- H in Hx. apply in_map_iff in Hx as (y & Hy & Hi). eauto.
Qed.
Lemma alike_up word a : alike fold word a ->
  (forall x y, In x (runes word) -> In y (runes a) -> fold x = fold y -> up x = up y) -> alike up word a.
Proof.
  unfold alike. generalize (runes a). generalize (runes word). induction l as [|x l IH]; intros [|y m] H Hc; try discriminate; [reflexivity|].
  cbn in *. injection H as H1 H2. f_equal; [apply Hc; auto|]. apply IH; auto.
Qed.
Lemma extends_word word hits pre : hits <> [] -> even_case up hits -> commonPrefix up hits = Some pre -> Forall (begins fold word) hits ->
  ~ In RuneError (runes word) -> (forall r, fold r = fold RuneError -> r = RuneError) ->
  (forall a b, In a (runes word) -> In b (flat_map runes hits) -> fold a = fold b -> up a = up b) ->
  begins fold word pre.
Proof.
  intros Hne He Hp Hb Hn Hre Hcompat.
  destruct (commonPrefix_ok up hits Hne He) as (p & Hp' & Hvp & Hlc & Hmax). rewrite Hp in Hp'. injection Hp' as <-.
  assert (G : forall x, In x hits -> exists a b, x = a ++ b /\ zlen a = zlen word /\ alike fold word a /\ alike up word a /\
             ~ In RuneError (runes a) /\ runes x = runes a ++ runes b).
  { intros x Hx. eapply Forall_forall in Hb; [|exact Hx]. destruct Hb as (a & b & Hab & Hz & Ha). exists a, b.
    assert (Hna : ~ In RuneError (runes a)).
    { intros Hi. apply (alike_in fold word a _ Ha) in Hi as (y & Hy & Hf). apply Hre in Hf. now subst. }
    assert (Hr : runes x = runes a ++ runes b) by (rewrite Hab; now apply runes_app_exact).
    repeat split; try assumption. apply alike_up; [assumption|]. intros u v Hu Hv. apply Hcompat; [assumption|].
    apply in_flat_map. exists x. split; [assumption|]. rewrite Hr, in_app_iff. tauto. }
  assert (Hlen : zlen (runes word) <= zlen (runes pre)).
  { apply Hmax. intros x Hx. destruct (G x Hx) as (a & b & _ & _ & _ & Hu & _ & Hr). exists (map up (runes b)).
    rewrite Hr, map_app. unfold alike in Hu. now rewrite <- Hu. }
  destruct (commonPrefix_of up hits pre Hp Hne) as (m & r & Hm & _ & Hmr). destruct (G m Hm) as (a & b & Hab & Hz & Ha & Hu & Hna & Hr).
  assert (Hrm : runes m = runes pre ++ runes r) by (rewrite Hmr; now apply runes_app_valid).
  assert (Hla : (List.length (runes a) <= List.length (runes pre))%nat).
  { replace (List.length (runes a)) with (List.length (runes word)); [unfold zlen in Hlen; lia|].
    rewrite <- (map_length fold (runes word)), <- (map_length fold (runes a)). unfold alike in Ha. now rewrite Ha. }
  assert (Hra : runes a = firstn (List.length (runes a)) (runes pre)).
  { rewrite Hr in Hrm. apply (f_equal (firstn (List.length (runes a)))) in Hrm. rewrite !firstn_app, Nat.sub_diag, firstn_all in Hrm.
    replace (List.length (runes a) - List.length (runes pre))%nat with 0%nat in Hrm by lia. rewrite !firstn_O, !app_nil_r in Hrm. exact Hrm. }
  exists a, (encode (skipn (List.length (runes a)) (runes pre))). split; [|split; assumption].
  rewrite <- (runes_exact a Hna) at 1. rewrite <- encode_app. rewrite Hra at 1. rewrite firstn_skipn. symmetry. now apply encode_runes_valid.
Qed.
End Effect.
