(** The bytes that are sent, piece by piece. *)
From Verif Require Import Base Utf8 Moji Color Prompt Buffer Commands KeyMap Session MojiFacts
  Abs AbsRef AbsSess AbsSafe Safe Spec SpecTerm SpecVt Script SpecScript TermFacts SpecInject InjectTok.
Ltac lia := unfold rune in *; Lia.lia.

Lemma dec_loop_digits f : forall c, Forall (fun c => 48 <= c <= 57) (dec_loop f c).
Proof.
  induction f as [|f IH]; intros c; cbn [dec_loop]; [constructor|]. pose proof (Z.mod_pos_bound c 10 ltac:(lia)).
  apply Forall_app. split; [destruct (9 <? c); [apply IH|constructor]|]. repeat constructor; lia.
Qed.
Lemma dec_chars c : Forall (fun c => 48 <= c <= 57 \/ c = 45) (dec c).
Proof.
  assert (G : forall c, Forall (fun c => 48 <= c <= 57 \/ c = 45) (dec_loop 20 c)).
  { intros z. eapply Forall_impl; [|apply dec_loop_digits]. cbn beta. auto. }
  unfold dec. destruct (c <? 0); [constructor; [now right|apply G]|apply G].
Qed.
Lemma dec_pos c : 0 <= c -> Forall (fun c => 48 <= c <= 57) (dec c).
Proof. intros H. unfold dec. replace (c <? 0) with false by lia. apply dec_loop_digits. Qed.

Section WithCfg.
Variable S : scfg.
Notation C := (base S).
Notation E := (cE C).
Variable lf : Z -> str.
Hypothesis HW : forall r, 127 <= r <= 159 -> rw E r = 0.

Definition piece (b : str) : Prop := own S lf b \/ harmless b \/ attached E b.
Definition pieces (b : str) : Prop := exists ps, b = List.concat ps /\ Forall piece ps.
Lemma pieces_nil : pieces []. Proof. exists []. split; [reflexivity|constructor]. Qed.
Lemma pieces_app a b : pieces a -> pieces b -> pieces (a ++ b).
Proof. intros (p & -> & Hp) (q & -> & Hq). exists (p ++ q). rewrite concat_app. split; [reflexivity|]. apply Forall_app. auto. Qed.
Lemma pieces_one b : piece b -> pieces b.
Proof. intros H. exists [b]. cbn. rewrite app_nil_r. split; [reflexivity|]. now constructor. Qed.
Lemma harmless_ascii b : Forall (fun r => 32 <= r < 127) b -> harmless b.
Proof.
  intros H. exists b. split; [|eapply Forall_impl; [|exact H]; cbn beta; intros r Hr; unfold valid_rune, control; lia].
  induction H as [|r l Hr _ IH]; [reflexivity|]. rewrite encode_cons, <- IH. unfold encode_rune.
  replace (valid_rune r) with true by (unfold valid_rune; lia). replace (r <? 128) with true by lia. reflexivity.
Qed.
Lemma harmless_rune r : vr r -> control r = false -> harmless (encode_rune r).
Proof. intros H1 H2. exists [r]. split; [cbn; now rewrite app_nil_r|]. constructor; [split; [exact H1|exact H2]|constructor]. Qed.
Lemma pieces_save n b : pieces b -> pieces (saveCursorAfterN n ++ b ++ restoreCursor).
Proof.
  intros H. unfold saveCursorAfterN. rewrite <- !app_assoc.
  apply pieces_app. { apply pieces_one. right; left. apply harmless_ascii. apply Forall_forall. intros x Hx. apply repeat_spec in Hx. lia. }
  apply pieces_app. { apply pieces_one. left. apply own_save. }
  apply pieces_app.
  { induction (Z.to_nat n) as [|k IH]; [apply pieces_nil|]. cbn [repeat]. apply (pieces_app [8]); [apply pieces_one; left; apply own_back|exact IH]. }
  apply pieces_app; [exact H|]. apply pieces_one. left. apply own_restore.
Qed.

(** The units that come out of a text. *)
Definition linked (m : moji) : Prop :=
  match m with
  | MZwj a b => joins E 8205 = true
  | MMod a (MRaw n) | MVar a (MRaw n) => joins E n = true
  | MMod _ _ | MVar _ _ => False
  | _ => True
  end.
Definition deep (m : moji) : Prop := (fix go (m : moji) := linked m /\ match m with MZwj a b => go a | _ => True end) m.
Lemma deep_eq m : deep m = (linked m /\ match m with MZwj a b => deep a | _ => True end).
Proof. destruct m; reflexivity. Qed.
Definition good (m : moji) : Prop := Forall vr (mrunes m) /\ shape E m /\ deep m.
Lemma deep_fresh r pos : deep (rune2moji E r pos).
Proof. unfold rune2moji. repeat (destruct (_ : bool); [split; exact I|]). split; exact I. Qed.
Lemma joins_zwj r : isZeroWidthJoin E r = true -> joins E 8205 = true.
Proof. unfold isZeroWidthJoin, joins. intros H. apply andb_true_iff in H as [-> _]. reflexivity. Qed.
Lemma joins_vs r : isVariationSelectorLike E r = true -> joins E r = true.
Proof. unfold isVariationSelectorLike, joins. intros ->. now rewrite orb_true_r. Qed.
Lemma joins_mod r : isEmojiModifier E r = true -> joins E r = true.
Proof. unfold isEmojiModifier, joins, in_range. intros H. apply andb_true_iff in H as [-> H]. apply andb_true_iff in H as [-> ->]. now rewrite orb_true_r. Qed.
Lemma deep_units rs : forall last, (forall m, last = Some m -> deep m) -> Forall deep (units_from E last rs).
Proof.
  induction rs as [|r|r n rs IH1 IH2] using rune_list_ind; intros last Hl.
  - destruct last as [m|]; cbn; auto.
  - destruct last as [m|].
    + specialize (Hl m eq_refl). rewrite units_some1. destruct (isZeroWidthJoin E r) eqn:Hz; [|destruct (isVariationSelectorLike E r) eqn:Hv; [|destruct (isEmojiModifier E r) eqn:Hm]].
      * constructor; [|constructor]. rewrite deep_eq. split; [eapply joins_zwj; exact Hz|exact Hl].
      * constructor; [|constructor]. split; [apply joins_vs; exact Hv|exact I].
      * constructor; [|constructor]. split; [apply joins_mod; exact Hm|exact I].
      * repeat constructor; auto; apply deep_fresh.
    + rewrite units_none. constructor; [apply deep_fresh|constructor].
  - destruct last as [m|].
    + specialize (Hl m eq_refl). rewrite units_some2. destruct (isZeroWidthJoin E r) eqn:Hz; [|destruct (isVariationSelectorLike E r) eqn:Hv; [|destruct (isEmojiModifier E r) eqn:Hm]].
      * apply IH1. intros m' [= <-]. rewrite deep_eq. split; [eapply joins_zwj; exact Hz|exact Hl].
      * apply IH2. intros m' [= <-]. split; [apply joins_vs; exact Hv|exact I].
      * apply IH2. intros m' [= <-]. split; [apply joins_mod; exact Hm|exact I].
      * constructor; [exact Hl|]. apply IH2. intros m' [= <-]. apply deep_fresh.
    + rewrite units_none. apply IH2. intros m' [= <-]. apply deep_fresh.
Qed.
Lemma good_units t : Forall good (units E t).
Proof.
  pose proof (units_self E t) as H1. pose proof (deep_units (runes t) None ltac:(discriminate)) as H2. fold (units E t) in H2.
  rewrite Forall_forall in *. intros m Hm. destruct (H1 m Hm) as [A B]. split; [exact A|]. split; [exact (self_shape E (fun _ => 0) (fun _ st => st) m (H1 m Hm))|exact (H2 m Hm)].
Qed.
Lemma deep_erase m : deep (erase m) <-> deep m.
Proof.
  induction m; cbn [erase]; try tauto.
  - rewrite (deep_eq (MZwj (erase m1) (erase m2))), (deep_eq (MZwj m1 m2)). cbn [linked]. tauto.
  - rewrite (deep_eq (MMod (erase m1) (erase m2))), (deep_eq (MMod m1 m2)). destruct m2; cbn [linked erase]; tauto.
  - rewrite (deep_eq (MVar (erase m1) (erase m2))), (deep_eq (MVar m1 m2)). destruct m2; cbn [linked erase]; tauto.
Qed.
Lemma good_erase m : good (erase m) -> good m.
Proof. intros (H1 & H2 & H3). rewrite mrunes_erase in H1. split; [exact H1|]. split; [exact (proj1 (shape_erase E (fun _ => 0) (fun _ st => st) m) H2)|now apply deep_erase]. Qed.

Lemma attached_written m n : vr n -> joins E n = true -> attached E (write m ++ write (MRaw n)).
Proof.
  intros _ Hj. exists (mrunes m ++ [n]). rewrite encode_app, <- write_mrunes. split; [cbn; now rewrite app_nil_r|]. exists n. split; [apply in_app_iff; right; now left|exact Hj].
Qed.
Lemma pieces_print m : good m -> forall b, print E m = Some b -> pieces b.
Proof.
  induction m; intros (Hv & Hs & Hd) b H; cbn [print] in H; try (apply some_inj in H; subst b).
  - apply pieces_one; right; left. apply (slice_spaces (fun _ st => st)) in H as [H _]. now apply harmless_ascii.
  - apply pieces_one; right; left. cbn [mrunes shape] in Hv, Hs. inversion Hv; subst. apply harmless_rune; [assumption|].
    destruct (control r) eqn:Hi; [|reflexivity]. unfold control in Hi. assert (127 <= r <= 159) by lia. specialize (HW r). lia.
  - apply pieces_one; right; left. assert (0 <= r < 4294967296) as Hr by (inversion Hv as [|? ? Hr]; unfold vr, valid_rune in Hr; lia).
    destruct (hexX_ok r Hr) as (_ & _ & Hh). apply harmless_ascii.
    constructor; [lia|]. apply Forall_app. split; [eapply Forall_impl; [|exact Hh]; unfold hex_char; cbn beta; lia|]. repeat constructor; lia.
  - apply pieces_one; right; left. cbn [mrunes shape] in Hv, Hs. inversion Hv; subst. apply harmless_rune; [assumption|]. unfold control. lia.
  - apply pieces_one; right; left. cbn [shape] in Hs. apply harmless_ascii. repeat (constructor; [rewrite ?Z.mod_small by lia; lia|]). constructor.
  - cbn [mrunes shape] in Hv, Hs. inversion Hv; subst. apply pieces_save. apply pieces_one. right; left. apply harmless_rune; [assumption|]. unfold control. lia.
  - cbn [mrunes shape] in Hv, Hs. destruct Hs as [Hs [n ->]]. apply Forall_app in Hv as [Hv1 Hv2]. rewrite deep_eq in Hd. destruct Hd as [Hj Hd]. cbn [linked] in Hj.
    assert (G : forall b, (let* pa := print E m1 in let* pb := print E (MRaw n) in Some (pa ++ encode_rune zeroWidthJoinRune ++ pb)) = Some b -> pieces b).
    { intros b' G. destruct (print E m1) as [pa|] eqn:Hp; [|discriminate]. cbn [print] in G. injection G as <-.
      apply pieces_app; [apply IHm1; [split; [exact Hv1|split; [exact Hs|exact Hd]]|reflexivity]|]. apply pieces_one. right; right.
      exists [8205; n]. split; [cbn [encode flat_map]; now rewrite app_nil_r|]. exists 8205. split; [now left|exact Hj]. }
    destruct m1; try exact (G b H). apply some_inj in H. subst b.
    replace (write (MFlag r) ++ encode_rune zeroWidthJoinRune ++ write (MRaw n) ++ restoreCursor) with (write (MZwj (MFlag r) (MRaw n)) ++ restoreCursor)
      by (cbn [write]; now rewrite <- !app_assoc).
    apply pieces_save. apply pieces_one. right; right. exists (mrunes (MZwj (MFlag r) (MRaw n))). split; [apply write_mrunes|]. exists 8205. split; [cbn; auto|exact Hj].
  - cbn [mrunes shape] in Hv, Hs. destruct Hs as [Hs [n ->]]. apply Forall_app in Hv as [Hv1 Hv2]. destruct Hd as [Hj _]. cbn [linked] in Hj.
    apply pieces_one. right; right. apply attached_written; [now inversion Hv2|exact Hj].
  - cbn [mrunes shape] in Hv, Hs. destruct Hs as [Hs [n ->]]. apply Forall_app in Hv as [Hv1 Hv2]. destruct Hd as [Hj _]. cbn [linked] in Hj.
    rewrite app_assoc with (l := write m1). apply pieces_save. apply pieces_one. right; right. apply attached_written; [now inversion Hv2|exact Hj].
Qed.
Lemma colour_digits k : forall c, Forall (fun c => 48 <= c <= 57 \/ c = 59) (color_write_loop k c).
Proof.
  induction k as [|k IH]; intros c; cbn [color_write_loop]; (apply Forall_app; split; [eapply Forall_impl; [|apply dec_pos, Z.land_nonneg; right; discriminate]; cbn beta; auto|]).
  - constructor.
  - destruct k; [constructor|]. constructor; [now right|]. apply IH.
Qed.
Lemma pieces_tok t : okt C good t -> pieces (tok_bytes E lf t).
Proof.
  intros H. destruct t; cbn [tok_bytes okt] in *; try (apply pieces_one; left; constructor; fail); try (apply pieces_nil).
  - destruct (print E m) as [b|] eqn:Hp; [|apply pieces_nil]. eapply pieces_print; [apply good_erase; exact H|exact Hp].
  - unfold color_write. destruct (c <=? 0); [apply pieces_nil|]. apply pieces_one. left. unfold color_body. rewrite app_assoc. rewrite <- app_assoc. apply own_colour. apply colour_digits.
  - apply pieces_one. left. apply (own_column S lf (dec col)). apply dec_chars.
  - apply pieces_one. left. destruct H as [-> | ->]; constructor.
  - apply pieces_one. left. destruct H as [-> | ->].
    + replace (fst (callPromptWriter E (prompt C))) with (match prompt C with None => [10; 62; 32] | Some t => t end) by (unfold callPromptWriter; destruct (prompt C); reflexivity). apply own_prompt.
    + replace (last_line_prompt (prompt C)) with (nl_to_cr (13 :: match prompt C with None => [62; 32] | Some t => t end)) by (unfold last_line_prompt; destruct (prompt C); reflexivity). apply own_prompt_again.
Qed.
Lemma pieces_out ts : Forall (okt C good) ts -> pieces (out_bytes E lf ts).
Proof. induction 1 as [|t ts Ht _ IH]; [apply pieces_nil|]. apply pieces_app; [now apply pieces_tok|exact IH]. Qed.

Hypothesis HB : silent_user S.
Lemma sent d cur w cl es x : readline S d cur w cl es = Some x -> pieces (out_bytes E lf (out (buf_of x))).
Proof. intros H. apply pieces_out. apply (readline_ok S good good_units HB) in H. apply H. Qed.
Lemma sent_safe d cur w cl es x : (forall r, joins E r = false) -> readline S d cur w cl es = Some x ->
  exists ps, out_bytes E lf (out (buf_of x)) = List.concat ps /\ Forall (fun b => own S lf b \/ harmless b) ps.
Proof.
  intros HJ H. apply sent in H as (ps & H1 & H2). exists ps. split; [exact H1|]. eapply Forall_impl; [|exact H2]. intros b [Hb|[Hb|Hb]]; [now left|now right|].
  destruct Hb as (rs & _ & r & _ & Hr). now rewrite HJ in Hr.
Qed.
End WithCfg.
