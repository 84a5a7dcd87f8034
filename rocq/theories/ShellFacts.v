(** Facts about Shell.v. *)
From Verif Require Import Base Utf8 Moji Color Prompt Buffer Commands KeyMap Session Spec Repl Shell SpecShell.
Ltac lia := unfold rune in *; Lia.lia.

(** * Pieces *)
Lemma decode_prefix a b : a <> [] -> (snd (decode_rune (a ++ b)) <= List.length a)%nat -> decode_rune a = decode_rune (a ++ b).
Proof.
  intros Ha. destruct a as [|a0 a]; [easy|]. clear Ha. unfold decode_rune. cbn [app].
  destruct (in_range a0 0 127); [reflexivity|]. destruct (in_range a0 194 223).
  { destruct a as [|a1 a]; [|reflexivity]. cbn [app]. destruct b as [|b1 b]; [reflexivity|]. destruct (is_cont b1); cbn; [lia|reflexivity]. }
  destruct (in_range a0 224 239).
  { destruct a as [|a1 [|a2 a]]; [| |reflexivity]; cbn [app].
    - destruct b as [|b1 [|b2 b]]; try reflexivity. destruct (_ && _); cbn; [lia|reflexivity].
    - destruct b as [|b2 b]; try reflexivity. destruct (_ && _); cbn; [lia|reflexivity]. }
  destruct (in_range a0 240 244); [|reflexivity].
  destruct a as [|a1 [|a2 [|a3 a]]]; [| | |reflexivity]; cbn [app].
  - destruct b as [|b1 [|b2 [|b3 b]]]; try reflexivity. destruct (_ && _); cbn; [lia|reflexivity].
  - destruct b as [|b2 [|b3 b]]; try reflexivity. destruct (_ && _); cbn; [lia|reflexivity].
  - destruct b as [|b3 b]; try reflexivity. destruct (_ && _); cbn; [lia|reflexivity].
Qed.
Lemma pieces_fuel f : forall s g, (List.length s <= f)%nat -> (List.length s <= g)%nat -> pieces_loop f s = pieces_loop g s.
Proof.
  induction f as [|f IH]; intros s g Hf Hg; [destruct s; [destruct g; reflexivity|cbn in Hf; lia]|].
  destruct s as [|b t]; [destruct g; reflexivity|]. destruct g as [|g]; [cbn in Hg; lia|]. cbn [pieces_loop]. f_equal.
  pose proof (decode_rune_size b t) as Hs. apply IH; rewrite skipn_length; cbn [List.length] in *; lia.
Qed.
Lemma pieces_nil : pieces [] = []. Proof. reflexivity. Qed.
Lemma pieces_step b t : let s := b :: t in pieces s = (fst (decode_rune s), firstn (snd (decode_rune s)) s) :: pieces (skipn (snd (decode_rune s)) s).
Proof.
  cbn zeta. unfold pieces at 1. cbn [List.length pieces_loop]. f_equal. pose proof (decode_rune_size b t) as Hs.
  apply pieces_fuel; rewrite skipn_length; cbn [List.length]; lia.
Qed.
Lemma str_len_ind (P : str -> Prop) : (forall s, (forall t, (List.length t < List.length s)%nat -> P t) -> P s) -> forall s, P s.
Proof.
  intros H s. assert (G : forall n s, (List.length s <= n)%nat -> P s); [|exact (G (List.length s) s (le_n _))].
  induction n as [|n IH]; intros s0 Hs; apply H; intros t Ht; [lia|]. apply IH. lia.
Qed.
Lemma pieces_joined s : joined (pieces s) = s.
Proof.
  induction s as [s IH] using str_len_ind. destruct s as [|b t]; [reflexivity|]. rewrite pieces_step. unfold joined. cbn [flat_map snd].
  pose proof (decode_rune_size b t) as Hs. fold (joined (pieces (skipn (snd (decode_rune (b :: t))) (b :: t)))).
  rewrite IH by (rewrite skipn_length; cbn [List.length]; lia). apply firstn_skipn.
Qed.
Lemma pieces_runes s : map fst (pieces s) = runes s.
Proof.
  induction s as [s IH] using str_len_ind. destruct s as [|b t]; [reflexivity|]. rewrite pieces_step, runes_step. cbn [map fst]. f_equal.
  pose proof (decode_rune_size b t) as Hs. apply IH. rewrite skipn_length; cbn [List.length]; lia.
Qed.
(** A list of pieces as some string is cut into. *)
Definition cut (l : list (rune * str)) : Prop := pieces (joined l) = l.
Lemma cut_pieces s : cut (pieces s). Proof. unfold cut. now rewrite pieces_joined. Qed.
Lemma joined_app l k : joined (l ++ k) = joined l ++ joined k.
Proof. unfold joined. apply flat_map_app. Qed.
Lemma cut_nonempty p l : cut (p :: l) -> snd p <> [].
Proof.
  unfold cut. intros H Hp. destruct (joined (p :: l)) as [|b t] eqn:Hj; [rewrite pieces_nil in H; discriminate|].
  rewrite pieces_step in H. pose proof (decode_rune_size b t) as Hs. destruct (decode_rune (b :: t)) as [r n]. cbn [fst snd] in *.
  injection H as <- _. cbn [snd] in Hp. destruct n; [lia|discriminate].
Qed.
Lemma cut_tail p l : cut (p :: l) -> cut l.
Proof.
  unfold cut. intros H. destruct (joined (p :: l)) as [|b t] eqn:Hj; [rewrite pieces_nil in H; discriminate|].
  rewrite pieces_step in H. injection H as Hp Hl. rewrite <- Hl at 1. rewrite pieces_joined. exact Hl.
Qed.
Lemma cut_suffix l k : cut (l ++ k) -> cut k.
Proof. induction l as [|p l IH]; [exact (fun H => H)|]. intros H. apply IH. exact (cut_tail _ _ H). Qed.
Lemma cut_prefix k l : cut (l ++ k) -> cut l.
Proof.
  induction l as [|p l IH]; intros H; [reflexivity|]. pose proof (IH (cut_tail _ _ H)) as HL. pose proof (cut_nonempty _ _ H) as Hn.
  unfold cut in *. rewrite joined_app in H. change (joined (p :: l)) with (snd p ++ joined l) in *.
  destruct p as [r p]. cbn [snd] in *. destruct p as [|b t]; [easy|]. clear Hn.
  set (s := (b :: t) ++ joined l) in *.
  assert (Hd : decode_rune (s ++ joined k) = (r, List.length (b :: t))).
  { unfold s in *. rewrite <- !app_assoc in *. cbn [app] in *. rewrite pieces_step in H.
    pose proof (decode_rune_size b (t ++ joined l ++ joined k)) as Hs. destruct (decode_rune (b :: t ++ joined l ++ joined k)) as [r1 n].
    cbn [fst snd] in *. injection H as H1 H2 _. f_equal; [exact H1|]. apply (f_equal (@List.length Z)) in H2. rewrite firstn_length in H2. cbn [List.length] in *. lia. }
  assert (Hs : decode_rune s = (r, List.length (b :: t))).
  { rewrite <- Hd. apply decode_prefix; [discriminate|]. rewrite Hd. cbn [snd]. unfold s. rewrite app_length. lia. }
  change s with (b :: (t ++ joined l)) in *. rewrite pieces_step, Hs. cbn [fst snd]. f_equal.
  - f_equal. change (b :: t ++ joined l) with ((b :: t) ++ joined l). now rewrite firstn_app, firstn_all, Nat.sub_diag, firstn_O, app_nil_r.
  - change (b :: t ++ joined l) with ((b :: t) ++ joined l). rewrite skipn_app, skipn_all, Nat.sub_diag. exact HL.
Qed.
Lemma cut_runes l : cut l -> runes (joined l) = map fst l.
Proof. intros H. rewrite <- pieces_runes, H. reflexivity. Qed.
Lemma cut_mid a l c : cut (a ++ l ++ c) -> cut l.
Proof. intros H. apply cut_suffix in H. now apply cut_prefix in H. Qed.

(** * Fields *)
Lemma cut_blanks l : cut l -> forallb blank l = true -> blanks (joined l).
Proof. intros H Hb. unfold blanks. rewrite cut_runes by exact H. rewrite Forall_map. apply Forall_forall. intros p Hp. rewrite forallb_forall in Hb. now apply Hb. Qed.
Lemma cut_word l : cut l -> l <> [] -> forallb (fun p => negb (blank p)) l = true -> word (joined l).
Proof.
  intros H Hn Hb. split.
  - destruct l as [|p l]; [easy|]. apply cut_nonempty in H. unfold joined. cbn [flat_map]. intros K. now apply app_eq_nil in K as [K _].
  - rewrite cut_runes by exact H. rewrite Forall_map. apply Forall_forall. intros p Hp. rewrite forallb_forall in Hb. specialize (Hb p Hp).
    unfold blank in Hb. now destruct (is_space (fst p)).
Qed.
Lemma joined_one p : joined [p] = snd p.
Proof. unfold joined. cbn. apply app_nil_r. Qed.
Lemma fields_worded l : forall bl fld, cut (bl ++ fld ++ l) -> forallb blank bl = true -> forallb (fun p => negb (blank p)) fld = true ->
  worded (joined (bl ++ fld ++ l)) (fields_loop (joined fld) l).
Proof.
  induction l as [|p l IH]; intros bl fld Hc Hb Hf; cbn [fields_loop].
  - rewrite app_nil_r in *. destruct fld as [|q fld].
    + rewrite app_nil_r in *. constructor. now apply cut_blanks.
    + assert (W : word (joined (q :: fld))) by (apply cut_word; [exact (cut_suffix _ _ Hc)|discriminate|exact Hf]).
      rewrite joined_app. destruct (joined (q :: fld)) as [|z w] eqn:Hj; [now destruct W|].
      apply worded_last; [apply cut_blanks; [exact (cut_prefix _ _ Hc)|exact Hb]|exact W].
  - destruct (blank p) eqn:Hp.
    + destruct fld as [|q fld].
      * cbn [joined flat_map app]. specialize (IH (bl ++ [p]) []). cbn [app] in *. rewrite <- app_assoc in IH. apply IH; [exact Hc| |reflexivity].
        rewrite forallb_app, Hb. cbn. now rewrite Hp.
      * assert (W : word (joined (q :: fld))) by (apply cut_word; [exact (cut_mid _ _ _ Hc)|discriminate|exact Hf]).
        rewrite !joined_app. change (p :: l) with ([p] ++ l) in *. rewrite joined_app.
        destruct (joined (q :: fld)) as [|z w] eqn:Hj; [now destruct W|].
        assert (Hl : cut ([p] ++ l)) by (rewrite app_assoc in Hc; exact (cut_suffix _ _ Hc)).
        apply worded_more; [apply cut_blanks; [exact (cut_prefix _ _ Hc)|exact Hb]|exact W|rewrite joined_one; exact (cut_nonempty _ _ Hl)| |].
        -- apply cut_blanks; [exact (cut_prefix _ _ Hl)|]. cbn. now rewrite Hp.
        -- specialize (IH [] []). cbn [app joined flat_map] in IH. apply IH; [exact (cut_tail _ _ Hl)|reflexivity|reflexivity].
    + specialize (IH bl (fld ++ [p])). rewrite (joined_app fld [p]), joined_one, <- app_assoc in IH. cbn [app] in IH. apply IH; [exact Hc|exact Hb|].
      rewrite forallb_app, Hf. cbn. now rewrite Hp.
Qed.
Lemma Fields_worded s : worded s (Fields s).
Proof.
  unfold Fields. pose proof (fields_worded (pieces s) [] []) as H. cbn [app joined flat_map] in H.
  rewrite <- (pieces_joined s) at 1. apply H; [apply cut_pieces|reflexivity|reflexivity].
Qed.

(** * TrimSpace *)
Lemma drop_split l : exists b, l = b ++ drop_blanks l /\ forallb blank b = true.
Proof.
  induction l as [|p l [b [IH Hb]]]; [exists []; split; reflexivity|]. cbn [drop_blanks]. destruct (blank p) eqn:Hp.
  - exists (p :: b). cbn. rewrite Hp. split; [now f_equal|exact Hb].
  - exists []. split; reflexivity.
Qed.
Lemma drop_head l p k : drop_blanks l = p :: k -> blank p = false.
Proof. induction l as [|q l IH]; [discriminate|]. cbn. destruct (blank q) eqn:Hq; [exact IH|]. intros H. injection H as <- _. exact Hq. Qed.
Lemma forallb_rev {A} (f : A -> bool) l : forallb f (rev l) = forallb f l.
Proof. induction l as [|x l IH]; [reflexivity|]. cbn. rewrite forallb_app, IH. cbn. rewrite andb_true_r. apply andb_comm. Qed.
Lemma TrimSpace_trimmed s : trimmed s (TrimSpace s).
Proof.
  unfold TrimSpace. destruct (drop_split (pieces s)) as [b [Hl Hb]]. set (m := drop_blanks (pieces s)) in *.
  destruct (drop_split (rev m)) as [c [Hm Hc]]. remember (drop_blanks (rev m)) as k eqn:Hk0.
  assert (Hmm : m = rev k ++ rev c) by (rewrite <- (rev_involutive m), Hm, rev_app_distr; reflexivity).
  pose proof (cut_pieces s) as HC. rewrite Hl, Hmm in HC. exists (joined b), (joined (rev c)).
  split; [rewrite <- (pieces_joined s) at 1; rewrite Hl at 1; now rewrite Hmm, !joined_app|].
  split; [apply cut_blanks; [exact (cut_prefix _ _ HC)|exact Hb]|].
  split; [apply cut_blanks; [rewrite app_assoc in HC; exact (cut_suffix _ _ HC)|now rewrite forallb_rev]|].
  rewrite cut_runes by exact (cut_mid _ _ _ HC). destruct k as [|q k]; [left; reflexivity|]. right. split.
  - destruct (rev (q :: k)) as [|z t] eqn:Hr; [apply (f_equal (@List.length _)) in Hr; rewrite rev_length in Hr; discriminate|].
    exists (fst z). split; [reflexivity|]. cbn in Hmm. exact (drop_head (pieces s) z (t ++ rev c) Hmm).
  - exists (fst q). rewrite <- map_rev, rev_involutive. split; [reflexivity|]. exact (drop_head (rev m) q k (eq_sym Hk0)).
Qed.

Lemma decode_app_ok a b : a <> [] -> fst (decode_rune a) <> RuneError -> decode_rune (a ++ b) = decode_rune a.
Proof.
  intros Ha. destruct a as [|a0 a]; [easy|]. clear Ha. unfold decode_rune. cbn [app].
  destruct (in_range a0 0 127); [reflexivity|]. destruct (in_range a0 194 223); [destruct a as [|a1 a]; [easy|reflexivity]|].
  destruct (in_range a0 224 239); [destruct a as [|a1 [|a2 a]]; [easy|easy|reflexivity]|].
  destruct (in_range a0 240 244); [destruct a as [|a1 [|a2 [|a3 a]]]; [easy|easy|easy|reflexivity]|easy].
Qed.
Definition leading (c : str) : Prop := match c with [] => True | z :: _ => is_cont z = false end.
Lemma decode_app_lead a c : a <> [] -> leading c -> decode_rune (a ++ c) = decode_rune a.
Proof.
  intros Ha Hc. destruct c as [|z c]; [now rewrite app_nil_r|]. cbn [leading] in Hc.
  assert (Hr : forall lo hi, 128 <= lo -> hi <= 191 -> in_range z lo hi = false).
  { intros lo hi H1 H2. unfold is_cont, in_range in *. apply andb_false_iff in Hc. apply andb_false_iff. rewrite !Z.leb_gt in *. lia. }
  destruct a as [|a0 a]; [easy|]. clear Ha. unfold decode_rune. cbn [app].
  destruct (in_range a0 0 127); [reflexivity|].
  destruct (in_range a0 194 223); [destruct a as [|a1 a]; [cbn [app]; now rewrite Hc|reflexivity]|].
  destruct (in_range a0 224 239).
  { destruct a as [|a1 [|a2 a]]; cbn [app]; [| |reflexivity].
    - destruct c as [|z1 c]; [reflexivity|]. rewrite Hr; [reflexivity|destruct (a0 =? 224); lia|destruct (a0 =? 237); lia].
    - now rewrite Hc, andb_false_r. }
  destruct (in_range a0 240 244); [|reflexivity].
  destruct a as [|a1 [|a2 [|a3 a]]]; cbn [app]; [| | |reflexivity].
  - destruct c as [|z1 [|z2 c]]; try reflexivity. rewrite Hr; [reflexivity|destruct (a0 =? 240); lia|destruct (a0 =? 244); lia].
  - destruct c as [|z1 c]; try reflexivity. now rewrite Hc, andb_false_r.
  - now rewrite Hc, andb_false_r.
Qed.
Lemma pieces_app_gen (P : str -> Prop) c : (forall a, a <> [] -> P a -> decode_rune (a ++ c) = decode_rune a) ->
  (forall b t, P (b :: t) -> P (skipn (snd (decode_rune (b :: t))) (b :: t))) -> forall a, P a -> pieces (a ++ c) = pieces a ++ pieces c.
Proof.
  intros H1 H2 a. induction a as [a IH] using str_len_ind. intros Ha. destruct a as [|b t]; [reflexivity|].
  pose proof (decode_rune_size b t) as Hs. specialize (H1 (b :: t) ltac:(discriminate) Ha). specialize (H2 b t Ha).
  rewrite (pieces_step b t). cbn [app] in *. rewrite (pieces_step b (t ++ c)), H1. cbn [app].
  change (b :: t ++ c) with ((b :: t) ++ c). rewrite firstn_app, skipn_app.
  replace (snd (decode_rune (b :: t)) - List.length (b :: t))%nat with 0%nat by (cbn [List.length]; lia).
  rewrite firstn_O, skipn_O, app_nil_r. f_equal. apply IH; [rewrite skipn_length; cbn [List.length]; lia|exact H2].
Qed.
Lemma is_space_error : is_space RuneError = false. Proof. reflexivity. Qed.
Lemma pieces_blanks_app b c : blanks b -> pieces (b ++ c) = pieces b ++ pieces c.
Proof.
  apply (pieces_app_gen blanks).
  - intros a Ha Hb. apply decode_app_ok; [exact Ha|]. destruct a as [|x a]; [easy|]. unfold blanks in Hb. rewrite runes_step in Hb. apply Forall_inv in Hb.
    intros K. rewrite K in Hb. discriminate Hb.
  - intros x t Hb. unfold blanks in *. rewrite runes_step in Hb. exact (Forall_inv_tail Hb).
Qed.
Lemma is_space_range r : is_space r = true -> 0 <= r.
Proof. unfold is_space, in_range. rewrite ?orb_true_iff, ?andb_true_iff, ?Z.eqb_eq, ?Z.leb_le. lia. Qed.
Lemma blanks_leading c : blanks c -> leading c.
Proof.
  destruct c as [|z c]; [easy|]. unfold blanks. rewrite runes_step. intros H. pose proof (Forall_inv H) as Hz. clear H. cbn [leading].
  destruct (is_cont z) eqn:Hc; [exfalso|reflexivity]. revert Hz. unfold is_cont, in_range in Hc. apply andb_true_iff in Hc as [H1 H2].
  apply Z.leb_le in H1, H2. unfold decode_rune.
  replace (in_range z 0 127) with false by (symmetry; unfold in_range; apply andb_false_iff; rewrite !Z.leb_gt; lia).
  replace (in_range z 194 223) with false by (symmetry; unfold in_range; apply andb_false_iff; rewrite !Z.leb_gt; lia).
  replace (in_range z 224 239) with false by (symmetry; unfold in_range; apply andb_false_iff; rewrite !Z.leb_gt; lia).
  replace (in_range z 240 244) with false by (symmetry; unfold in_range; apply andb_false_iff; rewrite !Z.leb_gt; lia).
  intros Hz. discriminate Hz.
Qed.
Lemma pieces_app_blanks t c : blanks c -> pieces (t ++ c) = pieces t ++ pieces c.
Proof. intros Hc. apply (pieces_app_gen (fun _ => True)); [|easy|exact I]. intros a Ha _. apply decode_app_lead; [exact Ha|now apply blanks_leading]. Qed.
Lemma blanks_pieces b : blanks b -> forallb blank (pieces b) = true.
Proof. unfold blanks. rewrite <- pieces_runes, Forall_map. intros H. apply forallb_forall. rewrite Forall_forall in H. exact H. Qed.
Lemma drop_app b l : forallb blank b = true -> drop_blanks (b ++ l) = drop_blanks l.
Proof. induction b as [|p b IH]; [reflexivity|]. cbn. intros H. apply andb_true_iff in H as [Hp Hb]. rewrite Hp. now apply IH. Qed.
Lemma trimmed_TrimSpace s t : trimmed s t -> t = TrimSpace s.
Proof.
  intros [b [c [-> [Hb [Hc Ht]]]]]. unfold TrimSpace. rewrite (pieces_blanks_app b) by exact Hb. rewrite (pieces_app_blanks t c Hc).
  rewrite drop_app by now apply blanks_pieces. destruct Ht as [->|[[r [Hr Hrs]] [q [Hq Hqs]]]].
  - cbn [pieces pieces_loop List.length app]. rewrite <- (app_nil_r (pieces c)), drop_app by now apply blanks_pieces. reflexivity.
  - rewrite <- pieces_runes in Hr, Hq. rewrite <- map_rev in Hq. destruct (pieces t) as [|p l] eqn:Hp; [discriminate|].
    cbn in Hr. injection Hr as <-. cbn [app drop_blanks]. unfold blank at 1. rewrite Hrs.
    change (p :: l ++ pieces c) with ((p :: l) ++ pieces c). rewrite rev_app_distr, drop_app by (rewrite forallb_rev; now apply blanks_pieces).
    destruct (rev (p :: l)) as [|z m] eqn:Hz; [discriminate|]. cbn in Hq. injection Hq as <-. cbn [drop_blanks]. unfold blank. rewrite Hqs.
    rewrite <- Hz, rev_involutive, <- Hp. symmetry. apply pieces_joined.
Qed.

(** * The predictor of example160.go *)
Lemma predict_loop_right cur : forall l, 
  (exists l1 e l2, l = l1 ++ e :: l2 /\ TrimSpace e = cur ++ predict_trimmed_loop l cur /\ Forall (fun x => forall t, TrimSpace x <> cur ++ t) l1) \/
  predict_trimmed_loop l cur = [] /\ Forall (fun x => forall t, TrimSpace x <> cur ++ t) l.
Proof.
  induction l as [|h l IH]; [right; split; [reflexivity|constructor]|]. cbn [predict_trimmed_loop].
  destruct (has_prefix (TrimSpace h) cur) eqn:Hp.
  - left. apply has_prefix_spec in Hp as [t Ht]. exists [], h, l. split; [reflexivity|]. split; [|constructor]. rewrite Ht. f_equal.
    rewrite skipn_app, skipn_all, Nat.sub_diag. reflexivity.
  - assert (Hn : forall t, TrimSpace h <> cur ++ t) by (intros t Ht; rewrite (proj2 (has_prefix_spec _ _)) in Hp by (now exists t); discriminate).
    destruct IH as [[l1 [e [l2 [-> [He Hf]]]]]|[He Hf]].
    + left. exists (h :: l1), e, l2. split; [reflexivity|]. split; [exact He|now constructor].
    + right. split; [exact He|now constructor].
Qed.
Lemma predict_right h text k : continues_newest h text (predictTrimmed h text k).
Proof.
  intros cur Hcur. rewrite (trimmed_TrimSpace _ _ Hcur). unfold predictTrimmed. 
  assert (G : forall x, (forall t, TrimSpace x <> TrimSpace text ++ t) -> ~ (exists t, trimmed x (TrimSpace text ++ t))).
  { intros x Hx [t Ht]. apply (Hx t). symmetry. now apply trimmed_TrimSpace. }
  destruct (predict_loop_right (TrimSpace text) (rev h)) as [[l1 [e [l2 [Hh [He Hf]]]]]|[He Hf]].
  - left. exists (rev l2), e, (rev l1). split; [|split].
    + rewrite <- (rev_involutive h), Hh, rev_app_distr. cbn. now rewrite <- app_assoc.
    + rewrite <- He. apply TrimSpace_trimmed.
    + apply Forall_rev. eapply Forall_impl; [|exact Hf]. exact G.
  - right. split; [exact He|]. rewrite <- (rev_involutive h). apply Forall_rev. eapply Forall_impl; [|exact Hf]. exact G.
Qed.

Lemma predict_accept h text k b t : blanks b -> trimmed text t -> text = b ++ t -> predictTrimmed h text k <> [] ->
  exists e te, In e h /\ trimmed e te /\ trimmed (text ++ predictTrimmed h text k) te.
Proof.
  intros Hb Ht Htx Hp. destruct (predict_right h text k t Ht) as [[h1 [e [h2 [Hh [He _]]]]]|[K _]]; [|contradiction].
  exists e, (t ++ predictTrimmed h text k). split; [rewrite Hh; apply in_elt|]. split; [exact He|].
  destruct He as [b1 [c1 [_ [_ [_ He]]]]]. exists b, []. rewrite app_nil_r. split; [now rewrite Htx at 1; rewrite <- app_assoc|].
  split; [exact Hb|]. split; [constructor|exact He].
Qed.

(** * The tiny shell *)
Lemma shell_right S : forall turns h cur d h', shell S turns h cur = Some (d, h') ->
  exists recorded, h' = h ++ recorded /\ done_right d recorded /\ answers S turns h cur (entered d).
Proof.
  induction turns as [|t turns IH]; intros h cur d h' H; cbn [shell] in H.
  - injection H as <- <-. exists []. rewrite app_nil_r. repeat split. constructor.
  - destruct (readline _ _ _ _ _ _) as [[m s|s text e]|] eqn:HR; [discriminate| |discriminate].
    destruct e.
    2-4: injection H as <- <-; exists []; rewrite app_nil_r; split; [reflexivity|]; split; [reflexivity|]; eapply answers_error; [|exact HR]; discriminate.
    pose proof (Fields_worded text) as HW. destruct (Fields text) as [|f fs].
    + destruct (shell S turns h (cursor s)) as [[d1 h1]|] eqn:HS; [|discriminate]. injection H as <- <-.
      destruct (IH _ _ _ _ HS) as [r [Hh [Hd Ha]]]. exists r. split; [exact Hh|]. split.
      * cbn [done_right]. destruct d1 as [|[t1|f1] d1]; [split; [exact HW|exact Hd]|split; [exact HW|exact Hd]|destruct Hd].
      * change (entered (Entered text :: d1)) with (text :: entered d1). eapply answers_blank; [exact HW|exact HR|exact Ha].
    + destruct (shell S turns (container_add h text) (cursor s)) as [[d1 h1]|] eqn:HS; [|discriminate]. injection H as <- <-.
      destruct (IH _ _ _ _ HS) as [r [Hh [Hd Ha]]]. exists (text :: r). split; [rewrite Hh; unfold container_add; now rewrite <- app_assoc|]. split.
      * cbn [done_right]. split; [exact HW|]. split; [discriminate|]. now exists r.
      * change (entered (Entered text :: Ran (f :: fs) :: d1)) with (text :: entered d1). eapply answers_line; [exact HW|discriminate|exact HR|exact Ha].
Qed.
