(** Kill and yank, quoting, blanks, resizing. *)
From Verif Require Import Base Utf8 Moji Color Prompt Buffer Commands KeyMap Session SpecScript MojiFacts
  Abs AbsRef AbsSess AbsSafe AbsInv Safe SafeSess Plain Spec TextFacts Reach SafetyFacts CmdFacts WordFacts EditFacts EditProps LineInv.

Lemma runes_write E m : self E m -> runes (write m) = mrunes m.
Proof.
  intros H. pose proof (runes_text E [m] (Forall_cons _ H (Forall_nil _))) as G.
  cbn [flat_map] in G. rewrite app_nil_r in G. rewrite <- G. unfold text. cbn. now rewrite app_nil_r.
Qed.
Lemma clean_head S m : self (cE (base S)) m -> clean (cE (base S)) m -> headok (cE (base S)) m.
Proof.
  unfold clean, headok, first_rune. intros H. rewrite (runes_write _ m H), joins_like.
  destruct (mrunes m) eqn:Hm; [now apply mrunes_nonempty in Hm|]. exact (fun x => x).
Qed.
Lemma resplit_clean S l : Forall (self (cE (base S))) l -> Forall (clean (cE (base S))) l ->
  split (cE (base S)) (written l) = l.
Proof.
  intros H1 H2. rewrite (split_units (base S)). apply units_text; [exact H1|].
  rewrite Forall_forall in *. intros m Hm. apply clean_head; auto.
Qed.

Lemma trim_right_id t : no_final_break t -> trim_right t = t.
Proof.
  intros H. unfold trim_right. destruct (rev t) as [|b l] eqn:Hr.
  - apply (f_equal (@rev Z)) in Hr. rewrite rev_involutive in Hr. now rewrite Hr.
  - cbn [drop_while]. assert (Ht : t = rev l ++ [b]) by (rewrite <- (rev_involutive t), Hr; reflexivity).
    destruct (H _ _ Ht) as (H1 & H2 & H3). unfold is_trim. replace (_ || _) with false by lia. now rewrite <- Hr, rev_involutive.
Qed.

Section WithSess.
Variable S : scfg.
Notation C := (base S).
Notation E := (cE C).

Lemma yank_back s1 s2 r p d q : exec C CYank s1 = Some (s2, r) -> at_split s1 p q -> clip s1 = Some (written d) ->
  Forall (self E) d -> Forall (clean E) d -> no_final_break (written d) -> at_split s2 (p ++ d) q.
Proof.
  intros H1 H2 H3 H4 H5 H6. destruct (yank C s1 s2 r p q (written d) CYank trim_right) as (G & _); auto.
  rewrite trim_right_id, resplit_clean in G; auto.
Qed.

Definition killing (c : cmd) : Prop := c = CKillLine \/ c = CUnixLineDiscard \/ c = CUnixWordRubout.

(** What a killing command puts in the clipboard, and where it was. *)
Lemma kill_shape c s s1 r p q : killing c -> exec C c s = Some (s1, r) -> at_split s p q ->
  exists p' d q', line s = p' ++ d ++ q' /\ at_split s1 p' q' /\ copied (written d) s s1.
Proof.
  intros [->|[->| ->]] H Hs.
  - destruct (kill_line C _ _ _ _ _ H Hs) as (H1 & H2 & _). exists p, q, []. rewrite app_nil_r. split; [apply Hs|auto].
  - destruct (line_discard C _ _ _ _ _ H Hs) as (H1 & H2 & _). exists [], p, q. split; [apply Hs|auto].
  - destruct (word_rubout C _ _ _ _ _ H Hs) as (p0 & b & u & sk & w & Hp & _ & _ & Hw & H1 & H2 & _).
    exists (u ++ sk), (w ++ b), q. split; [|auto]. destruct Hs as [Hl _]. destruct Hw as (Hw & _).
    rewrite Hl, Hp, Hw, <- !app_assoc. reflexivity.
Qed.

Lemma cursor_split s : in_bounds s -> exists p q, at_split s p q.
Proof.
  intros [H1 H2]. exists (firstn (Z.to_nat (cursor s)) (line s)), (skipn (Z.to_nat (cursor s)) (line s)).
  split; [now rewrite firstn_skipn|]. rewrite zlen_firstn. unfold line. rewrite zlen_map. lia.
Qed.

Lemma kill_yank m c s s1 s2 r1 r2 p q t0 : scripted S -> reached S (Running m s) -> killing c ->
  at_split s p q -> clip s = Some t0 ->
  exec C c s = Some (s1, r1) -> exec C CYank s1 = Some (s2, r2) ->
  Forall (clean E) (line s) -> (forall d, clip s1 = Some d -> no_final_break d) ->
  line s2 = line s.
Proof.
  intros HB HR Hk Hs Hcl H1 H2 Hcln Hbr. destruct (kill_shape c s s1 r1 p q Hk H1 Hs) as (p' & d & q' & Hl & Hs1 & Hc).
  assert (Hc1 : clip s1 = Some (written d)) by (unfold copied in Hc; rewrite Hcl in Hc; exact Hc).
  pose proof (self_reached S _ HB HR) as Hself. cbn [buf_of] in Hself. rewrite Hl in Hself, Hcln.
  apply Forall_app in Hself as [_ Hself]. apply Forall_app in Hself as [Hself _].
  apply Forall_app in Hcln as [_ Hcln]. apply Forall_app in Hcln as [Hcln _].
  destruct (yank_back s1 s2 r2 p' d q' H2 Hs1 Hc1 Hself Hcln (Hbr _ Hc1)) as [G _]. now rewrite G, Hl, <- app_assoc.
Qed.

(** Resizing. *)
Lemma resize_same w s s' : on_resize S w s = Some s' -> same_content s s' /\ cursor s' = cursor s.
Proof.
  intros H. apply on_resize_ref in H. apply abs_fields in H as F. split.
  - unfold same_content. rewrite (f_line _ _ F), (f_undoes _ _ F), (f_clip _ _ F), (f_modh _ _ F), (f_hptr _ _ F), (f_pending _ _ F).
    rewrite aupdate_line, aupdate_undo, aupdate_clip, aupdate_modh, EditFacts.aupdate_hptr, aupdate_pend. now repeat split.
  - rewrite (f_cursor _ _ F), aupdate_cur. reflexivity.
Qed.
End WithSess.

(** Quoting. *)
Definition nocr (t : str) : Prop := match t with 10 :: _ => False | _ => True end.
Lemma quote_lines_nocr b t : b <> 13 \/ (forall c t', t = c :: t' -> c <> 10) -> quote_lines (b :: t) = b :: quote_lines t.
Proof.
  intros H. destruct t as [|c t]; [reflexivity|]. rewrite quote_lines_cons2.
  replace ((b =? 13) && (c =? 10)) with false; [reflexivity|]. destruct H as [H|H]; [lia|]. specialize (H c t eq_refl). lia.
Qed.
Lemma unq_quote t : unquote true (34 :: 34 :: t) = 34 :: unquote true t. Proof. reflexivity. Qed.
Lemma unq_other i b t : b <> 34 -> unquote i (b :: t) = b :: unquote i t.
Proof. intros H. cbn. now replace (b =? 34) with false by lia. Qed.
Lemma unq_close b t : b <> 34 -> unquote true (34 :: b :: t) = unquote false (b :: t).
Proof. intros H. cbn. now replace (b =? 34) with false by lia. Qed.
Lemma unquote_inner n : forall t, (List.length t < n)%nat -> unquote true (quote_lines (double_quotes t ++ [34])) = t.
Proof.
  induction n as [|n IH]; intros t Hn; [lia|]. destruct t as [|b t]; [reflexivity|].
  cbn [List.length] in Hn. change (double_quotes (b :: t)) with ((if b =? 34 then [34; 34] else [b]) ++ double_quotes t).
  destruct (b =? 34) eqn:Hb.
  - apply Z.eqb_eq in Hb. subst b. cbn [app]. rewrite quote_lines_nocr by (left; lia). rewrite quote_lines_nocr by (left; lia).
    rewrite unq_quote, IH by lia. reflexivity.
  - cbn [app]. destruct t as [|c t].
    + cbn. rewrite andb_false_r. cbn. now rewrite Hb.
    + destruct ((b =? 13) && (c =? 10)) eqn:Hcr.
      * apply andb_true_iff in Hcr as [H1 H2]. apply Z.eqb_eq in H1, H2. subst b c.
        change (double_quotes (10 :: t)) with (10 :: double_quotes t). cbn [app]. rewrite quote_lines_cons2.
        change ((13 =? 13) && (10 =? 10)) with true. cbn iota. cbn [app].
        rewrite unq_close by lia. rewrite !unq_other by lia. cbn [List.length] in Hn.
        change (unquote false (34 :: ?l)) with (unquote true l). rewrite IH by lia. reflexivity.
      * rewrite quote_lines_nocr.
        -- rewrite unq_other by lia. rewrite IH by (cbn [List.length] in *; lia). reflexivity.
        -- destruct (Z.eq_dec b 13) as [->|Hn13]; [|now left]. right. intros x t' Hx.
           change (double_quotes (c :: t)) with ((if c =? 34 then [34; 34] else [c]) ++ double_quotes t) in Hx.
           destruct (c =? 34); cbn [app] in Hx; injection Hx as <- _; lia.
Qed.
Lemma unquote_yank t : In 32 t -> (forall t', t <> 34 :: t') -> unquote false (yank_quote t) = t.
Proof.
  intros H1 H2. unfold yank_quote.
  assert (Hb : existsb (Z.eqb 32) t = true) by (apply existsb_exists; exists 32; split; [exact H1|reflexivity]).
  rewrite Hb. assert (Hp : has_prefix t [34] = false).
  { destruct t as [|b t]; [reflexivity|]. cbn. destruct (b =? 34) eqn:Hx; [|reflexivity]. apply Z.eqb_eq in Hx. subst b. exfalso. now apply (H2 t). }
  rewrite Hp. cbn [andb negb]. cbn [app]. rewrite quote_lines_nocr by (left; lia).
  change (unquote false (34 :: ?l)) with (unquote true l). apply (unquote_inner (Datatypes.S (List.length t))); lia.
Qed.
Lemma out_other i b t : b <> 34 -> (i = true -> ~ (b = 13 /\ hd 0 t = 10)) -> breaks_outside i t -> breaks_outside i (b :: t).
Proof. intros H H1 H2. cbn. replace (b =? 34) with false by lia. auto. Qed.
Lemma out_close b t : b <> 34 -> breaks_outside false (b :: t) -> breaks_outside true (34 :: b :: t).
Proof. intros H. cbn. now replace (b =? 34) with false by lia. Qed.
Lemma quote_lines_hd t : hd 0 (quote_lines t) = hd 0 t \/ (hd 0 t = 13 /\ hd 0 (quote_lines t) = 34).
Proof. destruct t as [|b [|c t]]; [now left|now left|]. rewrite quote_lines_cons2. destruct (_ && _) eqn:H; [right|now left]. cbn. split; [lia|reflexivity]. Qed.
Lemma breaks_inner n : forall t, (List.length t < n)%nat -> breaks_outside true (quote_lines (double_quotes t ++ [34])).
Proof.
  induction n as [|n IH]; intros t Hn; [lia|]. destruct t as [|b t]; [exact I|].
  cbn [List.length] in Hn. change (double_quotes (b :: t)) with ((if b =? 34 then [34; 34] else [b]) ++ double_quotes t).
  destruct (b =? 34) eqn:Hb.
  - apply Z.eqb_eq in Hb. subst b. cbn [app]. rewrite quote_lines_nocr by (left; lia). rewrite quote_lines_nocr by (left; lia). apply IH. lia.
  - cbn [app]. destruct t as [|c t].
    + cbn. rewrite andb_false_r. cbn. rewrite Hb. split; [|exact I]. intros _ [_ H]. discriminate.
    + destruct ((b =? 13) && (c =? 10)) eqn:Hcr.
      * apply andb_true_iff in Hcr as [H1 H2]. apply Z.eqb_eq in H1, H2. subst b c.
        change (double_quotes (10 :: t)) with (10 :: double_quotes t). cbn [app]. rewrite quote_lines_cons2.
        change ((13 =? 13) && (10 =? 10)) with true. cbn iota. cbn [app].
        apply out_close; [lia|]. apply out_other; [lia|discriminate|]. apply out_other; [lia|discriminate|]. change (breaks_outside true (quote_lines (double_quotes t ++ [34]))). apply IH. cbn [List.length] in Hn. lia.
      * assert (Hd : hd 0 (double_quotes (c :: t) ++ [34]) = c).
        { change (double_quotes (c :: t)) with ((if c =? 34 then [34; 34] else [c]) ++ double_quotes t). destruct (Z.eqb_spec c 34) as [->|_]; reflexivity. }
        rewrite quote_lines_nocr.
        -- apply out_other; [lia| |apply IH; cbn [List.length] in *; lia]. intros _ [H1 H2]. destruct (quote_lines_hd (double_quotes (c :: t) ++ [34])) as [H|[_ H]]; rewrite H in H2; [rewrite Hd in H2; lia|discriminate].
        -- destruct (Z.eq_dec b 13) as [->|Hn13]; [|now left]. right. intros x t' Hx. rewrite Hx in Hd. cbn in Hd. lia.
Qed.
Lemma breaks_yank t : In 32 t -> (forall t', t <> 34 :: t') -> breaks_outside false (yank_quote t).
Proof.
  intros H1 H2. unfold yank_quote.
  assert (Hb : existsb (Z.eqb 32) t = true) by (apply existsb_exists; exists 32; split; [exact H1|reflexivity]).
  rewrite Hb. assert (Hp : has_prefix t [34] = false).
  { destruct t as [|b t]; [reflexivity|]. cbn. destruct (b =? 34) eqn:Hx; [|reflexivity]. apply Z.eqb_eq in Hx. subst b. exfalso. now apply (H2 t). }
  rewrite Hp. cbn [andb negb]. cbn [app]. rewrite quote_lines_nocr by (left; lia).
  change (breaks_outside true (quote_lines (double_quotes t ++ [34]))). apply (breaks_inner (Datatypes.S (List.length t))); lia.
Qed.
Lemma yank_quote_same t : ~ In 32 t \/ (exists t', t = 34 :: t') -> yank_quote t = t.
Proof.
  intros H. unfold yank_quote. replace (_ && _) with false; [reflexivity|]. symmetry. destruct H as [H|(t' & ->)].
  - replace (existsb (Z.eqb 32) t) with false; [reflexivity|]. symmetry. apply not_true_iff_false. intros G.
    apply existsb_exists in G as (x & Hx & Hx2). apply Z.eqb_eq in Hx2. now subst x.
  - assert (G : has_prefix (34 :: t') [34] = true) by (cbn; now destruct t'). rewrite G. apply andb_false_r.
Qed.

(** Blanks. *)
Lemma blank_unit E m r : self E m -> valid_rune r = true -> write m = encode_rune r ->
  is_space r = true -> r <> 9 -> blank m = true.
Proof.
  intros Hm Hv Hw Hs H9. pose proof (runes_write E m Hm) as Hr. rewrite Hw in Hr.
  assert (Hrr : runes (encode_rune r) = [r]).
  { pose proof (runes_encode [r]) as G. cbn in G. rewrite app_nil_r in G. apply G. constructor; [exact Hv|constructor]. }
  rewrite Hrr in Hr. destruct Hm as [_ Hu]. rewrite <- Hr, units_none in Hu. injection Hu as Hu. rewrite <- Hu.
  unfold blank, IsSpaceMoji, rune2moji. replace (r =? 9) with false by lia.
  repeat match goal with |- context [if ?b then _ else _] => destruct b end; exact Hs.
Qed.

Lemma blank_reached S x m r : scripted S -> reached S x -> In m (line (buf_of x)) ->
  valid_rune r = true -> write m = encode_rune r -> is_space r = true -> r <> 9 -> blank m = true.
Proof.
  intros HB HR Hm. pose proof (self_reached S x HB HR) as Hs. rewrite Forall_forall in Hs. apply (blank_unit (cE (base S))). now apply Hs.
Qed.
Lemma spaces_list r : is_space r = true <->
  In r [9; 10; 11; 12; 13; 32; 133; 160; 5760; 8192; 8193; 8194; 8195; 8196; 8197; 8198; 8199; 8200; 8201; 8202;
        8232; 8233; 8239; 8287; 12288].
Proof.
  split.
  - unfold is_space, in_range. intros H. cbn [In]. lia.
  - cbn [In]. intros H. repeat (destruct H as [<-|H]; [reflexivity|]). destruct H.
Qed.
Lemma quote_lines_last t : exists m, quote_lines (t ++ [34]) = m ++ [34].
Proof.
  assert (G : forall n t, (List.length t < n)%nat -> exists m, quote_lines (t ++ [34]) = m ++ [34]).
  { clear t. induction n as [|n IH]; intros t Hn; [lia|]. destruct t as [|b [|c t]].
    - exists []. reflexivity.
    - exists [b]. cbn. now rewrite andb_false_r.
    - cbn [app]. rewrite quote_lines_cons2. cbn [List.length] in Hn. destruct ((b =? 13) && (c =? 10)).
      + destruct (IH t) as [m Hm]; [lia|]. rewrite Hm. exists ([34; 13; 10; 34] ++ m). now rewrite app_assoc.
      + destruct (IH (c :: t)) as [m Hm]; [cbn [List.length]; lia|]. cbn [app] in Hm. rewrite Hm. exists (b :: m). reflexivity. }
  apply (G (Datatypes.S (List.length t))). lia.
Qed.
Lemma yank_quote_ends t : In 32 t -> (forall t', t <> 34 :: t') -> exists m, yank_quote t = [34] ++ m ++ [34].
Proof.
  intros H1 H2. unfold yank_quote.
  assert (Hb : existsb (Z.eqb 32) t = true) by (apply existsb_exists; exists 32; split; [exact H1|reflexivity]).
  rewrite Hb. assert (Hp : has_prefix t [34] = false).
  { destruct t as [|b t]; [reflexivity|]. cbn. destruct (b =? 34) eqn:Hx; [|reflexivity]. apply Z.eqb_eq in Hx. subst b. exfalso. now apply (H2 t). }
  rewrite Hp. cbn [andb negb]. cbn [app]. rewrite quote_lines_nocr by (left; lia).
  destruct (quote_lines_last (double_quotes t)) as [m Hm]. rewrite Hm. exists m. reflexivity.
Qed.

Lemma yank_quote_in t : in_quotes t (yank_quote t).
Proof. split; [intros H1 H2; split; [now apply yank_quote_ends|]; split; [now apply unquote_yank|now apply breaks_yank]|apply yank_quote_same]. Qed.
Lemma yank_with_quote C s s' r p q t : exec C CYankWithQuote s = Some (s', r) -> at_split s p q -> clip s = Some t ->
  exists u, in_quotes t u /\ at_split s' (p ++ split (cE C) u) q /\ clip s' = Some t /\ rest_kept s s'.
Proof. intros H1 H2 H3. exists (yank_quote t). split; [apply yank_quote_in|]. apply (yank C s s' r p q t CYankWithQuote yank_quote); auto. Qed.
Lemma trim_right_cut t : cut_breaks t (trim_right t).
Proof.
  unfold trim_right. rewrite <- (rev_involutive t) at 1. generalize (rev t). induction l as [|b l IH].
  - split; [intros t' b H; now destruct t'|]. exists []. split; [reflexivity|constructor].
  - cbn [drop_while rev]. destruct (is_trim b) eqn:Hb.
    + destruct IH as (H1 & tail & H2 & H3). split; [exact H1|]. exists (tail ++ [b]). split; [rewrite H2 at 1; now rewrite app_assoc|]. apply Forall_app. split; [exact H3|]. constructor; [unfold is_trim in Hb; lia|constructor].
    + cbn [rev]. split; [|exists []; split; [now rewrite app_nil_r|constructor]]. intros t' c Ht. apply app_inj_tail in Ht as [_ <-]. unfold is_trim in Hb. lia.
Qed.
Lemma yank_plain C s s' r p q t : exec C CYank s = Some (s', r) -> at_split s p q -> clip s = Some t ->
  exists u, cut_breaks t u /\ at_split s' (p ++ split (cE C) u) q /\ clip s' = Some t /\ rest_kept s s'.
Proof. intros H1 H2 H3. exists (trim_right t). split; [apply trim_right_cut|]. apply (yank C s s' r p q t CYank trim_right); auto. Qed.
