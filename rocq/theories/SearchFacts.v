(** Incremental search and prediction. *)
From Verif Require Import Base Utf8 Moji Color Prompt Buffer Commands KeyMap Session SpecScript MojiFacts
  Abs AbsRef AbsSess AbsSafe AbsInv Safe SafeSess Plain Spec TextFacts Reach SafetyFacts CmdFacts WordFacts EditFacts EditProps LineInv EditMore SessFacts HistFacts.

Lemma str_index_spec s p : 0 <= str_index s p <-> exists a b, s = a ++ p ++ b.
Proof.
  induction s as [|x s IH]; cbn [str_index].
  - destruct p as [|y p]; cbn.
    + split; [intros _; exists [], []; reflexivity|lia].
    + split; [lia|]. intros (a & b & H). destruct a; discriminate.
  - destruct (has_prefix (x :: s) p) eqn:Hp.
    + split; [intros _|lia]. apply has_prefix_spec in Hp as [t Ht]. exists [], t. exact Ht.
    + assert (Hn : forall t, x :: s <> p ++ t).
      { intros t Ht. assert (has_prefix (x :: s) p = true) by (apply has_prefix_spec; eauto). congruence. }
      destruct (Z.ltb_spec (str_index s p) 0) as [Hi|Hi].
      * split; [lia|]. intros (a & b & H). destruct a as [|y a]; [now destruct (Hn b)|]. injection H as -> H.
        assert (0 <= str_index s p) by (apply IH; eauto). lia.
      * split; [intros _|lia]. apply IH in Hi as (a & b & ->). exists (x :: a), b. reflexivity.
Qed.
Lemma str_contains_spec s p : str_contains s p = true <-> exists a b, s = a ++ p ++ b.
Proof. unfold str_contains. rewrite Z.leb_le. apply str_index_spec. Qed.

Section WithSess.
Variable S : scfg.
Notation C := (base S).
Notation E := (cE C).
Notation N := (zlen (hist C)).

Lemma ci_spec h t : ci_contains S h t = true <-> occurs_in C t h.
Proof. unfold ci_contains. apply str_contains_spec. Qed.
Lemma ci_spec_false h t : ci_contains S h t = false <-> ~ occurs_in C t h.
Proof. rewrite <- ci_spec. destruct (ci_contains S h t); split; intuition congruence. Qed.

Lemma search_update_spec l ss : forall k, hist C = rev l ++ k -> Forall (fun h => ~ occurs_in C (ss_str ss) h) k ->
  search_shows C (ss_str ss) (search_update S l (zlen l - 1) ss).
Proof.
  induction l as [|h l IH]; intros k Hk Hf; cbn [search_update].
  - split; [reflexivity|]. right. split; [|reflexivity]. cbn in Hk. now rewrite Hk.
  - cbn [rev] in Hk. rewrite <- app_assoc in Hk. cbn [app] in Hk.
    destruct (ci_contains S h (ss_str ss)) eqn:Hc.
    + split; [reflexivity|]. left. cbn [ss_found ss_pos]. apply ci_spec in Hc. split; [now exists (rev l), k|].
      rewrite Hk. replace (zlen (h :: l) - 1) with (zlen (rev l)) by (rewrite zlen_cons; unfold zlen; rewrite rev_length; lia).
      unfold index. rewrite to_nat_zlen, nth_error_app2, Nat.sub_diag by lia. replace (0 <=? zlen (rev l)) with true by (pose proof (zlen_nonneg (rev l)); lia). reflexivity.
    + replace (zlen (h :: l) - 1 - 1) with (zlen l - 1) by (rewrite zlen_cons; lia). apply IH with (k := h :: k); [exact Hk|].
      constructor; [now apply ci_spec_false|exact Hf].
Qed.
Lemma update_spec ss : search_shows C (ss_str ss) (update S ss).
Proof.
  unfold update. replace (N - 1) with (zlen (rev (hist C)) - 1) by (unfold zlen; now rewrite rev_length).
  apply search_update_spec with (k := []); [now rewrite rev_involutive, app_nil_r|constructor].
Qed.

(** Ctrl-R. Positions are passed going down from [p-1], wrapping from 0 to the newest. *)
Notation hit := (another C).
Notation older := (search_goes_older C).
Lemma hit_dec ss h : ci_contains S h (ss_str ss) && negb (str_eqb (ss_found ss) h) = true <-> hit ss h.
Proof.
  rewrite andb_true_iff, ci_spec, negb_true_iff. unfold another.
  destruct (str_eqb (ss_found ss) h) eqn:He.
  - apply str_eqb_eq in He. subst h. split; [intros []; discriminate|intros []; contradiction].
  - split; [intros [H _]|intros [H _]; auto]. split; [exact H|]. intros ->.
    assert (str_eqb (ss_found ss) (ss_found ss) = true) by (now apply str_eqb_eq). congruence.
Qed.
Lemma index_range (l : list str) i h : index l i = Some h -> 0 <= i < zlen l.
Proof.
  unfold index. destruct (Z.leb_spec 0 i); [|discriminate]. intros Hn. assert (nth_error l (Z.to_nat i) <> None) by congruence.
  apply nth_error_Some in H0. unfold zlen. lia.
Qed.
(** Going down from [i]; [seen] has been passed. *)
Lemma search_older_spec ss ss' fuel : forall i, -1 <= ss_pos ss < N -> -2 <= i < N ->
  (forall j h, index (hist C) j = Some h -> (if i <? ss_pos ss then i < j < ss_pos ss else 0 <= j < ss_pos ss \/ i < j < N) -> ~ hit ss h) ->
  search_older S fuel i ss = Some ss' -> older ss ss'.
Proof.
  set (p := ss_pos ss) in *.
  induction fuel as [|f IH]; intros i Hp Hi Hseen H; [discriminate|]. cbn [search_older] in H. fold p in H.
  set (i' := if i <? 0 then N - 1 else i) in *.
  assert (Hi' : -1 <= i' < N) by (subst i'; destruct (Z.ltb_spec i 0); pose proof (zlen_nonneg (hist C)); lia).
  assert (Hs' : forall j h, index (hist C) j = Some h ->
    (if i' <? p then i' < j < p else if i' =? p then j <> p else 0 <= j < p \/ i' < j < N) -> ~ hit ss h).
  { intros j h Hj Hc. apply (Hseen j h Hj). pose proof (index_range _ _ _ Hj) as Hr. subst i'.
    destruct (Z.ltb_spec i 0) as [Hneg|Hneg].
    - destruct (Z.ltb_spec i p).
      + destruct (Z.ltb_spec (N - 1) p); [lia|]. destruct (Z.eqb_spec (N - 1) p); lia.
      + destruct (Z.ltb_spec (N - 1) p); [lia|]. destruct (Z.eqb_spec (N - 1) p); lia.
    - destruct (Z.ltb_spec i p); [exact Hc|]. destruct (Z.eqb_spec i p); lia. }
  clearbody i'. clear Hseen Hi i.
  destruct (Z.eqb_spec i' p) as [Heq|Hne].
  - injection H as <-. left. split; [reflexivity|]. intros j h Hj Hjp. apply (Hs' j h Hj).
    replace (i' <? p) with false by lia. exact Hjp.
  - destruct (index (hist C) i') as [h|] eqn:Hh; [|discriminate].
    destruct (ci_contains S h (ss_str ss) && negb (str_eqb (ss_found ss) h)) eqn:Hc.
    + injection H as <-. right. cbn [ss_str ss_pos ss_found]. apply hit_dec in Hc. split; [reflexivity|]. split; [exact Hne|].
      split; [exact Hh|]. split; [exact Hc|]. fold p. intros j h' Hpass Hj. apply (Hs' j h' Hj). exact Hpass.
    + apply index_range in Hh as Hr. apply IH in H; [exact H|exact Hp|lia|]. intros j h' Hj Hpass.
      destruct (Z.eq_dec j i') as [->|Hji].
      * rewrite Hh in Hj. injection Hj as <-. intros Hx. apply hit_dec in Hx. congruence.
      * apply (Hs' j h' Hj). destruct (Z.ltb_spec i' p); destruct (Z.ltb_spec (i' - 1) p); try lia.
Qed.
(** Ctrl-S: going up, not past the newest entry. *)
Notation newer := (search_goes_newer C).
Lemma search_newer_spec ss ss' fuel : forall i, ss_pos ss < i -> -1 <= ss_pos ss ->
  (forall j h, index (hist C) j = Some h -> ss_pos ss < j < i -> ~ hit ss h) ->
  search_newer S fuel i ss = Some ss' -> newer ss ss'.
Proof.
  induction fuel as [|f IH]; intros i Hi Hp Hseen H; [discriminate|]. cbn [search_newer] in H.
  destruct (Z.leb_spec N i) as [Hn|Hn].
  - injection H as <-. left. split; [reflexivity|]. intros j h Hj Hjp. apply (Hseen j h Hj). apply index_range in Hj. lia.
  - replace (i =? ss_pos ss) with false in H by lia.
    destruct (index (hist C) i) as [h|] eqn:Hh; [|discriminate].
    destruct (ci_contains S h (ss_str ss) && negb (str_eqb (ss_found ss) h)) eqn:Hc.
    + injection H as <-. right. cbn [ss_str ss_pos ss_found]. apply hit_dec in Hc. split; [reflexivity|]. split; [lia|].
      split; [exact Hh|]. split; [exact Hc|]. intros j h' Hpass Hj. now apply (Hseen j h' Hj).
    + apply IH in H; [exact H|lia|exact Hp|]. intros j h' Hj Hpass.
      destruct (Z.eq_dec j i) as [->|Hji].
      * rewrite Hh in Hj. injection Hj as <-. intros Hx. apply hit_dec in Hx. congruence.
      * apply (Hseen j h' Hj). lia.
Qed.

(** The key presses. *)
Lemma mode_reached ss s : scripted S -> reached S (Running (MSearch ss) s) -> -1 <= ss_pos ss < N \/ N = 0 /\ ss_pos ss = -1.
Proof.
  intros HB HR. apply HI_reached in HR as [HR _]; [|exact HB]. cbn in HR. unfold ss_ok in HR. pose proof (zlen_nonneg (hist C)). lia.
Qed.
Lemma continue_inv k ss s x ss0 : step S (EKey k) (Running (MSearch ss) s) = Some x -> search_key S k ss = Some (SContinue ss0) ->
  exists s', x = Running (MSearch ss0) s' /\ nothing_changed s s'.
Proof.
  intros H Hk. destruct (search_key_cases S k ss s x H) as [(ss' & s' & -> & Hx & Hd)|[(Hx & _)|(Hx & _)]]; [|congruence|congruence].
  exists s'. rewrite Hk in Hx. injection Hx as ->. auto.
Qed.
Lemma search_typed k ss s x : ~ (0 <= first_rune k <= 31 \/ 127 <= first_rune k <= 159) ->
  step S (EKey k) (Running (MSearch ss) s) = Some x ->
  exists ss' s', x = Running (MSearch ss') s' /\ nothing_changed s s' /\
    search_shows C (ss_str ss ++ encode_rune (first_rune k)) ss'.
Proof.
  intros Hc H.
  assert (Hk : search_key S k ss = Some (SContinue (update S (mkSearch (ss_str ss ++ encode_rune (first_rune k)) (ss_found ss) (ss_pos ss))))).
  { unfold search_key.
    assert (Hn : forall z, z < 32 \/ z = 127 -> 0 <= z -> str_eqb k [z] = false).
    { intros z Hz H0. destruct (str_eqb k [z]) eqn:He; [|reflexivity]. apply str_eqb_eq in He. subst k. exfalso.
      assert (Hf : first_rune [z] = z). { unfold first_rune. cbn. replace (in_range z 0 127) with true by (unfold in_range; lia). reflexivity. }
      rewrite Hf in Hc. lia. }
    rewrite !Hn by lia. cbn [orb]. destruct (decode_rune k) as [r n] eqn:Hd. pose proof (decode_first k) as Hf. rewrite Hd in Hf. cbn [fst] in Hf. subst r.
    replace (is_control (first_rune k)) with false by (unfold is_control, in_range; lia). reflexivity. }
  destruct (continue_inv _ _ _ _ _ H Hk) as (s' & -> & Hd). eexists _, s'. split; [reflexivity|]. split; [exact Hd|]. match goal with |- search_shows _ _ (update _ ?x) => exact (update_spec x) end.
Qed.
Lemma search_ignored k ss s x : 0 <= first_rune k <= 31 \/ 127 <= first_rune k <= 159 ->
  ~ In k [[8]; [127]; [13]; [3]; [7]; [27]; [18]; [19]] -> step S (EKey k) (Running (MSearch ss) s) = Some x ->
  exists s', x = Running (MSearch ss) s' /\ nothing_changed s s'.
Proof.
  intros Hc Hn H.
  assert (Hk : search_key S k ss = Some (SContinue ss)).
  { unfold search_key.
    assert (He : forall c, In c [[8]; [127]; [13]; [3]; [7]; [27]; [18]; [19]] -> str_eqb k c = false).
    { intros c Hin. destruct (str_eqb k c) eqn:He; [|reflexivity]. apply str_eqb_eq in He. subst c. contradiction. }
    rewrite !He by (cbn; tauto). cbn [orb]. destruct (decode_rune k) as [r n] eqn:Hd. pose proof (decode_first k) as Hf. rewrite Hd in Hf. cbn [fst] in Hf. subst r.
    replace (is_control (first_rune k)) with true by (unfold is_control, in_range; lia). reflexivity. }
  destruct (continue_inv _ _ _ _ _ H Hk) as (s' & -> & Hd). exists s'. auto.
Qed.
Lemma search_begin k s x : bound S k CISearchBackward -> step S (EKey k) (Running MNormal s) = Some x ->
  exists s', x = Running (MSearch (mkSearch [] [] (zlen (hist C) - 1))) s' /\ nothing_changed s s'.
Proof.
  intros Hb H. cbn [step] in H. unfold key_normal in H. rewrite Hb in H. unfold search_wait in H. opt H. injection H as <-.
  eexists. split; [reflexivity|]. repeat split.
Qed.
Lemma search_backspace k ss s x : k = [8] \/ k = [127] -> step S (EKey k) (Running (MSearch ss) s) = Some x ->
  exists ss' s', x = Running (MSearch ss') s' /\ nothing_changed s s' /\
    search_shows C (encode (removelast (runes (ss_str ss)))) ss'.
Proof.
  intros Hk H.
  assert (Hs : search_key S k ss = Some (SContinue (update S (mkSearch (chop (ss_str ss)) (ss_found ss) (ss_pos ss))))).
  { destruct Hk as [->| ->]; reflexivity. }
  destruct (continue_inv _ _ _ _ _ H Hs) as (s' & -> & Hd). eexists _, s'. split; [reflexivity|]. split; [exact Hd|]. match goal with |- search_shows _ _ (update _ ?x) => exact (update_spec x) end.
Qed.
Lemma search_ctrl_r ss s x : scripted S -> reached S (Running (MSearch ss) s) -> step S (EKey [18]) (Running (MSearch ss) s) = Some x ->
  exists ss' s', x = Running (MSearch ss') s' /\ nothing_changed s s' /\ older ss ss'.
Proof.
  intros HB HR H. pose proof (mode_reached _ _ HB HR) as Hm.
  assert (Hk : search_key S [18] ss = let* ss' := search_older S (Datatypes.S (List.length (hist C))) (ss_pos ss - 1) ss in Some (SContinue ss')) by reflexivity.
  destruct (search_older S (Datatypes.S (List.length (hist C))) (ss_pos ss - 1) ss) as [ss'|] eqn:Ho.
  - destruct (continue_inv _ _ _ _ _ H Hk) as (s' & -> & Hd). exists ss', s'. split; [reflexivity|]. split; [exact Hd|].
    destruct Hm as [Hm|[Hm Hm']].
    + eapply search_older_spec; [exact Hm| | |exact Ho]; [lia|]. intros j h Hj Hc.
      replace (ss_pos ss - 1 <? ss_pos ss) with true in Hc by lia. lia.
    + cbn [search_older] in Ho. replace (ss_pos ss - 1 <? 0) with true in Ho by lia. replace (N - 1 =? ss_pos ss) with true in Ho by lia.
      injection Ho as <-. left. split; [reflexivity|]. intros j h Hj _. apply index_range in Hj. lia.
  - cbn [step] in H. unfold key_search in H. rewrite Hk in H. discriminate.
Qed.
Lemma search_ctrl_s ss s x : scripted S -> reached S (Running (MSearch ss) s) -> step S (EKey [19]) (Running (MSearch ss) s) = Some x ->
  exists ss' s', x = Running (MSearch ss') s' /\ nothing_changed s s' /\ newer ss ss'.
Proof.
  intros HB HR H. pose proof (mode_reached _ _ HB HR) as Hm.
  assert (Hk : search_key S [19] ss = let* ss' := search_newer S (Datatypes.S (Datatypes.S (List.length (hist C)))) (ss_pos ss + 1) ss in Some (SContinue ss')) by reflexivity.
  destruct (search_newer S (Datatypes.S (Datatypes.S (List.length (hist C)))) (ss_pos ss + 1) ss) as [ss'|] eqn:Ho.
  - destruct (continue_inv _ _ _ _ _ H Hk) as (s' & -> & Hd). exists ss', s'. split; [reflexivity|]. split; [exact Hd|].
    eapply search_newer_spec; [| | |exact Ho]; [lia|lia|]. intros j h _ Hj. lia.
  - cbn [step] in H. unfold key_search in H. rewrite Hk in H. discriminate.
Qed.
Lemma search_enter ss s x : step S (EKey [13]) (Running (MSearch ss) s) = Some x ->
  exists s', x = Running MNormal s' /\ at_split s' (split E (ss_found ss)) [] /\ history_untouched s s' /\ clip s' = clip s /\ pending s' = pending s.
Proof.
  intros H. cbn [step] in H. unfold key_search in H. cbn [search_key str_eqb Z.eqb Pos.eqb andb orb] in H.
  destruct (search_accept S ss (GotoHead (emit s [TCursorOff]))) as [s1|] eqn:Ha; [|discriminate].
  apply after_continue in H. eexists. split; [exact H|]. clear H.
  apply search_accept_ref in Ha. unfold aaccept in Ha. match type of Ha with areplace _ ?a _ ?t = _ =>
    pose proof (areplace_here C a [] [] t eq_refl eq_refl) as G; change (acur a) with 0 in G; rewrite G in Ha; clear G end.
  apply (f_equal (fun o => match o with Some y => y | None => abs s1 end)) in Ha. symmetry in Ha. apply abs_fields in Ha as F.
  rewrite (split_units C). destruct F as [F1 F2 F3 F4 F5 F6 F7].
  rewrite aupdate_line, ajoin_line in F1. rewrite aupdate_cur, ajoin_cur in F2. rewrite aupdate_clip, ajoin_clip in F4. rewrite aupdate_modh, ajoin_modh in F5.
  rewrite EditFacts.aupdate_hptr, EditFacts.ajoin_hptr in F6. rewrite aupdate_pend, ajoin_pend in F7.
  cbn [aline acur aclip amodh ahptr apend aset_line aset_cur apush aset_undo abs GotoHead emit] in *. rewrite app_nil_r in F1.
  split; [split; [rewrite app_nil_r; exact F1|exact F2]|]. split; [split; assumption|]. split; assumption.
Qed.

(** ** Prediction (C20) *)
Lemma predict_loop_spec l t : forall k, Forall (fun x => ~ exists u, x = t ++ u) k ->
  (newest (fun x => exists u, x = t ++ u) (rev l ++ k) (t ++ predict_loop l t)) \/
  (Forall (fun x => ~ exists u, x = t ++ u) (rev l ++ k) /\ predict_loop l t = []).
Proof.
  induction l as [|h l IH]; intros k Hk; cbn [predict_loop rev].
  - right. auto.
  - rewrite <- app_assoc. cbn [app]. destruct (has_prefix h t) eqn:Hp.
    + left. apply has_prefix_spec in Hp as [u ->]. rewrite skipn_app, skipn_all, Nat.sub_diag. cbn [app skipn].
      exists (rev l), k. split; [reflexivity|]. split; [eauto|exact Hk].
    + apply IH. constructor; [|exact Hk]. intros Hx. apply has_prefix_spec in Hx. congruence.
Qed.
Lemma predict_by_history h t cur :
  newest (fun x => exists u, x = t ++ u) h (t ++ predictByHistory h t cur) \/
  (Forall (fun x => ~ exists u, x = t ++ u) h /\ predictByHistory h t cur = []).
Proof.
  unfold predictByHistory. pose proof (predict_loop_spec (rev h) t [] (Forall_nil _)) as H.
  now rewrite rev_involutive, app_nil_r in H.
Qed.
End WithSess.
