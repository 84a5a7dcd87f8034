(** Lemmas in the form the session properties need. *)
From Verif Require Import Base Utf8 Moji Color Prompt Buffer Commands KeyMap Session MojiFacts
  Abs AbsRef AbsSess AbsSafe AbsInv Safe SafeSess Plain Spec TextFacts Reach SafetyFacts CmdFacts WordFacts EditFacts EditProps LineInv EditMore SessFacts HistFacts SearchFacts PredictFacts.

Lemma write_erase m : write (unit_of m) = write m.
Proof. induction m; cbn; try reflexivity; congruence. Qed.
Lemma written_split E t : written (split E t) = written (StringToMoji E t).
Proof. unfold written, split. induction (StringToMoji E t) as [|m l IH]; cbn; [reflexivity|]. now rewrite write_erase, IH. Qed.
Lemma written_app a b : written (a ++ b) = written a ++ written b.
Proof. unfold written. now rewrite flat_map_app. Qed.
Lemma survives_split E t : survives E t -> written (split E t) = t.
Proof. intros [H1 H2]. rewrite written_split. now apply written_valid. Qed.
Lemma split_again E t : split E (written (split E t)) = split E t.
Proof. rewrite written_split. unfold split. now rewrite resplit. Qed.

Section WithSess.
Variable S : scfg.
Notation C := (base S).
Notation E := (cE C).

Lemma typed_text ks : Forall (typable S) ks -> written (flat_map (fun k => split E (altgr k)) ks) = List.concat ks.
Proof.
  induction 1 as [|k ks (_ & Ha & _ & Hs) Hk IH]; [reflexivity|]. cbn [flat_map List.concat]. change (altgr k = k) in Ha. now rewrite written_app, IH, Ha, survives_split.
Qed.

(** C03 *)
Lemma typed_line d cur w cl ks x : 0 <= cur -> Forall (typable S) ks ->
  readline S d cur w cl (map EKey ks) = Some x ->
  exists s n, x = Running MNormal s /\ n = Z.to_nat (Z.min cur (zlen (split E d))) /\
    line s = firstn n (split E d) ++ flat_map (split E) ks ++ skipn n (split E d) /\
    cursor s = zlen (firstn n (split E d) ++ flat_map (split E) ks) /\ pending s = [] /\ clip s = cl.
Proof.
  intros H0 Hk H. unfold readline in H. opt H. apply start_state in Ev as (s0 & -> & Hl & Hc & Hu & Hp & _ & _ & Hcl).
  set (n := Z.to_nat (Z.min cur (zlen (split E d)))).
  assert (Hs : at_split s0 (firstn n (split E d)) (skipn n (split E d))).
  { split; [now rewrite firstn_skipn|]. rewrite Hc. unfold zlen in *. rewrite firstn_length. subst n. lia. }
  assert (K1 : Forall (unbound S) ks).
  { eapply Forall_impl; [|exact Hk]. now intros k (Hx & _). }
  assert (K2 : Forall (fun k => joins E (first_rune (altgr k)) = false) ks).
  { eapply Forall_impl; [|exact Hk]. intros k (_ & Ha & Hj & _). change (altgr k = k) in Ha. now rewrite Ha. }
  destruct (type_keys S ks s0 x _ _ K1 K2 Hs Hp H) as (s & -> & [H1 H2] & H3 & H4 & _).
  assert (Hf : flat_map (fun k => split E (altgr k)) ks = flat_map (split E) ks).
  { clear -Hk. induction Hk as [|k ks (_ & Ha & _) _ IH]; [reflexivity|]. cbn [flat_map]. change (altgr k = k) in Ha. now rewrite IH, Ha. }
  rewrite Hf in *. exists s, n. rewrite <- app_assoc in H1. repeat split; try assumption; congruence.
Qed.
Lemma typed_returned d cur w cl ks kr x : 0 <= cur -> Forall (typable S) ks -> bound S kr CAcceptLine ->
  readline S d cur w cl (map EKey ks ++ [EKey kr]) = Some x ->
  exists s n, x = Finished s (written (firstn n (split E d)) ++ List.concat ks ++ written (skipn n (split E d))) RNil /\
    n = Z.to_nat (Z.min cur (zlen (split E d))).
Proof.
  intros H0 Hk Hb H. unfold readline in H. destruct (start S d cur w cl) as [y|] eqn:Hst; [|discriminate].
  rewrite run_app in H. destruct (run S (map EKey ks) y) as [x1|] eqn:Hr; [|discriminate].
  destruct (typed_line d cur w cl ks x1 H0 Hk) as (s & n & -> & Hn & Hl & _).
  { unfold readline. rewrite Hst. exact Hr. }
  cbn [run] in H. opt H. apply key_end in Ev as [s' ->]; [|exact Hb]. injection H as <-. exists s', n. split; [|exact Hn]. f_equal.
  rewrite Hl, !written_app. f_equal. f_equal. rewrite <- (typed_text ks Hk).
  clear -Hk. induction Hk as [|k ks (_ & Ha & _) _ IH]; [reflexivity|]. cbn [flat_map]. change (altgr k = k) in Ha. now rewrite !written_app, IH, Ha.
Qed.
Lemma typed_empty cur w cl ks kr x : 0 <= cur -> Forall (typable S) ks -> bound S kr CAcceptLine ->
  readline S [] cur w cl (map EKey ks ++ [EKey kr]) = Some x -> exists s, x = Finished s (List.concat ks) RNil.
Proof.
  intros H0 Hk Hb H. destruct (typed_returned _ _ _ _ _ _ _ H0 Hk Hb H) as (s & n & -> & _). exists s.
  change (split E []) with (@nil moji). rewrite firstn_nil, skipn_nil. cbn [written flat_map app]. now rewrite app_nil_r.
Qed.

(** C16 *)
Lemma come_back_line e m s m1 s1 es m2 s2 e' m3 s3 : only_builtin S -> reached S (Running m s) ->
  no_stale_edit (hist C) s -> ~ (hptr s = 0 /\ cycling C = true /\ exists k, e = EKey k /\ bound S k CPreviousHistory) ->
  step S e (Running m s) = Some (Running m1 s1) -> hptr s1 <> hptr s ->
  (forall es1 es2 m0 s0, es = es1 ++ es2 -> run S es1 (Running m1 s1) = Some (Running m0 s0) -> hptr s0 <> hptr s) ->
  run S es (Running m1 s1) = Some (Running m2 s2) ->
  step S e' (Running m2 s2) = Some (Running m3 s3) -> hptr s3 = hptr s ->
  Forall (clean E) (line s) -> at_split s3 (line s) [].
Proof.
  intros HB HR Hst Hcy H1 Hne Haw H2 H3 Hb Hcl.
  pose proof (come_back S e m s m1 s1 es m2 s2 e' m3 s3 HB HR Hst Hcy H1 Hne Haw H2 H3 Hb) as G.
  rewrite resplit_clean in G; [exact G| |exact Hcl]. apply (self_reached S (Running m s) (builtin_scripted S HB) HR).
Qed.

(** C20 *)
Lemma accept_prediction s s' r : exec C CForwardChar s = Some (s', r) -> prediction_current C s ->
  predictor C = predictByHistory (hist C) -> cursor s = zlen (line s) -> line s <> [] ->
  (exists e u, newest (fun x => exists v, x = written (line s) ++ v) (hist C) e /\ e = written (line s) ++ u /\
     at_split s' (line s ++ split E u) [] /\ (survives E u -> written (line s') = e)) \/
  (Forall (fun x => ~ exists v, x = written (line s) ++ v) (hist C) /\ at_split s' (line s) []).
Proof.
  intros H Hp Hh Hc Hne.
  assert (Hs : at_split s (line s) []) by (split; [now rewrite app_nil_r|exact Hc]).
  pose proof (forward_accept S s s' r (line s) H Hs) as G. unfold prediction_current in Hp. rewrite Hh in Hp.
  destruct (line s) as [|m0 l0] eqn:Hl; [contradiction|]. rewrite <- Hl in *. rewrite Hp, split_again in G.
  destruct (predict_by_history (hist C) (written (line s)) (cursor s)) as [Hn|[Hn Hu]].
  - left. eexists _, _. split; [exact Hn|]. split; [reflexivity|]. split; [exact G|]. intros Hv. destruct G as [G _]. rewrite G, app_nil_r, written_app.
    f_equal. now apply survives_split.
  - right. split; [exact Hn|]. rewrite Hu in G. change (split E []) with (@nil moji) in G. now rewrite app_nil_r in G.
Qed.

(** C19 *)
Lemma search_key_cancel k ss : search_key S k ss = Some SCancel -> cancel_key k.
Proof.
  unfold search_key. destruct (_ || _); [discriminate|]. destruct (str_eqb k [13]); [discriminate|].
  destruct (str_eqb k [3] || str_eqb k [7] || str_eqb k [27]) eqn:Hc.
  - intros _. apply orb_true_iff in Hc as [Hc|Hc]; [apply orb_true_iff in Hc as [Hc|Hc]|]; apply str_eqb_eq in Hc; unfold cancel_key; auto.
  - destruct (str_eqb k [18]); [intros H; opt H; discriminate|]. destruct (str_eqb k [19]); [intros H; opt H; discriminate|].
    destruct (decode_rune k). destruct (is_control _); discriminate.
Qed.
Lemma nothing_refl s : nothing_changed s s. Proof. repeat split. Qed.
Lemma search_run es : forall ss s x, Forall search_event es -> run S es (Running (MSearch ss) s) = Some x ->
  exists ss' s', x = Running (MSearch ss') s' /\ nothing_changed s s'.
Proof.
  induction es as [|e es IH]; intros ss s x Hf H; cbn [run] in H.
  - injection H as <-. exists ss, s. split; [reflexivity|apply nothing_refl].
  - apply Forall_cons_iff in Hf as [He Hf]. destruct (step S e (Running (MSearch ss) s)) as [y|] eqn:Hs; [|discriminate].
    assert (Hy : exists ss1 s1, y = Running (MSearch ss1) s1 /\ nothing_changed s s1).
    { destruct e as [k| |w|c]; try contradiction.
      - destruct He as [He1 He2]. destruct (search_key_cases S k ss s y Hs) as [(ss1 & s1 & -> & _ & Hd)|[(_ & Hk & _)|(Hk & _)]]; [eauto|contradiction|].
        apply search_key_cancel in Hk. contradiction.
      - cbn [step] in Hs. injection Hs as <-. exists ss, s. split; [reflexivity|apply nothing_refl]. }
    destruct Hy as (ss1 & s1 & -> & Hd). destruct (IH ss1 s1 x Hf H) as (ss' & s' & -> & Hd'). exists ss', s'. split; [reflexivity|].
    eapply display_trans; eauto.
Qed.
Lemma search_then_cancel k0 es e s x : bound S k0 CISearchBackward -> Forall search_event es ->
  (e = EKeyErr \/ exists k, e = EKey k /\ cancel_key k) ->
  run S (EKey k0 :: es ++ [e]) (Running MNormal s) = Some x -> exists s', x = Running MNormal s' /\ nothing_changed s s'.
Proof.
  intros Hb Hf He H. cbn [run] in H. destruct (step S (EKey k0) (Running MNormal s)) as [y|] eqn:Hs; [|discriminate].
  apply search_begin in Hs as (s1 & -> & H1); [|exact Hb]. rewrite run_app in H.
  destruct (run S es _) as [y|] eqn:Hr in H; [|discriminate]. apply search_run in Hr as (ss2 & s2 & -> & H2); [|exact Hf].
  cbn [run] in H. destruct (step S e (Running (MSearch ss2) s2)) as [y|] eqn:Hs; [|discriminate]. injection H as <-.
  assert (Hy : exists s3, y = Running MNormal s3 /\ nothing_changed s2 s3).
  { destruct He as [->|(k & -> & Hk)].
    - destruct (search_error S ss2 s2) as (s3 & Hx & Hd). rewrite Hx in Hs. injection Hs as <-. eauto.
    - eapply search_cancelled; eauto. }
  destruct Hy as (s3 & -> & H3). exists s3. split; [reflexivity|]. eapply display_trans; [exact H1|]. eapply display_trans; eauto.
Qed.

(** C47 *)
Lemma quoted_insert kq k s x p q : bound S kq CQuotedInsert -> at_split s p q -> joins E (first_rune (altgr k)) = false ->
  run S [EKey kq; EKey k] (Running MNormal s) = Some x ->
  exists s', x = Running MNormal s' /\ at_split s' (p ++ split E (pending s ++ altgr k)) q /\ pending s' = [] /\
    clip s' = clip s /\ history_untouched s s'.
Proof.
  intros Hb Hs Hj H. cbn [run] in H. destruct (step S (EKey kq) (Running MNormal s)) as [y|] eqn:Hs1; [|discriminate].
  assert (y = Running MQuoted (emit s [TCursorOff; TCursorOn; TFlush]) \/ exists t, y = Running MQuoted (emit s t)) as Hy.
  { cbn [step] in Hs1. unfold key_normal in Hs1. rewrite Hb in Hs1. injection Hs1 as <-. right.
    unfold emit. cbn. rewrite <- !app_assoc. eexists. reflexivity. }
  assert (Hy' : exists t, y = Running MQuoted (emit s t)) by (destruct Hy as [->|]; eauto). destruct Hy' as [t ->].
  destruct (step S (EKey k) (Running MQuoted (emit s t))) as [y|] eqn:Hs2; [|discriminate]. injection H as <-.
  apply quoted_key with (p := p) (q := q) in Hs2; [exact Hs2|exact Hs|exact Hj].
Qed.
Lemma quoted_read_error kq s x : bound S kq CQuotedInsert -> run S [EKey kq; EKeyErr] (Running MNormal s) = Some x ->
  exists s', x = Running MNormal s' /\ nothing_changed s s'.
Proof.
  intros Hb H. cbn [run] in H. cbn [step] in H. unfold key_normal in H. rewrite Hb in H. cbn in H. injection H as <-.
  eexists. split; [reflexivity|]. repeat split.
Qed.

(** C10: the default keys. *)
Lemma default_lookup k c : default_keys S -> bound S k c -> c = CSelfInsert k \/ In (k, c) GlobalKeyMap.
Proof.
  intros [H1 H2] H. unfold bound in H. rewrite H1, H2 in H. unfold LookupCommand, Lookup in H. cbn [aget] in H.
  destruct (aget str_eqb GlobalKeyMap k) as [c0|] eqn:Hg; [|left; congruence]. right. subst c0.
  revert Hg. generalize GlobalKeyMap as m. induction m as [|[k0 c0] m IH]; cbn [aget]; [discriminate|].
  destruct (str_eqb k k0) eqn:He; [intros Hx; injection Hx as ->; apply str_eqb_eq in He; subst; now left|]. intros Hx. right. now apply IH.
Qed.
Lemma default_ends k : default_keys S ->
  (bound S k CAcceptLine <-> k = [13]) /\ (bound S k CInterrupt <-> k = [3]) /\ (bound S k CDeleteOrAbort <-> k = [4]).
Proof.
  intros Hd.
  assert (G : forallb (fun p => match snd p with CAcceptLine => str_eqb (fst p) [13] | CInterrupt => str_eqb (fst p) [3]
    | CDeleteOrAbort => str_eqb (fst p) [4] | _ => true end) GlobalKeyMap = true) by (vm_compute; reflexivity).
  rewrite forallb_forall in G.
  repeat split; intros H.
  all: try (apply (default_lookup k _ Hd) in H as [H|H]; [discriminate|]; apply G in H; cbn in H; now apply str_eqb_eq in H).
  all: subst k; destruct Hd as [H1 H2]; unfold bound; rewrite H1, H2; reflexivity.
Qed.
Lemma default_builtin : default_keys S -> only_builtin S.
Proof.
  intros Hd k f H. apply (default_lookup k _ Hd) in H as [H|H]; [discriminate|].
  assert (G : forallb (fun p => match snd p with CUser _ => false | _ => true end) GlobalKeyMap = true) by reflexivity.
  rewrite forallb_forall in G. apply G in H. discriminate.
Qed.
Lemma default_end_only e m s s' t err : default_keys S -> step S e (Running m s) = Some (Finished s' t err) ->
  m = MNormal /\
  ((e = EKeyErr /\ t = [] /\ err = RKeyError) \/ (e = EKey [13] /\ t = written (line s) /\ err = RNil) \/
   (e = EKey [3] /\ t = [] /\ err = RCtrlC) \/ (e = EKey [4] /\ line s = [] /\ t = [] /\ err = REOF)).
Proof.
  intros Hd H. apply ends_only in H as [Hm H]; [|now apply default_builtin]. split; [exact Hm|].
  destruct H as [H|(k & -> & H)]; [now left|]. right. destruct (default_ends k Hd) as (D1 & D2 & D3).
  destruct H as [(Hb & H)|[(Hb & H)|(Hb & H)]].
  - left. apply D1 in Hb. subst k. auto.
  - right. left. apply D2 in Hb. subst k. auto.
  - right. right. apply D3 in Hb. subst k. auto.
Qed.

(** C03, with nothing left to the caller but simple text and a wide terminal. *)
Lemma typed_safe d cur w cl ks kr : simple_editor S -> simple_text E d -> simple_clip E cl -> 0 <= cur -> prompt_width C + 11 < w ->
  Forall (typable S) ks -> Forall (simple_text E) ks -> bound S kr CAcceptLine -> simple_text E kr ->
  exists s, readline S d cur w cl (map EKey ks ++ [EKey kr])
    = Some (Finished s (written (firstn (Z.to_nat cur) (split E d)) ++ List.concat ks ++ written (skipn (Z.to_nat cur) (split E d))) RNil).
Proof.
  intros HS Hd Hcl H0 Hw Hk Hst Hb Hkr.
  destruct (simple_safe S d cur w cl (map EKey ks ++ [EKey kr]) HS Hd Hcl) as (x & Hx & _); [|exact H0|exact Hw|].
  - apply Forall_app. split.
    + apply Forall_map. rewrite Forall_forall in *. intros k Hin. specialize (Hk k Hin) as (Hu & _). specialize (Hst k Hin). cbn.
      unfold unbound, bound in Hu. split; [exact Hst|]. rewrite Hu. split; [discriminate|]. intros k' [= <-]. exact Hst.
    + constructor; [|constructor]. cbn. unfold bound in Hb. rewrite Hb. split; [exact Hkr|]. split; discriminate.
  - destruct (typed_returned d cur w cl ks kr x H0 Hk Hb Hx) as (s & n & -> & Hn). exists s. rewrite Hx. f_equal. f_equal.
    assert (Hf : n = Z.to_nat cur \/ (n = List.length (split E d) /\ (List.length (split E d) <= Z.to_nat cur)%nat)) by (unfold zlen in Hn; lia).
    destruct Hf as [->|[-> Hl]]; [reflexivity|]. now rewrite firstn_all, skipn_all, (firstn_all2 _ Hl), (skipn_all2 _ Hl).
Qed.
End WithSess.
