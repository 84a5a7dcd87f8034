(** Facts about browsing and the loop of calls. *)
From Verif Require Import Base Utf8 Moji Color Prompt Buffer Commands KeyMap Session MojiFacts
  Abs AbsRef AbsSess AbsSafe AbsInv Safe SafeSess Plain Spec TextFacts Reach SafetyFacts CmdFacts WordFacts EditFacts EditProps LineInv EditMore SessFacts HistFacts SearchFacts PredictFacts SessProps Repl SpecRepl.

Section WithSess.
Variable S : scfg.
Notation C := (base S).
Notation E := (cE C).
Notation N := (zlen (hist C)).
Notation n := (List.length (hist C)).

(** What is remembered for the position that is left: the line, or what was remembered. *)
Lemma asave_shown a a' : asave C a = Some a' ->
  ashown C a' (ahptr a) = atext a \/ ashown C a' (ahptr a) = ashown C a (ahptr a).
Proof.
  intros H. unfold asave in H.
  assert (G : ashown C (aset_modh a (aset Z.eqb (amodh a) (ahptr a) (atext a))) (ahptr a) = atext a).
  { unfold ashown. cbn [amodh aset_modh]. rewrite aget_aset_same; [reflexivity|apply Z.eqb_eq]. }
  destruct (Z.ltb_spec (ahptr a) N) as [Hlt|Hge]; [opt H; destruct (str_eqb s (atext a))|]; injection H as <-; auto.
Qed.
Lemma browse_left c s s' r : (c = CPreviousHistory /\ 0 < hptr s) \/ (c = CNextHistory /\ 0 <= hptr s < N) -> 0 < N ->
  exec C c s = Some (s', r) ->
  shown (hist C) s' (hptr s) = written (line s) \/ shown (hist C) s' (hptr s) = shown (hist C) s (hptr s).
Proof.
  intros Hc HN H.
  assert (G : exists a1 j, 0 <= j /\ asave C (abs s) = Some a1 /\ ashow C (aset_hptr a1 j) = Some (abs s')).
  { destruct Hc as [[-> H0]|[-> H0]]; apply exec_ref in H as [b H]; try exact I; cbn [aexec] in H; unfold acontinue in H; opt H;
      apply some_pair in H as [<- _].
    - apply previous_eq in Ev as (a1 & Hs & Hw); [|exact H0|exact HN]. exists a1, (hptr s - 1). cbn [abs ahptr] in Hw. repeat split; [lia|exact Hs|exact Hw].
    - apply next_eq in Ev as (a1 & Hs & Hw); [|cbn; lia|lia]. exists a1, (hptr s + 1). cbn [abs ahptr] in Hw. repeat split; [lia|exact Hs|exact Hw]. }
  destruct G as (a1 & j & Hj & Hs & Hw). apply ashow_eq in Hw as (_ & _ & _ & W4 & _); [|exact Hj].
  cbn [amodh abs aset_hptr] in W4.
  apply asave_shown in Hs. cbn [ahptr abs] in Hs. unfold shown. unfold ashown in Hs. rewrite W4. exact Hs.
Qed.

(** The invariant of a walk: every entry splits as it did, the typed line is [l] or its
    text split anew, and the line is the entry at the position. *)
Record walking (l : list moji) (p : nat) (s : buf) : Prop := {
  wk_in : (p <= n)%nat;
  wk_at : hptr s = Z.of_nat p;
  wk_old : forall i, (i < n)%nat -> split E (shown (hist C) s (Z.of_nat i)) = split E (nth i (hist C) []);
  wk_new : (p < n)%nat -> split E (shown (hist C) s N) = split E (written l);
  wk_entry : (p < n)%nat -> at_split s (split E (nth p (hist C) [])) [];
  wk_typed : p = n -> line s = l \/ at_split s (split E (written l)) []
}.
Lemma walking_emit l p s ts : walking l p s -> walking l p (emit s ts).
Proof. intros []. now split. Qed.
Lemma at_line s a : at_split s a [] -> line s = a.
Proof. intros [H _]. now rewrite app_nil_r in H. Qed.

Lemma walking_browsed l p q s s' c r : walking l p s -> (q <= n)%nat -> p <> q ->
  ((c = CPreviousHistory /\ 0 < hptr s) \/ (c = CNextHistory /\ 0 <= hptr s < N)) -> 0 < N ->
  exec C c s = Some (s', r) -> browsed C s s' (Z.of_nat q) -> walking l q s'.
Proof.
  intros W Hq Hpq Hc HN He M. pose proof (browse_left _ _ _ _ Hc HN He) as HL. destruct W as [W1 W2 W3 W4 W5 W6].
  assert (Hold : forall i, (i < n)%nat -> split E (shown (hist C) s' (Z.of_nat i)) = split E (nth i (hist C) [])).
  { intros i Hi. destruct (Nat.eq_dec i p) as [->|Hne].
    - rewrite <- W2. destruct HL as [->| ->]; [|rewrite W2; now apply W3].
      specialize (W5 Hi). rewrite (at_line _ _ W5). apply split_again.
    - rewrite (mv_other _ _ _ _ M); [now apply W3|]. rewrite W2. lia. }
  assert (HNn : N = Z.of_nat n) by reflexivity.
  split.
  - exact Hq.
  - apply (mv_at _ _ _ _ M).
  - exact Hold.
  - intros Hlt. destruct (Nat.eq_dec p n) as [->|Hne].
    + pose proof (mv_saved _ _ _ _ M) as G. rewrite W2, <- HNn in G. rewrite G; [|right; left; lia].
      destruct (W6 eq_refl) as [->|Ht]; [reflexivity|]. rewrite (at_line _ _ Ht). apply split_again.
    + rewrite (mv_other _ _ _ _ M); [apply W4; lia|]. rewrite W2. lia.
  - intros Hlt. pose proof (mv_line _ _ _ _ M) as G. now rewrite W3 in G.
  - intros ->. right. pose proof (mv_line _ _ _ _ M) as G. rewrite <- HNn, W4 in G; [exact G|lia].
Qed.

Lemma walking_exec l p s m s' r : walking l p s -> exec C (move_cmd m) s = Some (s', r) ->
  walking l (moves_to (cycling C) n p m) s'.
Proof.
  intros W He. pose proof (wk_in _ _ _ W) as Hp. pose proof (wk_at _ _ _ W) as Ha.
  assert (HNn : N = Z.of_nat n) by reflexivity.
  destruct m; cbn [move_cmd moves_to] in *.
  - destruct p as [|p].
    + destruct (cycling C) eqn:Hcy.
      * destruct (Nat.eq_dec n 0) as [H0|H0].
        { rewrite (previous_stop C _ _ _ He); [|left; lia]. now rewrite H0. }
        apply previous_wrap in He as (P1 & P2 & _ & _ & P3); [|exact Ha|exact Hcy|lia].
        destruct W as [W1 W2 W3 W4 W5 W6]. split.
        -- lia.
        -- lia.
        -- intros i Hi. rewrite P3; [now apply W3|lia].
        -- lia.
        -- lia.
        -- intros _. right. rewrite W4 in P2; [exact P2|lia].
      * rewrite (previous_stop C _ _ _ He); [exact W|right; split; [lia|exact Hcy]].
    + pose proof (previous_history C _ _ _ He ltac:(lia) ltac:(lia)) as M. replace (hptr s - 1) with (Z.of_nat p) in M by lia.
      eapply walking_browsed; [exact W| | | | |exact He|exact M]; [lia|lia|left; split; [reflexivity|lia]|lia].
  - destruct (Nat.eq_dec p n) as [->|Hne].
    + rewrite (next_stop C _ _ _ He); [|left; lia]. replace (Nat.min n (n + 1)) with n by lia. exact W.
    + pose proof (next_history C _ _ _ He ltac:(lia)) as M. replace (hptr s + 1) with (Z.of_nat (p + 1)) in M by lia.
      replace (Nat.min n (p + 1)) with (p + 1)%nat by lia.
      eapply walking_browsed; [exact W| | | | |exact He|exact M]; [lia|lia|right; split; [reflexivity|lia]|lia].
Qed.

Lemma walking_step l p s k m x : walking l p s -> bound S k (move_cmd m) -> step S (EKey k) (Running MNormal s) = Some x ->
  exists s', x = Running MNormal s' /\ walking l (moves_to (cycling C) n p m) s'.
Proof.
  intros W Hb H. cbn [step] in H. unfold key_normal in H. rewrite Hb in H.
  assert (H' : after_command S (exec C (move_cmd m) (emit s [TCursorOff])) = Some x) by (destruct m; exact H). clear H.
  destruct (exec C (move_cmd m) (emit s [TCursorOff])) as [[s1 r]|] eqn:He; [|discriminate].
  pose proof (walking_exec _ _ _ _ _ _ (walking_emit _ _ _ _ W) He) as W1.
  apply (exec_result S) in He as [->|[(E0 & _)|[(E0 & _)|(E0 & _)]]]; try (destruct m; discriminate E0); [|destruct m; exact I].
  apply after_continue in H' as ->. eexists. split; [reflexivity|]. now apply walking_emit, walking_emit.
Qed.
Lemma walking_run l ks : forall ms p s x, walking l p s -> browsing_keys S ks ms -> run S (map EKey ks) (Running MNormal s) = Some x ->
  exists s', x = Running MNormal s' /\ walking l (walk (cycling C) n ms p) s'.
Proof.
  induction ks as [|k ks IH]; intros ms p s x W Hk H; inversion Hk as [|? m ? ms' Hb Hk' E1 E2]; subst; cbn [map run] in H.
  - injection H as <-. exists s. auto.
  - opt H. destruct (walking_step _ _ _ _ _ _ W Hb Ev) as (s1 & -> & W1). unfold walk. cbn [fold_left].
    apply (IH _ _ _ _ W1 Hk' H).
Qed.

(** Until a browsing key is pressed the position is that of the line being typed. *)
Lemma unbrowsed es : forall m s m' s', only_builtin S -> no_browsing S es -> run S es (Running m s) = Some (Running m' s') ->
  history_untouched s s'.
Proof.
  induction es as [|e es IH]; intros m s m' s' HB Hn H; cbn [run] in H.
  - injection H as _ <-. split; reflexivity.
  - apply Forall_cons_iff in Hn as [He Hn]. opt H. destruct s0 as [m1 s1|s1 t err]; [|rewrite run_finished in H; discriminate].
    apply IH in H as [H1 H2]; [|exact HB|exact Hn].
    apply step_history in Ev as [[G1 G2]|(k & c & r & s2 & -> & _ & Hc & Hb & _)]; [split; congruence| |exact HB].
    exfalso. destruct Hc as [->| ->]; [apply (He k Older eq_refl Hb)|apply (He k Newer eq_refl Hb)].
Qed.
Lemma walking_start s : hptr s = N -> modh s = [] -> walking (line s) n s.
Proof. intros H1 H2. split; [lia|exact H1| |lia|lia|now left]. intros i Hi. unfold shown. rewrite H2. cbn [aget]. now rewrite Nat2Z.id. Qed.

Lemma browse d cur w cl es s ks ms x : only_builtin S -> no_browsing S es -> readline S d cur w cl es = Some (Running MNormal s) ->
  browsing_keys S ks ms -> run S (map EKey ks) (Running MNormal s) = Some x ->
  exists s', x = Running MNormal s' /\ walking (line s) (walk (cycling C) n ms n) s'.
Proof.
  intros HB Hn Hr Hk H. unfold readline in Hr. destruct (start S d cur w cl) as [y|] eqn:Hs; [|discriminate].
  apply start_state in Hs as (s0 & -> & _ & _ & _ & _ & Hm & Hh & _). apply unbrowsed in Hr as [H1 H2]; [|exact HB|exact Hn].
  eapply walking_run; [apply walking_start; congruence|exact Hk|exact H].
Qed.
Lemma browse_spec d cur w cl es s ks ms x : only_builtin S -> no_browsing S es -> readline S d cur w cl es = Some (Running MNormal s) ->
  browsing_keys S ks ms -> run S (map EKey ks) (Running MNormal s) = Some x ->
  exists s' p, x = Running MNormal s' /\ p = walk (cycling C) n ms n /\ (p <= n)%nat /\
    ((p < n)%nat -> at_split s' (split E (nth p (hist C) [])) []) /\
    (p = n -> line s' = line s \/ at_split s' (split E (written (line s))) []) /\
    (p = n -> Forall (clean E) (line s) -> line s' = line s).
Proof.
  intros HB Hn Hr Hk H. destruct (browse _ _ _ _ _ _ _ _ _ HB Hn Hr Hk H) as (s' & -> & W). exists s', (walk (cycling C) n ms n).
  split; [reflexivity|]. split; [reflexivity|]. split; [apply (wk_in _ _ _ W)|]. split; [apply (wk_entry _ _ _ W)|].
  split; [apply (wk_typed _ _ _ W)|]. intros Hp Hc. destruct (wk_typed _ _ _ W Hp) as [Hl|Ht]; [exact Hl|].
  rewrite (at_line _ _ Ht). apply (resplit_clean S); [|exact Hc].
  apply (self_reached S (Running MNormal s) (builtin_scripted S HB)). exists d, cur, w, cl, es. exact Hr.
Qed.

(** Going back [k] times. *)
Lemma walk_older cyc nn k : forall p, (k <= p)%nat -> walk cyc nn (repeat Older k) p = (p - k)%nat.
Proof.
  induction k as [|k IH]; intros p Hp; cbn [repeat walk fold_left]; [lia|]. destruct p as [|p]; [lia|]. cbn [moves_to].
  fold (walk cyc nn (repeat Older k) p). rewrite IH; lia.
Qed.

(** The text of a ReadLine ended by Enter is its line's. *)
Lemma finished_step e x s t : step S e x = Some (Finished s t RNil) -> (forall s0 t0, x = Finished s0 t0 RNil -> t0 = written (line s0)) ->
  t = written (line s).
Proof.
  intros H H0. destruct x as [m s0|s0 t0 err]; [|destruct e; injection H as <- <- ->; now apply H0].
  assert (F : forall rc s1, finish S rc s1 = Some (Finished s t RNil) -> t = written (line s)).
  { intros rc s1 Hf. unfold finish in Hf. opt Hf. injection Hf as <- <- _. unfold buf_string, written, line. cbn [cells emit]. apply cell2string_text. }
  assert (A : forall o, after_command S o = Some (Finished s t RNil) -> t = written (line s)).
  { intros [[s1 r]|] Ha; [|discriminate]. destruct r; [discriminate| | |]; eapply F; exact Ha. }
  destruct e as [k| |w|c]; cbn [step] in H.
  - destruct m.
    + unfold key_normal in H. destruct (LookupCommand _ _ k); try (eapply A; exact H); try discriminate.
      unfold search_wait in H. opt H. discriminate.
    + eapply A; exact H.
    + unfold key_search in H. opt H. match type of H with match ?a with _ => _ end = _ => destruct a end; try (eapply A; exact H). unfold search_wait in H. opt H. discriminate.
  - destruct m; [discriminate| |]; eapply A; exact H.
  - destruct m; [|discriminate|discriminate]. opt H. discriminate.
  - discriminate.
Qed.
Lemma finished_run es : forall x s t, run S es x = Some (Finished s t RNil) -> (forall s0 t0, x = Finished s0 t0 RNil -> t0 = written (line s0)) ->
  t = written (line s).
Proof.
  induction es as [|e es IH]; intros x s t H H0; cbn [run] in H.
  - injection H as ->. now apply H0.
  - opt H. eapply IH; [exact H|]. intros s1 t1 ->. eapply finished_step; eauto.
Qed.
Lemma finished_text d cur w cl es s t : readline S d cur w cl es = Some (Finished s t RNil) -> t = written (line s).
Proof.
  intros H. unfold readline in H. destruct (start S d cur w cl) as [y|] eqn:Hs; [|discriminate].
  apply start_state in Hs as (s0 & -> & _). eapply finished_run; [exact H|]. discriminate.
Qed.
End WithSess.

(** The loop: the history grows by one line a turn. *)
Lemma repl_grows S ts : forall h cur h' cur', repl S ts h cur = Some (h', cur') ->
  exists ls, h' = h ++ ls /\ List.length ls = List.length ts.
Proof.
  induction ts as [|t ts IH]; intros h cur h' cur' H; cbn [repl] in H.
  - injection H as <- <-. exists []. now rewrite app_nil_r.
  - destruct (readline _ _ _ _ _ _) as [[|s x []]|]; try discriminate. apply IH in H as (ls & -> & Hl). exists (x :: ls).
    unfold container_add. rewrite <- app_assoc. cbn. auto.
Qed.
Lemma repl_app S ts1 : forall ts2 h cur, repl S (ts1 ++ ts2) h cur =
  (let* (h1, cur1) := repl S ts1 h cur in repl S ts2 h1 cur1).
Proof.
  induction ts1 as [|t ts1 IH]; intros ts2 h cur; cbn [app repl]; [reflexivity|].
  destruct (readline _ _ _ _ _ _) as [[|s x []]|]; try reflexivity. apply IH.
Qed.

Lemma index_ext {A} (l l' : list A) : zlen l = zlen l' -> (forall n, index l n = index l' n) -> l = l'.
Proof.
  revert l'. induction l as [|x l IH]; intros [|y l'] Hz Hi; try (pose proof (Hi 0) as H0; cbn in H0; congruence).
  pose proof (Hi 0) as H0. cbn in H0. injection H0 as ->. f_equal. apply IH.
  - rewrite !zlen_cons in Hz. lia.
  - intros n. destruct (Z.leb_spec 0 n) as [Hn|Hn].
    + specialize (Hi (n + 1)). unfold index in *. replace (0 <=? n + 1) with true in Hi by lia. replace (0 <=? n) with true by lia.
      replace (Z.to_nat (n + 1)) with (Datatypes.S (Z.to_nat n)) in Hi by lia. exact Hi.
    + unfold index. now replace (0 <=? n) with false by lia.
Qed.
Lemma oc_hist S E h : over_container S E -> hist (base (S h)) = h.
Proof. intros HS. symmetry. apply index_ext; [exact (oc_len _ _ HS h)|exact (oc_at _ _ HS h)]. Qed.
Lemma recall S E t ts h cur s text h' cur' d w cl es sd ks x : over_container S E ->
  readline (S h) (t_default t) cur (t_width t) (t_clip t) (t_events t) = Some (Finished s text RNil) ->
  repl S (t :: ts) h cur = Some (h', cur') ->
  no_browsing (S h') es -> readline (S h') d cur' w cl es = Some (Running MNormal sd) ->
  Forall (fun k => bound (S h') k CPreviousHistory) ks -> List.length ks = Datatypes.S (List.length ts) ->
  run (S h') (map EKey ks) (Running MNormal sd) = Some x ->
  exists s', x = Running MNormal s' /\ at_split s' (split E text) [].
Proof.
  intros HS Hr Hp Hn Hd Hk Hl H. cbn [repl] in Hp. rewrite Hr in Hp. apply repl_grows in Hp as (ls & Hh & Hls).
  unfold container_add in Hh. rewrite <- app_assoc in Hh. cbn [app] in Hh.
  assert (Hk' : browsing_keys (S h') ks (repeat Older (List.length ks))).
  { clear -Hk. induction Hk as [|k ks Hb Hk IH]; cbn [List.length repeat]; constructor; assumption. }
  destruct (browse_spec (S h') _ _ _ _ _ _ _ _ _ (oc_builtin _ _ HS h') Hn Hd Hk' H) as (s' & p & -> & Hpe & _ & G & _). exists s'. split; [reflexivity|].
  rewrite (oc_hist S E h' HS) in *. rewrite (oc_env _ _ HS) in *.
  assert (Hlen : List.length h' = (List.length h + Datatypes.S (List.length ls))%nat) by (rewrite Hh, app_length; reflexivity).
  rewrite walk_older in Hpe by lia. assert (p = List.length h) as -> by lia.
  specialize (G ltac:(lia)). rewrite Hh in G. rewrite nth_middle in G. exact G.
Qed.
Lemma reenter S E t ts h cur s text h' cur' d w cl es sd ks kr x : over_container S E ->
  readline (S h) (t_default t) cur (t_width t) (t_clip t) (t_events t) = Some (Finished s text RNil) ->
  repl S (t :: ts) h cur = Some (h', cur') ->
  no_browsing (S h') es -> readline (S h') d cur' w cl es = Some (Running MNormal sd) ->
  Forall (fun k => bound (S h') k CPreviousHistory) ks -> List.length ks = Datatypes.S (List.length ts) ->
  bound (S h') kr CAcceptLine -> Forall (clean E) (line s) ->
  run (S h') (map EKey ks ++ [EKey kr]) (Running MNormal sd) = Some x ->
  exists s', x = Finished s' text RNil.
Proof.
  intros HS Hr Hp Hn Hd Hk Hl Hb Hc H. rewrite run_app in H.
  destruct (run (S h') (map EKey ks) (Running MNormal sd)) as [y|] eqn:Hy; [|discriminate].
  destruct (recall _ _ _ _ _ _ _ _ _ _ _ _ _ _ _ _ _ HS Hr Hp Hn Hd Hk Hl Hy) as (s1 & -> & Hat). cbn [run] in H. opt H. injection H as <-.
  apply key_end in Ev as (s2 & ->); [|exact Hb]. exists s2. f_equal. rewrite (at_line _ _ Hat).
  rewrite (finished_text _ _ _ _ _ _ _ _ Hr) at 1. rewrite <- (oc_env _ _ HS h), (resplit_clean (S h)).
  - symmetry. eapply finished_text; exact Hr.
  - apply (self_reached (S h) (Finished s text RNil)); [apply builtin_scripted, (oc_builtin _ _ HS)|]. do 5 eexists. exact Hr.
  - now rewrite (oc_env _ _ HS).
Qed.
