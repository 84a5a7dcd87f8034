(** Facts about whole key presses and runs of them. *)
From Verif Require Import Base Utf8 Moji Color Prompt Buffer Commands KeyMap Session MojiFacts
  Abs AbsRef AbsSess AbsSafe AbsInv Safe SafeSess Plain Spec TextFacts Reach SafetyFacts CmdFacts WordFacts EditFacts EditProps LineInv EditMore.

Section WithSess.
Variable S : scfg.
Notation C := (base S).
Notation E := (cE C).

Lemma same_refl s : same_state s s. Proof. repeat split. Qed.
Lemma same_emit s ts : same_state s (emit s ts). Proof. repeat split. Qed.
Lemma same_trans a b c : same_state a b -> same_state b c -> same_state a c.
Proof.
  intros ((A1 & A2 & A3 & A4 & A5 & A6) & A7) ((B1 & B2 & B3 & B4 & B5 & B6) & B7).
  repeat split; congruence.
Qed.
Lemma same_abs s s' : abs s' = abs s -> same_state s s'.
Proof. intros H. apply abs_fields in H as F. destruct F as [F1 F2 F3 F4 F5 F6 F7]. repeat split; assumption. Qed.
Lemma at_split_emit s ts p q : at_split s p q -> at_split (emit s ts) p q. Proof. exact (fun H => H). Qed.

(** ** Typing (C03) *)
Lemma after_continue s x : after_command S (Some (s, CONTINUE)) = Some x ->
  x = Running MNormal (emit (emit s [TCursorOn]) [TFlush]).
Proof. cbn. intros H. now injection H as <-. Qed.

Lemma type_key k s x p q : unbound S k -> at_split s p q -> joins E (first_rune (altgr k)) = false ->
  step S (EKey k) (Running MNormal s) = Some x ->
  exists s', x = Running MNormal s' /\ at_split s' (p ++ split E (pending s ++ altgr k)) q /\ pending s' = [] /\
    clip s' = clip s /\ history_untouched s s'.
Proof.
  intros Hu Hs Hj H. cbn [step] in H. unfold key_normal in H. unfold unbound, bound in Hu. rewrite Hu in H.
  destruct (exec C (CSelfInsert k) (emit s [TCursorOff])) as [[s1 r]|] eqn:He; [|discriminate].
  destruct (self_insert C _ _ _ p q k He (at_split_emit _ _ _ _ Hs) Hj) as (H1 & H2 & H3 & H4 & ->).
  apply after_continue in H. eexists. split; [exact H|]. repeat split; try apply H1; try apply H3; assumption.
Qed.

Lemma type_keys ks : forall s x p q, Forall (unbound S) ks -> Forall (fun k => joins E (first_rune (altgr k)) = false) ks ->
  at_split s p q -> pending s = [] -> run S (map EKey ks) (Running MNormal s) = Some x ->
  exists s', x = Running MNormal s' /\ at_split s' (p ++ flat_map (fun k => split E (altgr k)) ks) q /\ pending s' = [] /\
    clip s' = clip s /\ history_untouched s s'.
Proof.
  induction ks as [|k ks IH]; intros s x p q Hu Hj Hs Hp H; cbn [map run] in H.
  - injection H as <-. exists s. cbn [flat_map]. rewrite app_nil_r. repeat split; try assumption; apply Hs.
  - opt H. apply Forall_cons_iff in Hu as [Hu Hu']. apply Forall_cons_iff in Hj as [Hj Hj'].
    destruct (type_key k s s0 p q Hu Hs Hj Ev) as (s1 & -> & H1 & H2 & H3 & H4). rewrite Hp in H1. cbn [app] in H1.
    destruct (IH s1 x _ q Hu' Hj' H1 H2 H) as (s2 & -> & G1 & G2 & G3 & G4 & G5). exists s2. split; [reflexivity|].
    cbn [flat_map]. rewrite app_assoc. split; [exact G1|]. split; [exact G2|]. split; [congruence|]. destruct H4. split; congruence.
Qed.

(** The start of a ReadLine (C42). *)
Lemma start_state default cur w cl x : start S default cur w cl = Some x ->
  exists s, x = Running MNormal s /\ line s = split E default /\
    cursor s = Z.min cur (zlen (split E default)) /\ undoes s = [mkUndo 0 (zlen (split E default)) []] /\
    pending s = [] /\ modh s = [] /\ hptr s = zlen (hist C) /\ clip s = cl.
Proof.
  intros H. pose proof (start_ref S default cur w cl x H) as R. destruct x as [m s|]; [|discriminate R].
  injection R as -> R. exists s. split; [reflexivity|].
  assert (Hmin : (if zlen (units E default) <? cur then zlen (units E default) else cur) = Z.min cur (zlen (units E default))).
  { destruct (Z.ltb_spec (zlen (units E default)) cur); lia. }
  rewrite !(split_units C).
  assert (F : fields s (astart S default cur cl)).
  { apply abs_fields. unfold abs. f_equal; assumption. }
  destruct F as [F1 F2 F3 F4 F5 F6 F7]. unfold astart in *. rewrite aupdate_line in F1. rewrite aupdate_cur in F2.
  rewrite aupdate_undo in F3. rewrite aupdate_clip in F4. rewrite aupdate_modh in F5. rewrite EditFacts.aupdate_hptr in F6. rewrite aupdate_pend in F7.
  cbn [aline acur aundo aclip amodh ahptr apend] in *. rewrite <- Hmin. auto 10.
Qed.

(** Ending (C10). *)
Lemma finish_state rc s x : finish S rc s = Some x -> exists s', x = Finished s' (written (line s)) (result_err rc).
Proof.
  intros H. pose proof (finish_ref S rc s x H) as R. unfold afinish in R. destruct x as [|s' t e]; [discriminate|].
  exists s'. cbn [abss] in R. injection R as _ _ _ _ _ _ _ _ -> ->. reflexivity.
Qed.
Lemma exec_result c s s' r : builtin c -> exec C c s = Some (s', r) ->
  r = CONTINUE \/ (c = CAcceptLine /\ r = ENTER /\ s' = s) \/ (c = CInterrupt /\ r = INTR /\ line s' = []) \/
  (c = CDeleteOrAbort /\ r = ABORT /\ line s = [] /\ s' = s).
Proof.
  intros HB H.
  assert (G : forall o, continue_ o = Some (s', r) -> r = CONTINUE).
  { intros o Ho. unfold continue_ in Ho. opt Ho. now injection Ho as <- <-. }
  destruct c; cbn [exec] in H; try (left; eapply G; exact H); try (left; injection H as <- <-; reflexivity).
  - right. left. injection H as <- <-. auto.
  - right. right. left. unfold cmdInterrupt in H. apply some_pair in H as [-> ->]. auto.
  - unfold cmdDeleteOrAbort in H. destruct (0 <? zlen (cells s)) eqn:Hz.
    + left. opt H. injection H as _ <-. reflexivity.
    + right. right. right. injection H as <- <-. repeat split. unfold line.
      assert (zlen (cells s) = 0) by (pose proof (zlen_nonneg (cells s)); lia). now rewrite (zlen_0 (cells s)).
  - destruct HB.
Qed.
Lemma key_end k s x : bound S k CAcceptLine -> step S (EKey k) (Running MNormal s) = Some x ->
  exists s', x = Finished s' (written (line s)) RNil.
Proof.
  intros Hb H. cbn [step] in H. unfold key_normal in H. rewrite Hb in H. cbn in H. apply finish_state in H as [s' ->]. eauto.
Qed.
Lemma key_interrupt k s x : bound S k CInterrupt -> step S (EKey k) (Running MNormal s) = Some x ->
  exists s', x = Finished s' [] RCtrlC.
Proof.
  intros Hb H. cbn [step] in H. unfold key_normal in H. rewrite Hb in H. cbn in H. apply finish_state in H as [s' ->]. eauto.
Qed.
Lemma key_eof k s x : bound S k CDeleteOrAbort -> line s = [] -> step S (EKey k) (Running MNormal s) = Some x ->
  exists s', x = Finished s' [] REOF.
Proof.
  intros Hb Hl H. cbn [step] in H. unfold key_normal in H. rewrite Hb in H. cbn [exec] in H. unfold cmdDeleteOrAbort in H.
  assert (Hc : cells s = []) by (unfold line in Hl; destruct (cells s); [reflexivity|discriminate]).
  cbn [cells emit] in H. rewrite Hc in H. cbn in H. apply finish_state in H as [s' ->]. exists s'. cbn [line emit cells]. 
  unfold line. cbn [cells emit]. rewrite Hc. reflexivity.
Qed.
Lemma key_delete k s x : bound S k CDeleteOrAbort -> line s <> [] -> step S (EKey k) (Running MNormal s) = Some x ->
  exists s', x = Running MNormal s'.
Proof.
  intros Hb Hl H. cbn [step] in H. unfold key_normal in H. rewrite Hb in H.
  destruct (exec C CDeleteOrAbort (emit s [TCursorOff])) as [[s1 r]|] eqn:He; [|discriminate].
  apply exec_result in He as [->|[(He & _)|[(He & _)|(_ & _ & He & _)]]]; try discriminate; [|contradiction|exact I].
  apply after_continue in H. eauto.
Qed.
Lemma read_error s : step S EKeyErr (Running MNormal s) = Some (Finished (emit s [TCursorOn; TFlush]) [] RKeyError).
Proof. reflexivity. Qed.
Lemma ends_only e m s s' t err : only_builtin S -> step S e (Running m s) = Some (Finished s' t err) ->
  m = MNormal /\
  ((e = EKeyErr /\ t = [] /\ err = RKeyError) \/
   (exists k, e = EKey k /\
     ((bound S k CAcceptLine /\ t = written (line s) /\ err = RNil) \/
      (bound S k CInterrupt /\ t = [] /\ err = RCtrlC) \/
      (bound S k CDeleteOrAbort /\ line s = [] /\ t = [] /\ err = REOF)))).
Proof.
  intros HB H. pose proof (only_builtin_keys S HB) as HK. destruct e as [k| |w|c]; cbn [step] in H.
  - destruct m as [| |ss].
    + split; [reflexivity|]. right. exists k. split; [reflexivity|]. unfold key_normal in H. specialize (HK k). unfold bound.
      destruct (LookupCommand (kmap S) (gmap S) k) as [] eqn:Hc; try (unfold search_wait in H; opt H; discriminate); try discriminate;
        match type of H with after_command _ (exec _ ?c _) = _ =>
          destruct (exec C c (emit s [TCursorOff])) as [[s1 r]|] eqn:He; [|discriminate];
          apply (exec_result c) in He as [->|[(He & -> & Hs)|[(He & -> & Hl)|(He & -> & Hl & Hs)]]];
            [apply after_continue in H; discriminate|try discriminate He|try discriminate He|try discriminate He|exact HK]
        end.
      * cbn in H. subst s1. apply finish_state in H as [s2 H]. injection H as -> -> ->. auto.
      * cbn in H. apply finish_state in H as [s2 H]. injection H as -> -> ->. right. left. split; [reflexivity|]. split; [|reflexivity].
        cbn [line emit cells] in *. unfold line in *. cbn [cells emit]. now rewrite Hl.
      * cbn in H. subst s1. apply finish_state in H as [s2 H]. injection H as -> -> ->. right. right. split; [reflexivity|].
        assert (Hl' : line s = []) by exact Hl. split; [exact Hl'|]. split; [|reflexivity].
        unfold line in *. cbn [cells emit]. now rewrite Hl'.
    + unfold key_quoted in H. destruct (selfInsert C k s); [|discriminate]. apply after_continue in H. discriminate.
    + unfold key_search in H. opt H. destruct s0; [unfold search_wait in H; opt H; discriminate| |];
        match type of H with after_command _ (continue_ ?o) = _ => destruct o; [|discriminate] end; apply after_continue in H; discriminate.
  - destruct m.
    + injection H as _ <- <-. auto.
    + apply after_continue in H. discriminate.
    + apply after_continue in H. discriminate.
  - destruct m; try discriminate. opt H. discriminate.
  - discriminate.
Qed.

(** Quoted insert (C47). *)
Lemma quoted_begin k s x : bound S k CQuotedInsert -> step S (EKey k) (Running MNormal s) = Some x ->
  exists s', x = Running MQuoted s' /\ same_state s s'.
Proof.
  intros Hb H. cbn [step] in H. unfold key_normal in H. rewrite Hb in H. injection H as <-. eexists. split; [reflexivity|]. repeat split.
Qed.
Lemma quoted_key k s x p q : at_split s p q -> joins E (first_rune (altgr k)) = false ->
  step S (EKey k) (Running MQuoted s) = Some x ->
  exists s', x = Running MNormal s' /\ at_split s' (p ++ split E (pending s ++ altgr k)) q /\ pending s' = [] /\
    clip s' = clip s /\ history_untouched s s'.
Proof.
  intros Hs Hj H. cbn [step] in H. unfold key_quoted in H. destruct (selfInsert C k s) as [s1|] eqn:He; [|discriminate].
  assert (He' : exec C (CSelfInsert k) s = Some (s1, CONTINUE)) by (cbn; now rewrite He).
  destruct (self_insert C _ _ _ p q k He' Hs Hj) as (H1 & H2 & H3 & H4 & _).
  apply after_continue in H. eexists. split; [exact H|]. repeat split; try apply H1; try apply H3; assumption.
Qed.
Lemma quoted_error s : exists s', step S EKeyErr (Running MQuoted s) = Some (Running MNormal s') /\ same_state s s'.
Proof. eexists. split; [reflexivity|]. repeat split. Qed.

(** Incremental search (C19). *)
Notation display_only := nothing_changed.
Lemma paints_display s s' : paints s s' -> display_only s s'.
Proof.
  intros H. pose proof (paints_abs _ _ H) as Ha. apply paints_fields in H as (_ & _ & H1 & H2 & _ & H3 & _).
  apply same_abs in Ha as [Ha1 Ha2]. split; [exact Ha1|auto].
Qed.
Lemma display_trans a b c : display_only a b -> display_only b c -> display_only a c.
Proof.
  intros (A1 & A2 & A3 & A4) (B1 & B2 & B3 & B4).
  assert (G : same_state a c) by (apply (same_trans a b c); split; assumption). destruct G as [G1 G2].
  split; [exact G1|]. repeat split; congruence.
Qed.
Lemma search_begin k s x : bound S k CISearchBackward -> step S (EKey k) (Running MNormal s) = Some x ->
  exists s', x = Running (MSearch (mkSearch [] [] (zlen (hist C) - 1))) s' /\ display_only s s'.
Proof.
  intros Hb H. cbn [step] in H. unfold key_normal in H. rewrite Hb in H. unfold search_wait in H. opt H. injection H as <-.
  eexists. split; [reflexivity|]. repeat split.
Qed.
Lemma search_key_cases k ss s x : step S (EKey k) (Running (MSearch ss) s) = Some x ->
  (exists ss' s', x = Running (MSearch ss') s' /\ search_key S k ss = Some (SContinue ss') /\ display_only s s') \/
  (search_key S k ss = Some SAccept /\ k = [13] /\ exists s', x = Running MNormal s') \/
  (search_key S k ss = Some SCancel /\ exists s', x = Running MNormal s' /\ display_only s s').
Proof.
  intros H. cbn [step] in H. unfold key_search in H. opt H. destruct s0 as [ss'| |].
  - left. unfold search_wait in H. opt H. injection H as <-. eexists ss', _. split; [reflexivity|]. split; [reflexivity|]. repeat split.
  - right. left. split; [reflexivity|]. split.
    + unfold search_key in Ev. destruct (str_eqb k [8] || str_eqb k [127]); [discriminate|].
      destruct (str_eqb k [13]) eqn:Hk; [now apply str_eqb_eq in Hk|]. exfalso.
      destruct (_ || _); [discriminate|]. destruct (str_eqb k [18]); [opt Ev; discriminate|].
      destruct (str_eqb k [19]); [opt Ev; discriminate|]. destruct (decode_rune k). destruct (is_control _); discriminate.
    + destruct (search_accept _ _ _); [|discriminate]. apply after_continue in H. eauto.
  - right. right. split; [reflexivity|]. destruct (search_cancel S (GotoHead (emit s [TCursorOff]))) as [s1|] eqn:Hc; [|discriminate].
    apply after_continue in H. eexists. split; [exact H|].
    unfold search_cancel in Hc. 
    destruct (getView2 _ _) as [[e0 e1]|]; [|discriminate].
    destruct (puts _ _ _ _) as [s2|] eqn:Hp in Hc; [|discriminate].
    apply puts_paints in Hp, Hc.
    assert (P : paints s s1).
    { eapply paints_trans; [apply paints_emit|]. eapply paints_trans; [apply GotoHead_paints|]. eapply paints_trans; [exact Hp|].
      eapply paints_trans; [apply eraseline_paints|]. eapply paints_trans; [apply GotoHead_paints|]. exact Hc. }
    apply paints_display in P. exact P.
Qed.
Lemma cancel_keys k ss : cancel_key k -> search_key S k ss = Some SCancel.
Proof. intros [->|[->| ->]]; reflexivity. Qed.
Lemma search_cancelled k ss s x : cancel_key k -> step S (EKey k) (Running (MSearch ss) s) = Some x ->
  exists s', x = Running MNormal s' /\ display_only s s'.
Proof.
  intros Hk H. pose proof (cancel_keys k ss Hk) as Hc.
  destruct (search_key_cases k ss s x H) as [(ss' & s' & _ & Hx & _)|[(Hx & _)|(_ & G)]]; [congruence|congruence|exact G].
Qed.
Lemma search_error ss s : exists s', step S EKeyErr (Running (MSearch ss) s) = Some (Running MNormal s') /\ display_only s s'.
Proof. eexists. split; [reflexivity|]. repeat split. Qed.
(** A stretch of keys that stays in the search. *)
Lemma search_keys ks : forall ss s ss' s', 
  (forall ks1 ks2, ks = ks1 ++ ks2 -> exists ss1 s1, run S (map EKey ks1) (Running (MSearch ss) s) = Some (Running (MSearch ss1) s1)) ->
  run S (map EKey ks) (Running (MSearch ss) s) = Some (Running (MSearch ss') s') -> display_only s s'.
Proof.
  induction ks as [|k ks IH]; intros ss s ss' s' Hpre H; cbn [map run] in H.
  - injection H as <- <-. repeat split.
  - opt H. destruct (Hpre [k] ks eq_refl) as (ss1 & s1 & Hk). cbn [map run] in Hk. rewrite Ev in Hk. injection Hk as ->.
    destruct (search_key_cases k ss s _ Ev) as [(ss2 & s2 & Hx & _ & Hd)|[(_ & _ & s2 & Hx)|(_ & s2 & Hx & _)]]; try discriminate.
    injection Hx as <- <-. eapply display_trans; [exact Hd|]. eapply IH; [|exact H].
    intros ks1 ks2 Hks. destruct (Hpre (k :: ks1) ks2) as (ss3 & s3 & Hr); [now rewrite Hks|].
    cbn [map run] in Hr. rewrite Ev in Hr. eauto.
Qed.
End WithSess.
