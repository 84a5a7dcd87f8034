(** Every character of the line was supplied (C75). *)
From Verif Require Import Base Utf8 Moji Color Prompt Buffer Commands KeyMap Session MojiFacts Abs AbsRef AbsSess AbsSafe AbsInv Safe SafeSess Plain Spec Reach Script SpecSupply Alphabet Sched SpecSched SchedFacts.
From Verif Require SchedScreen.
From Verif Require Import Session Spec.
Ltac lia := unfold rune in *; Lia.lia.

Section WithSess.
Variable S : scfg.
Notation C := (base S).
Notation E := (cE C).
Variable A : rune -> Prop.
Hypothesis HZ : joining S A -> A 8205 /\ A 65533.
Hypothesis Hpred : pcolor0 C = [] \/ forall t c, made_of A t -> made_of A (predictor C t c).
Hypothesis Hhist : Forall (made_of A) (hist C).
Notation NU := (Alphabet.NU A).

Lemma seen s : NU (abs s) -> seen_ok A s.
Proof.
  intros H. split; [|exact (proj1 (proj2 (proj2 (proj2 (proj2 H)))))]. unfold made_of, buf_string. rewrite cell2string_text. apply (single_of A). apply H.
Qed.
Lemma NU_cur s n : NU (abs s) -> NU (abs (set_cursor s n)).
Proof. intros H. exact H. Qed.
Lemma NU_call c s s' : call_ok S A c -> NU (abs s) -> do_call C c s = Some s' -> NU (abs s').
Proof.
  intros Hok H Hc. destruct c as [pos t|pos n|pos t|t| | | | | | |n|n|ts|c]; cbn [do_call] in Hc.
  - opt Hc. injection Hc as <-. apply InsertString_ref in Ev. eapply NU_ains; [exact H|apply single_units; [exact HZ|exact Hok]|exact (proj1 Ev)].
  - opt Hc. injection Hc as <-. apply Delete_ref in Ev. eapply NU_adelete; [exact H|exact Ev].
  - apply ReplaceAndRepaint_ref in Hc. eapply NU_areplace; eauto.
  - apply ReplaceAndRepaint_ref in Hc. eapply NU_areplace; eauto.
  - apply repaint_ref in Hc. rewrite Hc. now apply NU_aupdate.
  - apply repaint_ref in Hc. rewrite Hc. now apply NU_aupdate.
  - apply RepaintAll_ref in Hc. rewrite Hc. now apply NU_aupdate.
  - apply repaint_ref in Hc. rewrite Hc. now apply NU_aupdate.
  - injection Hc as <-. exact H.
  - injection Hc as <-. exact H.
  - injection Hc as <-. exact H.
  - opt Hc. injection Hc as <-. destruct H as [H1 H2]. split; [|exact H2]. cbn [abs aline cells set_cells] in *. unfold emojis in *.
    rewrite Forall_map in *. eapply Forall_slice; [exact Ev|exact H1].
  - injection Hc as <-. exact H.
  - destruct c; try discriminate; opt Hc; injection Hc as <-; apply exec_ref in Ev as [b0 Ev]; try exact I; (eapply NU_exec; [exact HZ|exact Hpred|exact Hhist|exact H|exact Hok|exact Ev]).
Qed.
Lemma NU_script p : forall s s' r, script_ok S A p -> NU (abs s) -> run_script C p s = Some (s', r) -> NU (abs s').
Proof.
  induction p as [r0| |k IH|c p IH]; intros s s' r Hp H Hr; cbn [run_script script_ok] in *.
  - now injection Hr as <- _.
  - discriminate.
  - eapply IH; [|exact H|exact Hr]. apply Hp. now apply seen.
  - destruct Hp as [Hc Hp]. opt Hr. eapply IH; [exact Hp| |exact Hr]. eapply NU_call; eauto.
Qed.

Variable Q : Prop.
Notation NS := (Alphabet.NS A Q).
Lemma NS_builtin T e x x' : base T = C -> builtin_keys T ->
  (forall k, e = EKey k -> Q -> typed_ok S A k) -> (forall t, e = EClip (Some t) -> made_of A t) ->
  (forall k, e = EKey k -> command_ok S A (LookupCommand (kmap T) (gmap T) k) /\ (LookupCommand (kmap T) (gmap T) k = CQuotedInsert -> Q)) ->
  NS (abss x) -> step T e x = Some x' -> NS (abss x').
Proof.
  destruct T as [C0 km gm]. cbn [base]. intros -> HB H1 H2 H3 H Hs. apply step_ref in Hs as [b Hs]; [|exact HB].
  exact (NS_step (mkScfg C km gm) A HZ Hpred Hhist Q b e _ _ H1 H2 H3 H Hs).
Qed.
Lemma NS_event e x x' : supplied_event S A e ->
  (forall k, e = EKey k -> Q -> typed_ok S A k) ->
  (forall k, e = EKey k -> LookupCommand (kmap S) (gmap S) k = CQuotedInsert -> Q) ->
  NS (abss x) -> step S e x = Some x' -> NS (abss x').
Proof.
  intros He H1 H2 H Hs. destruct e as [k| |w|c];
    try (match type of Hs with step S ?e _ = _ => apply (NS_builtin (mkScfg C [] []) e x x' eq_refl (fun k => I) H1) end;
      [try discriminate; now intros t [= ->]|discriminate|exact H|rewrite <- Hs; destruct x as [[| |ss] s|s t r]; reflexivity]).
  specialize (H2 k eq_refl). cbn in He. unfold key_ok in He.
  destruct (LookupCommand (kmap S) (gmap S) k) eqn:Hc;
    try (rewrite just_step, Hc in Hs; eapply NS_builtin; [| |exact H1|discriminate| |exact H|exact Hs]; [reflexivity|apply just_builtin; exact I|];
         intros k0 [= <-]; rewrite just_lookup; split; [exact He|exact H2]).
  destruct x as [[| |ss] s|s t r].
  - cbn [step] in Hs. unfold key_normal in Hs. rewrite Hc in Hs. cbn [exec] in Hs. destruct He as (p & Hp & Hok). rewrite Hp in Hs.
    destruct (run_script C p (emit s [TCursorOff])) as [[s' r]|] eqn:Hr; [|discriminate].
    pose proof (after_ref S (Some (s', r)) x' (Some (abs s', r))) as Ha. specialize (Ha ltac:(intros ? ? [= <- <-]; reflexivity) Hs).
    eapply NS_after; [|exact Ha]. eapply NU_script; [exact Hok| |exact Hr]. apply H.
  - apply (NS_builtin (just S k (CBeginningOfLine)) (EKey k) (Running MQuoted s) x' eq_refl (just_builtin S k CBeginningOfLine I) H1); [discriminate| |exact H|exact Hs].
    intros k0 [= <-]. rewrite just_lookup. split; [exact I|discriminate].
  - apply (NS_builtin (just S k (CBeginningOfLine)) (EKey k) (Running (MSearch ss) s) x' eq_refl (just_builtin S k CBeginningOfLine I) H1); [discriminate| |exact H|exact Hs].
    intros k0 [= <-]. rewrite just_lookup. split; [exact I|discriminate].
  - apply (NS_builtin (just S k (CBeginningOfLine)) (EKey k) (Finished s t r) x' eq_refl (just_builtin S k CBeginningOfLine I) H1); [discriminate| |exact H|exact Hs].
    intros k0 [= <-]. rewrite just_lookup. split; [exact I|discriminate].
Qed.
Lemma NS_run es : forall x x', Forall (supplied_event S A) es ->
  (forall k, In (EKey k) es -> Q -> typed_ok S A k) ->
  (forall k, In (EKey k) es -> LookupCommand (kmap S) (gmap S) k = CQuotedInsert -> Q) ->
  NS (abss x) -> run S es x = Some x' -> NS (abss x').
Proof.
  induction es as [|e es IH]; intros x x' He H1 H2 H Hr; cbn [run] in Hr; [now injection Hr as <-|]. opt Hr. inversion He as [|? ? He1 He2]; subst.
  eapply IH; [exact He2| | | |exact Hr]; [intros; apply H1; auto with *|intros k Hk; apply H2; auto with *|].
  eapply NS_event; [exact He1| | |exact H|exact Ev]; intros k ->; [apply H1|apply H2]; now left.
Qed.
End WithSess.

Section Whole.
Variable S : scfg.
Variable A : rune -> Prop.
Lemma supplied_ok d cur w cl es x : supplied S A d cl es -> readline S d cur w cl es = Some x ->
  Alphabet.NS A (quoting S es) (abss x).
Proof.
  intros [Hd Hh Hc Hp He Hq Hj] H. unfold readline in H. opt H. eapply NS_run; try eassumption.
  - intros k Hk HQ. now apply Hq.
  - intros k Hk HQ. now exists k.
  - apply start_ref in Ev. rewrite Ev. split; [exact I|]. now apply NU_start.
Qed.
Lemma supplied_finished d cur w cl es s t r : supplied S A d cl es -> readline S d cur w cl es = Some (Finished s t r) ->
  made_of A t /\ forall u, clip s = Some u -> made_of A u.
Proof.
  intros H Hr. pose proof (supplied_ok _ _ _ _ _ _ H Hr) as [Hu Ht]. split; [exact Ht|]. apply seen in Hu. apply Hu.
Qed.
Lemma supplied_running d cur w cl es m s : supplied S A d cl es -> readline S d cur w cl es = Some (Running m s) ->
  made_of A (buf_string s) /\ forall u, clip s = Some u -> made_of A u.
Proof. intros H Hr. pose proof (supplied_ok _ _ _ _ _ _ H Hr) as [_ Hu]. now apply seen in Hu. Qed.
Lemma inputs_in es k : In (EKey k) es <-> In (EKey k) (inputs es).
Proof. unfold inputs. rewrite filter_In. cbn. tauto. Qed.
Lemma supplied_inputs d cl es : supplied S A d cl (inputs es) -> supplied S A d cl es.
Proof.
  intros [Hd Hh Hc Hp He Hq Hj]. split; try assumption.
  - apply Forall_forall. intros e Hi. destruct e as [k| |w|c]; try exact I.
    + rewrite Forall_forall in He. apply (He (EKey k)). now apply (proj1 (inputs_in es _)).
    + rewrite Forall_forall in He. apply (He (EClip c)). unfold inputs. apply filter_In. auto.
  - intros (k & Hk & Hl) k' Hk'. apply Hq; [exists k; split; [now apply (proj1 (inputs_in es _))|exact Hl]|now apply (proj1 (inputs_in es _))].
Qed.
Lemma supplied_schedule' I default cur w cl s0 ls c m :
  implements S I -> supplied S A default cl (typed ls) ->
  start S default cur w cl = Some (Running MNormal s0) -> exec_to I (ready s0) ls (Some c) ->
  lp c = LRead /\ m = MNormal /\ ~ in_callback (sz c) \/ lp c = LInner m ->
  made_of A (buf_string (shared c)) /\ forall u, clip (shared c) = Some u -> made_of A u.
Proof.
  intros HI Hs H0 Hx Hl. destruct (SchedScreen.as_session S I HI default cur w cl s0 ls c m H0 Hx Hl) as (es & _ & Hi & Hr).
  rewrite <- Hi in Hs. apply supplied_inputs in Hs. eapply supplied_running; eauto.
Qed.
End Whole.
Lemma supplied_schedule S I A default cur w cl s0 ls c m :
  implements S I -> supplied S A default cl (typed ls) ->
  start S default cur w cl = Some (Running MNormal s0) -> exec_to I (ready s0) ls (Some c) ->
  lp c = LRead /\ m = MNormal /\ ~ in_callback (sz c) \/ lp c = LInner m ->
  made_of A (buf_string (shared c)) /\ forall u, clip (shared c) = Some u -> made_of A u.
Proof. apply supplied_schedule'. Qed.
