(** Life cycle of the terminal: lemmas for PSched.v. *)
From Verif Require Import Base Utf8 Moji Color Prompt Buffer Commands KeyMap Session MojiFacts
  Abs AbsRef AbsSess Spec Reach OutFacts Script SpecScript Life SpecLife.

Definition ends_flushed (e : event) : list tok := match e with EKey _ | EKeyErr => [TFlush] | _ => [] end.
Definition step_shape (e : event) (s : buf) (x' : sess) : Prop :=
  match x' with
  | Running _ s' => exists l, out s' = out s ++ l ++ ends_flushed e
  | Finished s' _ _ => exists l, out s' = out s ++ l ++ [TCursorOn; TFlush]
  end.

Section WithSess.
Variable S : scfg.
Notation C := (base S).
Notation E := (cE C).
Hypothesis HB : scripted S.

(** What a user command writes. *)
Lemma ext_call c s s' : do_call C c s = Some s' -> ext s s'.
Proof.
  intros Hc. destruct c as [pos t|pos n|pos t|t| | | | | | |n|n|ts|c]; cbn [do_call] in Hc.
  - opt Hc. injection Hc as <-. eapply ext_InsertString; eauto.
  - opt Hc. injection Hc as <-. eapply ext_Delete; eauto.
  - eapply ext_Replace; eauto.
  - eapply ext_Replace; eauto.
  - eapply ext_repaint; eauto.
  - apply ext_repaint in Hc. exact Hc.
  - eapply ext_RepaintAll; eauto.
  - eapply ext_RepaintLastLine; eauto.
  - injection Hc as <-. exists []. now rewrite app_nil_r.
  - injection Hc as <-. unfold GotoHead. apply ext_emit.
  - injection Hc as <-. exists []. now rewrite app_nil_r.
  - opt Hc. injection Hc as <-. exists []. now rewrite app_nil_r.
  - injection Hc as <-. apply ext_emit.
  - destruct c; try discriminate; opt Hc; injection Hc as <-; (eapply ext_exec; [|exact Ev]; exact I).
Qed.
Lemma ext_script p : forall s s' r, run_script C p s = Some (s', r) -> ext s s'.
Proof.
  induction p as [r0| |k IH|c p IH]; intros s s' r Hr; cbn [run_script] in Hr.
  - injection Hr as <- _. apply ext_refl.
  - discriminate.
  - eapply IH; eauto.
  - opt Hr. eapply ext_trans; [eapply ext_call; eauto|eapply IH; eauto].
Qed.

Lemma finish_shape rc s0 s x e : ext s0 s -> finish S rc s = Some x -> step_shape e s0 x.
Proof.
  intros [l Hl] H. unfold finish in H. opt H. injection H as <-. cbn [step_shape].
  assert (G : ext s b) by (destruct (suffix s); [apply ext_repaintW in Ev; exact Ev|injection Ev as <-; apply ext_refl]).
  destruct G as [l' Hl']. exists (l ++ l' ++ [TLineFeed (result_code rc); TFlush]). cbn [emit out]. rewrite Hl', Hl.
  now rewrite <- !app_assoc.
Qed.
Lemma after_shape o s0 x e : (forall s r, o = Some (s, r) -> ext s0 s) ->
  ends_flushed e = [TFlush] -> after_command S o = Some x -> step_shape e s0 x.
Proof.
  intros Ho He H. unfold after_command in H. opt H. subst. specialize (Ho _ _ eq_refl).
  destruct r; try (eapply finish_shape; [|exact H]; now apply ext_emit_r).
  injection H as <-. destruct Ho as [l Hl]. exists (l ++ [TCursorOn]). cbn. rewrite Hl, He. now rewrite <- !app_assoc.
Qed.
Lemma wait_shape ss s0 s x e : ext s0 s -> ends_flushed e = [TFlush] -> search_wait S ss s = Some x -> step_shape e s0 x.
Proof.
  intros [l Hl] He H. unfold search_wait in H. opt H. injection H as <-. cbn. exists (l ++ l0 ++ [TErase; TCursorOn]).
  rewrite Hl, He. now rewrite <- !app_assoc.
Qed.
Lemma accept_ext ss s s' : search_accept S ss s = Some s' -> ext s s'.
Proof. unfold search_accept. intros H. apply ext_Replace in H. exact H. Qed.
Lemma cancel_ext s s' : search_cancel S s = Some s' -> ext s s'.
Proof.
  unfold search_cancel. intros H. opt H. apply ext_puts in Ev0, H. eapply ext_trans; [exact Ev0|]. eapply ext_trans; [|exact H].
  apply ext_emit_r, ext_emit.
Qed.
Lemma resize_ext w s s' : on_resize S w s = Some s' -> ext s s'.
Proof. unfold on_resize. intros H. apply ext_RepaintLastLine in H. exact H. Qed.

Lemma step_out e m s x' : step S e (Running m s) = Some x' -> step_shape e s x'.
Proof.
  intros H. cbn [step] in H. destruct e as [k| |w|c].
  - destruct m as [| |ss].
    + unfold key_normal in H. pose proof (HB k) as Hb. remember (LookupCommand (kmap S) (gmap S) k) as c eqn:Hc. clear Hc.
      assert (G : builtin c -> after_command S (exec C c (emit s [TCursorOff])) = Some x' -> step_shape (EKey k) s x').
      { intros Hb0. apply after_shape; [|reflexivity]. intros s1 r1 H1. eapply ext_trans; [apply ext_emit|]. eapply ext_exec; eauto. }
      destruct c; try (apply G; [exact I|assumption]).
      * injection H as <-. cbn. exists [TCursorOff; TCursorOn]. now rewrite <- app_assoc.
      * eapply wait_shape; [|reflexivity|exact H]. apply ext_emit_r, ext_emit.
      * eapply after_shape; [|reflexivity|exact H]. intros s1 r1 H1. cbn [exec] in H1. destruct (Hb f eq_refl) as [p Hp]. rewrite Hp in H1.
        eapply ext_trans; [apply ext_emit|]. eapply ext_script; eauto.
    + unfold key_quoted in H. eapply after_shape; [|reflexivity|exact H]. intros s1 r1 H1. opt H1. injection H1 as <- <-.
      apply ext_emit_r. eapply ext_selfInsert; eauto.
    + unfold key_search in H. opt H. destruct s0.
      * eapply wait_shape; [|reflexivity|exact H]. apply ext_emit_r, ext_emit.
      * eapply after_shape; [|reflexivity|exact H]. intros s1 r1 H1. unfold continue_ in H1. opt H1. injection H1 as <- <-.
        apply accept_ext in Ev0. eapply ext_trans; [|exact Ev0]. apply ext_emit_r, ext_emit.
      * eapply after_shape; [|reflexivity|exact H]. intros s1 r1 H1. unfold continue_ in H1. opt H1. injection H1 as <- <-.
        apply cancel_ext in Ev0. eapply ext_trans; [|exact Ev0]. apply ext_emit_r, ext_emit.
  - destruct m.
    + injection H as <-. exists []. reflexivity.
    + eapply after_shape; [|reflexivity|exact H]. intros s1 r1 H1. injection H1 as <- <-. apply ext_emit.
    + eapply after_shape; [|reflexivity|exact H]. intros s1 r1 H1. injection H1 as <- <-. apply ext_refl.
  - destruct m; try (injection H as <-; exists []; cbn; now rewrite app_nil_r).
    opt H. injection H as <-. apply resize_ext in Ev as [l Hl]. exists l. cbn. now rewrite app_nil_r.
  - injection H as <-. exists []. cbn. now rewrite app_nil_r.
Qed.
Lemma start_out default cur w cl x : start S default cur w cl = Some x ->
  exists s l, x = Running MNormal s /\ out s = l ++ [TFlush].
Proof.
  unfold start. destruct (callPromptWriter E (prompt C)) as [t pw]. intros H. opt H. injection H as <-.
  eexists _, (out b0 ++ [TCursorOn]). split; [reflexivity|]. cbn. now rewrite <- app_assoc.
Qed.

Lemma skipn_ext (a l : list tok) : skipn (List.length a) (a ++ l) = l.
Proof. now rewrite skipn_app, skipn_all, Nat.sub_diag. Qed.
Lemma undeferred_app l : undeferred (l ++ [TCursorOn; TFlush]) = l.
Proof.
  unfold undeferred. rewrite app_length. cbn [List.length]. replace (List.length l + 2 - 2)%nat with (List.length l + 0)%nat by lia.
  rewrite firstn_app_2. cbn. apply app_nil_r.
Qed.

Lemma calls_app p a b : calls p (a ++ b) = let* q := calls p a in calls q b.
Proof.
  revert p. induction a as [|x a IH]; intros p; cbn [app calls]; [reflexivity|]. destruct (call p x); [apply IH|reflexivity].
Qed.
Lemma calls_out p l : calls p (map AOut l) = Some p.
Proof. induction l as [|t l IH]; [reflexivity|]. cbn. now destruct p. Qed.

Lemma outputs_app a b : outputs (a ++ b) = outputs a ++ outputs b.
Proof. apply flat_map_app. Qed.
Lemma outputs_out l : outputs (map AOut l) = l.
Proof. induction l as [|t l IH]; [reflexivity|]. cbn. f_equal. exact IH. Qed.

(** Each wait for a key comes right after a flush. *)
Definition flushed_waits (tr : list act) : Prop := forall a b, tr = a ++ AGetKey :: b -> exists a', a = a' ++ [AOut TFlush].
Lemma flushed_app a b : flushed_waits a -> flushed_waits b -> flushed_waits (a ++ b).
Proof.
  intros Ha Hb x y H. apply app_eq_app in H as (l & [[H1 H2]|[H1 H2]]).
  - destruct l as [|z l].
    + cbn in H2. symmetry in H2. destruct (Hb [] y H2) as [a' H']. now destruct a'.
    + injection H2 as <- ->. exact (Ha x l H1).
  - subst x. destruct (Hb l y H2) as [a' ->]. exists (a ++ a'). now rewrite app_assoc.
Qed.
Lemma flushed_out l : flushed_waits (map AOut l).
Proof.
  intros a b H. exfalso. assert (G : In AGetKey (map AOut l)) by (rewrite H; apply in_or_app; right; now left).
  apply in_map_iff in G as (t & G & _). discriminate.
Qed.
Lemma flushed_get l : flushed_waits (map AOut (l ++ [TFlush]) ++ [AGetKey]).
Proof.
  intros a b H. destruct b as [|y b _] using rev_ind.
  - apply app_inj_tail in H as [H _]. exists (map AOut l). now rewrite <- H, map_app.
  - exfalso. rewrite app_comm_cons, app_assoc in H. apply app_inj_tail in H as [H _].
    assert (G : In AGetKey (map AOut (l ++ [TFlush]))) by (rewrite H; apply in_or_app; right; now left).
    apply in_map_iff in G as (t & G & _). discriminate.
Qed.
Lemma flushed_none tr : ~ In AGetKey tr -> flushed_waits tr.
Proof. intros H a b ->. exfalso. apply H. apply in_or_app. right. now left. Qed.

Definition loop_good (tr : list act) (o : outcome) : Prop :=
  calls IsOpen tr = Some (match o with Blocked => IsOpen | _ => IsClosed end) /\
  (o <> Blocked -> exists tr', tr = tr' ++ [AOut TCursorOn; AOut TFlush]) /\ flushed_waits tr.

Lemma loop_ok es : forall x tr o, loop_calls S es x = (tr, o) -> loop_good tr o.
Proof.
  assert (F0 : flushed_waits close_and_show) by (apply flushed_none; cbn; intuition discriminate).
  induction es as [|e es IH]; intros x tr o H.
  - destruct x as [m s|s t r]; cbn [loop_calls] in H; injection H as <- <-.
    + split; [reflexivity|]. split; [congruence|]. intros a b Ha. now destruct a.
    + split; [reflexivity|]. split; [now exists [AClose]|exact F0].
  - destruct x as [m s|s t r]; cbn [loop_calls] in H.
    2:{ injection H as <- <-. split; [reflexivity|]. split; [now exists [AClose]|exact F0]. }
    destruct (step S e (Running m s)) as [x'|] eqn:Hs.
    2:{ injection H as <- <-. split; [reflexivity|]. split; [now exists [AClose]|exact F0]. }
    destruct (loop_calls S es x') as [tr' o'] eqn:Hl. injection H as <- <-. apply IH in Hl as (H1 & H2 & H3).
    apply step_out in Hs. assert (G : calls IsOpen (step_calls e (Running m s) x') = Some IsOpen /\ flushed_waits (step_calls e (Running m s) x')).
    { unfold step_calls, written_between. destruct x' as [m' s'|s' t' r']; cbn [step_shape state] in *; destruct Hs as [l ->]; rewrite skipn_ext.
      - rewrite calls_app, calls_out. destruct e; cbn [ends_flushed]; split; try reflexivity; try apply flushed_get; rewrite !app_nil_r; apply flushed_out.
      - rewrite undeferred_app, calls_out. split; [reflexivity|apply flushed_out]. }
    destruct G as [G1 G2]. split; [rewrite calls_app, G1; exact H1|]. split; [|now apply flushed_app].
    intros Ho. destruct (H2 Ho) as [tr'' ->]. exists (step_calls e (Running m s) x' ++ tr''). now rewrite app_assoc.
Qed.

Lemma loop_result es : forall x tr o, loop_calls S es x = (tr, o) ->
  match o with
  | Blocked => exists m s, run S es x = Some (Running m s) /\ out (state x) ++ outputs tr = out s
  | Returned t e => exists s r, run S es x = Some (Finished s t r) /\ e = LRead r /\
      (forall m s0, x = Running m s0 -> out s0 ++ outputs tr = out s)
  | Panicked => run S es x = None
  end.
Proof.
  induction es as [|e es IH]; intros x tr o H.
  - destruct x as [m s|s t r]; cbn [loop_calls] in H; injection H as <- <-; cbn.
    + exists m, s. now rewrite app_nil_r.
    + exists s, r. split; [reflexivity|]. split; [reflexivity|]. discriminate.
  - destruct x as [m s|s t r]; cbn [loop_calls] in H.
    2:{ injection H as <- <-. exists s, r. split.
        - clear. induction es as [|e' es IH]; [reflexivity|]. exact IH.
        - split; [reflexivity|discriminate]. }
    cbn [run]. destruct (step S e (Running m s)) as [x'|] eqn:Hs; [|injection H as <- <-; reflexivity].
    destruct (loop_calls S es x') as [tr' o'] eqn:Hl. injection H as <- <-. pose proof Hl as Hl0. apply IH in Hl.
    apply step_out in Hs.
    assert (G : match x' with Running _ s' => out s ++ outputs (step_calls e (Running m s) x') = out s'
                | Finished s' _ _ => out s ++ outputs (step_calls e (Running m s) x') ++ [TCursorOn; TFlush] = out s' end).
    { unfold step_calls, written_between. destruct x' as [m' s'|s' t' r']; cbn [step_shape state] in *; destruct Hs as [l ->]; rewrite skipn_ext.
      - rewrite outputs_app, outputs_out. destruct e; cbn; now rewrite !app_nil_r.
      - rewrite undeferred_app, outputs_out. reflexivity. }
    destruct o' as [|t' e'|].
    + destruct Hl as (m' & s' & Hr & Ho). exists m', s'. split; [exact Hr|]. rewrite outputs_app, app_assoc. cbn [state].
      destruct x' as [m1 s1|s1 t1 r1]; [rewrite G; exact Ho|]. exfalso. clear -Hr. induction es as [|a es IH]; cbn in Hr; [discriminate|auto].
    + destruct Hl as (s' & r & Hr & -> & Ho). exists s', r. split; [exact Hr|]. split; [reflexivity|]. intros m0 s0 Hx. injection Hx as <- <-.
      rewrite outputs_app, app_assoc. destruct x' as [m1 s1|s1 t1 r1]; [rewrite G; now apply (Ho m1)|].
      assert (R : forall es, run S es (Finished s1 t1 r1) = Some (Finished s1 t1 r1)) by (clear; induction es; [reflexivity|exact IHes]).
      rewrite R in Hr. injection Hr as <- <- <-. rewrite <- G, app_assoc. f_equal.
      destruct es; cbn in Hl0; injection Hl0 as <-; reflexivity.
    + exact Hl.
Qed.
End WithSess.

Section Top.
Variable S : scfg.
Hypothesis HB : scripted S.

Lemma life_protocol default cur ok size cl es tr o : readline_calls S default cur ok size cl es = (tr, o) ->
  calls NotOpen tr = Some (match o with Blocked => IsOpen | _ => if ok then IsClosed else NotOpen end).
Proof.
  unfold readline_calls. intros H. destruct ok; [|injection H as <- <-; reflexivity].
  destruct size as [w|]; [|injection H as <- <-; reflexivity].
  destruct (start S default cur w cl) as [x|]; [|injection H as <- <-; reflexivity].
  destruct (loop_calls S es x) as [tr' o'] eqn:Hl. injection H as <- <-. apply loop_ok in Hl as (H1 & _); [|exact HB].
  cbn [app calls call]. rewrite calls_app, calls_out. exact H1.
Qed.
Lemma life_cursor default cur ok size cl es tr o : readline_calls S default cur ok size cl es = (tr, o) -> o <> Blocked ->
  exists tr', tr = tr' ++ [AOut TCursorOn; AOut TFlush].
Proof.
  unfold readline_calls. intros H Ho. destruct ok; [|injection H as <- <-; now exists [AOpen false]].
  destruct size as [w|]; [|injection H as <- <-; now exists [AOpen true; ASize false; AClose]].
  destruct (start S default cur w cl) as [x|]; [|injection H as <- <-; now exists [AOpen true; ASize true; AClose]].
  destruct (loop_calls S es x) as [tr' o'] eqn:Hl. injection H as <- <-. apply loop_ok in Hl as (_ & H2 & _); [|exact HB].
  destruct (H2 Ho) as [tr2 ->]. eexists. rewrite !app_comm_cons, !app_assoc. reflexivity.
Qed.
Lemma life_flushed default cur ok size cl es tr o : readline_calls S default cur ok size cl es = (tr, o) -> flushed_waits tr.
Proof.
  unfold readline_calls. intros H. destruct ok; [|injection H as <- <-; apply flushed_none; cbn; intuition discriminate].
  destruct size as [w|]; [|injection H as <- <-; apply flushed_none; cbn; intuition discriminate].
  destruct (start S default cur w cl) as [x|] eqn:Hs; [|injection H as <- <-; apply flushed_none; cbn; intuition discriminate].
  destruct (loop_calls S es x) as [tr' o'] eqn:Hl. injection H as <- <-. apply loop_ok in Hl as (_ & _ & H3); [|exact HB].
  apply start_out in Hs as (s & l & -> & Hs). cbn [state]. rewrite Hs.
  apply (flushed_app [AOpen true; ASize true]); [apply flushed_none; cbn; intuition discriminate|].
  change (AGetKey :: tr') with ([AGetKey] ++ tr'). rewrite app_assoc. apply flushed_app; [apply flushed_get|exact H3].
Qed.
Lemma life_session default cur w cl es tr o : readline_calls S default cur true (Some w) cl es = (tr, o) ->
  match o with
  | Blocked => exists m s, readline S default cur w cl es = Some (Running m s) /\ outputs tr = out s
  | Returned t e => exists s r, readline S default cur w cl es = Some (Finished s t r) /\ e = LRead r /\ outputs tr = out s
  | Panicked => readline S default cur w cl es = None
  end.
Proof.
  unfold readline_calls, readline. destruct (start S default cur w cl) as [x|] eqn:Hs; [|intros H; now injection H as <- <-].
  destruct (loop_calls S es x) as [tr' o'] eqn:Hl. intros H. injection H as <- <-. pose proof Hs as Hs0. apply start_out in Hs as (s & l & -> & Hs).
  apply loop_result in Hl; [|exact HB]. cbn [state] in *.
  assert (Ho : outputs (map AOut (out s) ++ AGetKey :: tr') = out s ++ outputs tr').
  { rewrite outputs_app, outputs_out. reflexivity. }
  cbn [outputs flat_map app]. fold (outputs (map AOut (out s) ++ AGetKey :: tr')). rewrite Ho.
  destruct o' as [|t e|].
  - destruct Hl as (m & s' & Hr & Hl). eauto.
  - destruct Hl as (s' & r & Hr & -> & Hl). exists s', r. split; [exact Hr|]. split; [reflexivity|]. now apply (Hl MNormal).
  - exact Hl.
Qed.
End Top.

(** tty10: Close. *)
Definition fuel_pol (p : poller) : nat := match p with PSelect => 0 | PSize => 3 | PWait => 2 | PInside => 1 | PGone => 0 end.
Definition fuel_clo (k : closer) : nat := match k with KIdle => 0 | KSend => 3 | KClose => 2 | KDisable => 1 | KDone => 0 end.
Definition fuel (x : tty) : nat := fuel_pol (pol x) + fuel_clo (clo x) + (if tick x then 4 else 0).

Definition tinv (x : tty) : Prop :=
  (mut x = ThePoller <-> pol x = PInside) /\
  match clo x with
  | KIdle => chan_open x = true /\ pol x <> PGone
  | KSend => chan_open x = true /\ pol x <> PGone /\ mut x <> TheEditor
  | KClose => chan_open x = true /\ pol x = PGone /\ mut x <> TheEditor
  | KDisable | KDone => chan_open x = false /\ pol x = PGone /\ mut x <> TheEditor
  end.

(** Before Close is called. *)
Definition tinv0 (x : tty) : Prop := (mut x = ThePoller <-> pol x = PInside) /\ (clo x = KIdle -> chan_open x = true /\ pol x <> PGone).
Lemma tinv0_step x l y : (clo x = KIdle -> tinv0 x) -> tstep x l (Some y) -> clo y = KIdle -> tinv0 y.
Proof.
  intros H Hs Hy. assert (Hx : clo x = KIdle).
  { inversion Hs; subst; cbn in *; try congruence. }
  specialize (H Hx). unfold tinv0 in *. inversion Hs; subst; cbn in *; intuition congruence.
Qed.
Lemma tinv0_runs x ls o : truns x ls o -> (clo x = KIdle -> tinv0 x) -> forall y, o = Some y -> clo y = KIdle -> tinv0 y.
Proof.
  induction 1 as [x|x ls y l o Hr IH Hs]; intros Hx z Hz Hk; [injection Hz as <-; auto|]. subst o.
  eapply tinv0_step; [|exact Hs|exact Hk]. apply IH; auto.
Qed.

(** After. *)
Definition tinv1 (x : tty) : Prop := clo x <> KIdle /\ tinv x.
Lemma tinv1_step x l o : tinv1 x -> tstep x l o -> l <> CallClose -> exists y, o = Some y /\ tinv1 y /\
  (fuel y + (match l with Run => 1 | _ => 0 end) <= fuel x + (match l with Tick => 4 | _ => 0 end))%nat.
Proof.
  intros [Hk (Hm & Hc)] Hs Hl. unfold tinv1, tinv, fuel.
  destruct x as [p k m b c]. destruct k; cbn in *; try congruence; inversion Hs; subst; cbn in *; try congruence;
  first [ exfalso; intuition congruence
        | eexists; split; [reflexivity|]; cbn; split; [intuition congruence|destruct b; cbn; lia]
        | eexists; split; [reflexivity|]; cbn; split; [intuition congruence|cbn; lia] ].
Qed.
Fixpoint count_runs (ls : list tlabel) : nat := match ls with [] => 0 | Run :: l => Datatypes.S (count_runs l) | _ :: l => count_runs l end.
Fixpoint count_ticks (ls : list tlabel) : nat := match ls with [] => 0 | Tick :: l => Datatypes.S (count_ticks l) | _ :: l => count_ticks l end.
Lemma count_runs_app a b : count_runs (a ++ b) = (count_runs a + count_runs b)%nat.
Proof. induction a as [|x a IH]; [reflexivity|]. destruct x; cbn; rewrite IH; lia. Qed.
Lemma count_ticks_app a b : count_ticks (a ++ b) = (count_ticks a + count_ticks b)%nat.
Proof. induction a as [|x a IH]; [reflexivity|]. destruct x; cbn; rewrite IH; lia. Qed.
Lemma tinv1_runs x ls o : truns x ls o -> tinv1 x -> ~ In CallClose ls -> exists y, o = Some y /\ tinv1 y /\
  (fuel y + count_runs ls <= fuel x + 4 * count_ticks ls)%nat.
Proof.
  induction 1 as [x|x ls y l o Hr IH Hs]; intros Hx Hn; [exists x; cbn; repeat split; try apply Hx; lia|].
  destruct (IH Hx) as (y' & Hy & Hi & Hf); [intros Hc; apply Hn, in_or_app; now left|]. injection Hy as <-.
  destruct (tinv1_step _ _ _ Hi Hs) as (z & -> & Hz & Hg); [intros ->; apply Hn, in_or_app; right; now left|].
  exists z. split; [reflexivity|]. split; [exact Hz|]. rewrite count_runs_app, count_ticks_app. destruct l; cbn in *; lia.
Qed.
Lemma tinv1_progress x : tinv1 x -> clo x <> KDone -> exists y, tstep x Run (Some y).
Proof.
  intros [Hk (Hm & Hc)] Hd. destruct x as [p k m b o]. cbn in *. destruct k; try congruence; destruct Hc as (-> & Hp & Hq).
  - destruct p; try congruence.
    + eexists. apply T_rendezvous.
    + eexists. apply T_size_error.
    + destruct m; try congruence; [eexists; apply T_enter|]. destruct Hm as [Hm _]. discriminate (Hm eq_refl).
    + assert (m = ThePoller) as -> by tauto. eexists. apply T_leave.
  - eexists. apply T_close.
  - eexists. apply T_disable.
Qed.
Lemma close_inv ls x : truns tty_opened ls (Some x) -> clo x = KIdle -> mut x <> TheEditor ->
  forall o, tstep x CallClose o -> exists y, o = Some y /\ tinv1 y /\ (fuel y <= 10)%nat.
Proof.
  intros Hr Hk Hm o Hs. assert (Hi : tinv0 x).
  { eapply tinv0_runs; [exact Hr| |reflexivity|exact Hk]. intros _. split; cbn; [split; discriminate|split; [reflexivity|discriminate]]. }
  destruct Hi as [H1 H2]. specialize (H2 Hk). inversion Hs; subst. cbn in *. eexists. split; [reflexivity|].
  split; [|unfold fuel; cbn; destruct p, b; cbn; lia]. split; [discriminate|]. split; [exact H1|]. cbn. intuition.
Qed.

Lemma close_safe ls x ls' y o : truns tty_opened ls (Some x) -> clo x = KIdle -> mut x <> TheEditor ->
  tstep x CallClose (Some y) -> truns y ls' o -> ~ In CallClose ls' ->
  exists z, o = Some z /\ (clo z <> KDone -> exists z', tstep z Run (Some z')) /\
    (count_runs ls' <= 10 + 4 * count_ticks ls')%nat /\
    (clo z = KDone -> pol z = PGone /\ mut z = Nobody).
Proof.
  intros Hr Hk Hm Hs Hr' Hn. destruct (close_inv _ _ Hr Hk Hm _ Hs) as (y0 & Hy & Hi & Hf). injection Hy as <-.
  destruct (tinv1_runs _ _ _ Hr' Hi Hn) as (z & -> & Hz & Hg). exists z. split; [reflexivity|].
  split; [now apply tinv1_progress|]. split; [lia|]. intros Hd. destruct Hz as [_ [Hm2 Hc2]]. rewrite Hd in Hc2.
  destruct Hc2 as (_ & Hp & He). split; [exact Hp|]. destruct (mut z); try congruence. destruct Hm2 as [Hm2 _]. specialize (Hm2 eq_refl). congruence.
Qed.

Lemma close_stuck ls z o : truns (mkTty PWait KSend TheEditor false true) ls o -> o = Some z -> clo z = KSend /\ pol z = PWait.
Proof.
  intros Hr. remember (mkTty PWait KSend TheEditor false true) as x eqn:Hx. intros ->.
  enough (G : exists b, z = mkTty PWait KSend TheEditor b true) by (destruct G as [b ->]; split; reflexivity).
  remember (Some z) as o eqn:Ho. revert z Ho. induction Hr as [x|x ls y l o Hr IH Hs]; intros z Ho.
  - injection Ho as <-. eexists. exact Hx.
  - subst o. destruct (IH Hx y eq_refl) as [b ->]. inversion Hs; subst; solve [eexists; reflexivity|intuition discriminate].
Qed.
