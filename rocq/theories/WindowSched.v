(** No change of the size of the window is lost, under every schedule. *)
From Verif Require Import Base Utf8 Moji Color Prompt Buffer Commands KeyMap Session Spec Sched SpecSched SchedFacts.
From Verif Require WindowFacts.
Ltac lia := unfold rune in *; Lia.lia.

Section R.
Variable S : scfg.
Hypothesis HB : only_builtin S.
Variable I : impl.
Hypothesis HI : implements S I.
Variable w0 : Z.

(** [d] is the width delivered last. *)
Definition told_last (ls : list label) (z : sizer) (d : Z) : Prop :=
  match z with
  | ZLock w => exists pre, sizes ls = pre ++ [w] /\ d = last pre w0
  | _ => d = last (sizes ls) w0
  end.
Definition free (ls : list label) (c : config) : Prop :=
  match sz c with
  | ZBody cd => mutex c = Some Sizer /\ forall s', alone cd (shared c) = Some (s', tt) -> termw s' = last (sizes ls) w0
  | z => mutex c = None /\ told_last ls z (termw (shared c))
  end.
Definition K (ls : list label) (c : config) : Prop :=
  match lp c with
  | LStart _ => False
  | LFlush | LRead | LLock _ => free ls c
  | LInner m => m <> MNormal /\ mutex c = Some Loop /\ ~ in_callback (sz c) /\ told_last ls (sz c) (termw (shared c))
  | LBody cd => mutex c = Some Loop /\ ~ in_callback (sz c) /\ forall p, alone cd (shared c) = Some p -> told_last ls (sz c) (termw (fst p))
  | LEnd _ _ => True
  end.
Lemma key_termw m k s p : alone (on_key I m k) s = Some p -> termw (fst p) = termw s.
Proof.
  intros H. destruct HI as (H1 & _ & _). specialize (H1 m k s). rewrite H in H1. cbn [option_map] in H1. symmetry in H1. apply (WindowFacts.step_kept S HB) in H1; [|discriminate].
  destruct H1 as [H1 _]. cbn [buf_of] in H1. rewrite <- H1. destruct p as [b []]; reflexivity.
Qed.
Lemma err_termw m s p : m <> MNormal -> alone (on_err I m) s = Some p -> termw (fst p) = termw s.
Proof.
  intros Hm H. destruct HI as (_ & H1 & _). specialize (H1 m s Hm). rewrite H in H1. cbn [option_map] in H1. symmetry in H1. apply (WindowFacts.step_kept S HB) in H1; [|discriminate].
  destruct H1 as [H1 _]. cbn [buf_of] in H1. rewrite <- H1. destruct p as [b []]; reflexivity.
Qed.
Lemma size_termw w s s' u : alone (on_size I w) s = Some (s', u) -> termw s' = w.
Proof.
  intros H. destruct HI as (_ & _ & H1). specialize (H1 w s). rewrite H in H1. cbn [option_map fst] in H1.
  assert (H2 : step S (EResize w) (Running MNormal s) = Some (Running MNormal s')) by (cbn [step]; now rewrite <- H1).
  apply WindowFacts.resize_kept in H2 as [H2 _]. exact H2.
Qed.
Ltac snoc := rewrite ?sizes_snoc, ?app_nil_r in *.
Lemma K_keeps ls c l c' : K ls c -> cstep I c l (Some c') -> K (ls ++ [l]) c'.
Proof.
  intros HK H. inversion H; subst; unfold K, free, told_last in *; cbn [lp sz shared mutex] in *; snoc; try (now destruct HK); try exact HK; try exact Logic.I.
  - (* lock *) assert (Hz : ~ in_callback z /\ told_last ls z (termw s)) by (destruct z; cbn; try tauto; destruct HK; discriminate).
    destruct Hz as [Hz1 Hz2]. split; [reflexivity|]. split; [exact Hz1|]. intros p Hp. rewrite (key_termw _ _ _ _ Hp). exact Hz2.
  - (* body *) match goal with H : ?f _ = Some _ |- _ => rewrite (alone_act _ _ _ _ H) in HK end. exact HK.
  - (* unlock *) destruct HK as (_ & Hz & Hk). specialize (Hk _ eq_refl). cbn [fst] in Hk. destruct z; cbn in *; [auto|auto|exfalso; auto].
  - (* wait *) destruct HK as (Hm & Hz & Hk). specialize (Hk _ eq_refl). auto.
  - (* inner key *) destruct HK as (_ & Hm & Hz & Hk). split; [exact Hm|]. split; [exact Hz|]. intros p Hp. rewrite (key_termw _ _ _ _ Hp). exact Hk.
  - (* inner error *) destruct HK as (Hn & Hm & Hz & Hk). split; [exact Hm|]. split; [exact Hz|]. intros p Hp. rewrite (err_termw _ _ _ Hn Hp). exact Hk.
  - (* size *) destruct l0; try exact HK.
    + destruct HK as [H1 H2]. eauto.
    + destruct HK as [H1 H2]. eauto.
    + destruct HK as [H1 H2]. eauto.
    + destruct HK as (H1 & _ & H2). split; [exact H1|]. split; [intros []|]. intros p Hp. exists (sizes ls). split; [reflexivity|exact (H2 p Hp)].
    + destruct HK as (H0 & H1 & _ & H2). split; [exact H0|]. split; [exact H1|]. split; [intros []|]. eauto.
  - (* size lock *) assert (Hq : forall d, (exists pre, sizes ls = pre ++ [w] /\ d = last pre w0) -> forall s', alone (on_size I w) s = Some (s', tt) -> termw s' = last (sizes ls) w0).
    { intros d (pre & -> & _) s' Hs. rewrite last_last. now apply (size_termw w s s' tt). }
    destruct l0; try exact HK; try (destruct HK as [_ HK]; split; [reflexivity|exact (Hq _ HK)]).
    + destruct HK as (HK & _). discriminate HK.
    + destruct HK as (_ & HK & _). discriminate HK.
  - (* size body *) match goal with H : ?f _ = Some _ |- _ => rewrite (alone_act _ _ _ _ H) in HK end. destruct l0; try exact HK.
    + destruct HK as (_ & HK & _). exfalso. apply HK. exact Logic.I.
    + destruct HK as (_ & _ & HK & _). exfalso. apply HK. exact Logic.I.
  - (* size unlock *) destruct l0; try exact HK; try (destruct HK as [_ HK]; split; [reflexivity|exact (HK _ eq_refl)]).
    + destruct HK as (_ & HK & _). exfalso. apply HK. exact Logic.I.
    + destruct HK as (_ & _ & HK & _). exfalso. apply HK. exact Logic.I.
Qed.
Lemma K_exec s0 ls c : termw s0 = w0 -> exec_to I (ready s0) ls (Some c) -> K ls c.
Proof.
  intros Hw H. remember (ready s0) as c0 eqn:Hc. remember (Some c) as o eqn:Ho. revert c Ho.
  induction H as [c|c ls c1 l o H IH Hst]; intros c2 Ho; subst.
  - injection Ho as <-. split; [reflexivity|exact Hw].
  - eapply K_keeps; [|exact Hst]. now apply IH.
Qed.
End R.
Lemma last_size S I : only_builtin S -> implements S I -> forall default cur w cl s0 ls c,
  start S default cur w cl = Some (Running MNormal s0) -> exec_to I (ready s0) ls (Some c) -> lp c = LRead -> sz c = ZIdle ->
  termw (shared c) = last (sizes ls) w.
Proof.
  intros HB HI default cur w cl s0 ls c Hs Hx Hl Hz. pose proof (WindowFacts.start_window S default cur w cl _ Hs) as [Hw _]. cbn [buf_of] in Hw.
  pose proof (K_exec S HB I HI w s0 ls c Hw Hx) as HK. unfold K, free in HK. rewrite Hl, Hz in HK. apply HK.
Qed.
Lemma X_app I c ls c1 ls2 o : exec_to I c ls (Some c1) -> exec_to I c1 ls2 o -> exec_to I c (ls ++ ls2) o.
Proof.
  intros H H2. induction H2 as [c2|c2 ls2 c3 l o H2 IH Hs]; [now rewrite app_nil_r|]. rewrite app_assoc. eapply X_step; [apply IH; exact H|exact Hs].
Qed.
