(** Proofs for C63. *)
From Verif Require Import Base Utf8 Moji Color Prompt Buffer Commands KeyMap Session Reuse SpecReuse.

Definition lk (x : sess) (l : bool) : Prop := match x with Running MNormal _ | Finished _ _ _ => l = false | _ => l = true end.
Lemma run_finished S es s t e : run S es (Finished s t e) = Some (Finished s t e).
Proof. induction es; [reflexivity|]. cbn. exact IHes. Qed.
(** The run with the mutex is the run without. *)
Lemma locked_same S : forall es x l, lk x l -> forall y, run S es x = Some y ->
  exists l', locked_run S es x l = (match y with Finished _ t e => Gives t e | Running _ _ => Waits end, l') /\ lk y l'.
Proof.
  induction es as [|e es IH]; intros x l Hl y Hr.
  - injection Hr as <-. destruct x as [m s|s t e]; exists l; now split.
  - destruct x as [m s|s t e'].
    2:{ rewrite run_finished in Hr. injection Hr as <-. exists l. now split. }
    cbn [run] in Hr. destruct (step S e (Running m s)) as [x'|] eqn:Es; [|discriminate].
    assert (G : forall l0, l0 = true -> lk x' (match x' with Running MNormal _ | Finished _ _ _ => false | _ => l0 end)).
    { intros l0 ->. destruct x' as [[]|]; reflexivity. }
    cbn [locked_run]. rewrite Es.
    destruct e as [k| |w|c]; destruct m as [| |ss]; cbn [lk] in Hl; subst l.
    all: try (apply IH; [apply G; reflexivity|exact Hr]).
    all: try (cbn in Es; injection Es as <-; apply IH; [reflexivity|exact Hr]).
    (* resize *) apply IH; [|exact Hr]. cbn in Es. destruct (on_resize S w s); [|discriminate]. injection Es as <-. reflexivity.
Qed.
Lemma start_normal S d cur w cl x : start S d cur w cl = Some x -> exists s, x = Running MNormal s.
Proof.
  unfold start. destruct (callPromptWriter _ _) as [t pw]. cbv zeta. intros H.
  repeat match type of H with
  | context [match ?u with _ => _ end] => destruct u; try discriminate
  end; injection H as <-; eexists; reflexivity.
Qed.
Lemma call_same c y : fresh c = Some y ->
  exists l', locked_call c false = (match y with Finished _ t e => Gives t e | Running _ _ => Waits end, l') /\ lk y l'.
Proof.
  unfold SpecReuse.fresh, readline, locked_call. destruct (start _ _ _ _ _) as [x|] eqn:Es; [|discriminate]. intros H.
  destruct (start_normal _ _ _ _ _ _ Es) as (s & ->). exact (locked_same _ _ (Running MNormal s) false eq_refl _ H).
Qed.
Lemma calls_same : forall cs, Forall returns cs -> locked_calls cs false = map gives cs.
Proof.
  induction cs as [|c cs IH]; intros H; [reflexivity|]. inversion H as [|? ? (s & t & e & Hc) Hcs]; subst. cbn [locked_calls map].
  destruct (call_same c _ Hc) as (l' & E & Hl). rewrite E. cbn in Hl. subst l'. unfold gives at 1. rewrite Hc. f_equal. apply IH, Hcs.
Qed.
(** and the last call may wait *)
Lemma calls_last cs c : Forall returns cs -> fresh c <> None -> locked_calls (cs ++ [c]) false = map gives (cs ++ [c]).
Proof.
  induction cs as [|d cs IH]; intros H Hc.
  - cbn [app locked_calls map]. destruct (SpecReuse.fresh c) as [y|] eqn:E; [|now destruct Hc]. destruct (call_same c _ E) as (l' & E' & _). rewrite E'.
    unfold gives. rewrite E. destruct y; reflexivity.
  - inversion H as [|? ? (s & t & e & Hd) Hcs]; subst. cbn [app locked_calls map].
    destruct (call_same d _ Hd) as (l' & E & Hl). rewrite E. cbn in Hl. subst l'. unfold gives at 1. rewrite Hd. f_equal. apply IH; assumption.
Qed.
(** With the mutex taken the first key is never served. *)
Lemma taken_stuck S : forall es k s, Forall (fun e => match e with EKey _ | EKeyErr => False | _ => True end) es ->
  forall es', locked_run S (es ++ EKey k :: es') (Running MNormal s) true = (Stuck, true).
Proof.
  induction es as [|e es IH]; intros k s H es'; [reflexivity|]. inversion H; subst. cbn [app locked_run]. destruct e; try easy; cbn; now apply IH.
Qed.
(** Once the mutex is taken outside a call, it stays taken. *)
Lemma taken_run S : forall es s, let r := locked_run S es (Running MNormal s) true in snd r = true /\ no_line (fst r).
Proof.
  induction es as [|e es IH]; intros s; cbv zeta; [split; [reflexivity|now right; right; left]|]. cbn [locked_run].
  destruct e as [k| |w|c].
  - split; [reflexivity|now left].
  - cbn [step locked_run]. destruct es; (split; [reflexivity|right; right; right; eexists; reflexivity]).
  - apply IH.
  - cbn [step]. apply IH.
Qed.
Lemma taken_call c : snd (locked_call c true) = true /\ no_line (fst (locked_call c true)).
Proof.
  unfold locked_call. destruct (start _ _ _ _ _) as [x|] eqn:E; [|split; [reflexivity|now right; left]].
  destruct (start_normal _ _ _ _ _ _ E) as (s & ->). apply taken_run.
Qed.
Lemma taken_calls : forall cs, Forall no_line (locked_calls cs true).
Proof.
  induction cs as [|c cs IH]; [constructor|]. cbn [locked_calls]. destruct (taken_call c) as (Hl & Hr).
  destruct (locked_call c true) as [r l]. cbn [fst snd] in *. subst l. constructor; [exact Hr|]. destruct r; try constructor; exact IH.
Qed.
(** A panic of the loop comes with the mutex taken. *)
Lemma panic_taken S : forall es x l, lk x l -> fst (locked_run S es x l) = Panics -> snd (locked_run S es x l) = true.
Proof.
  induction es as [|e es IH]; intros x l Hl H.
  - destruct x; discriminate H.
  - destruct x as [m s|s t e']; [|discriminate H].
    assert (G : forall x' l0, l0 = true -> lk x' (match x' with Running MNormal _ | Finished _ _ _ => false | _ => l0 end)).
    { intros x' l0 ->. destruct x' as [[]|]; reflexivity. }
    cbn [locked_run] in H |- *.
    destruct e as [k| |w|c]; destruct m as [| |ss]; cbn [lk] in Hl; subst l; cbn [step] in H |- *.
    all: try (apply IH; [reflexivity|exact H]).
    all: match type of H with context [match ?u with Some _ => _ | None => _ end] => destruct u as [x'|] eqn:Es end; try reflexivity; try discriminate H.
    all: try (apply IH; [apply G; reflexivity|exact H]).
    apply IH; [|exact H]. destruct (on_resize S w s); [|discriminate Es]. injection Es as <-. reflexivity.
Qed.
Lemma panic_calls c cs : start (c_set c) (c_default c) (c_cursor c) (c_width c) (c_clip c) <> None -> fst (locked_call c false) = Panics ->
  exists rs, locked_calls (c :: cs) false = Panics :: rs /\ Forall no_line rs.
Proof.
  intros Hs H. cbn [locked_calls]. unfold locked_call in *. destruct (start _ _ _ _ _) as [x|] eqn:E; [|now destruct Hs].
  destruct (start_normal _ _ _ _ _ _ E) as (s & ->). assert (L := panic_taken _ _ (Running MNormal s) false eq_refl H).
  destruct (locked_run _ _ _ _) as [r l]. cbn [fst snd] in *. subst r l. eexists. split; [reflexivity|]. apply taken_calls.
Qed.
(** What comes before is as on fresh Editors, and so is the panic itself. *)
Lemma panic_same S : forall es x l, lk x l -> run S es x = None -> fst (locked_run S es x l) = Panics \/ fst (locked_run S es x l) = Killed.
Proof.
  induction es as [|e es IH]; intros x l Hl H; [discriminate H|]. destruct x as [m s|s t e']; [|rewrite run_finished in H; discriminate H].
  cbn [run] in H. cbn [locked_run].
  assert (G : forall x' l0, l0 = true -> lk x' (match x' with Running MNormal _ | Finished _ _ _ => false | _ => l0 end)).
  { intros x' l0 ->. destruct x' as [[]|]; reflexivity. }
  destruct (step S e (Running m s)) as [x'|] eqn:Es.
  - destruct e as [k| |w|c]; destruct m as [| |ss]; cbn [lk] in Hl; subst l.
    all: try (apply IH; [apply G; reflexivity|exact H]).
    all: try (cbn in Es; injection Es as <-; apply IH; [reflexivity|exact H]).
    apply IH; [|exact H]. cbn in Es. destruct (on_resize S w s); [|discriminate]. injection Es as <-. reflexivity.
  - destruct e as [k| |w|c]; destruct m as [| |ss]; cbn [lk] in Hl; subst l; cbn; try (now left); try (now right); discriminate Es.
Qed.
Lemma panic_later cs c cs' : Forall returns cs -> start (c_set c) (c_default c) (c_cursor c) (c_width c) (c_clip c) <> None -> fresh c = None ->
  exists r rs, locked_calls (cs ++ c :: cs') false = map gives cs ++ r :: rs /\ (r = Panics \/ r = Killed /\ rs = []) /\ Forall no_line rs.
Proof.
  induction cs as [|d cs IH]; intros H Hs Hc.
  - cbn [app map]. destruct (fst (locked_call c false)) eqn:E.
    3:{ destruct (panic_calls c cs' Hs E) as (rs & -> & Hrs). exists Panics, rs. repeat split; auto. }
    4:{ exists Killed, []. cbn [locked_calls]. destruct (locked_call c false). cbn in E. subst. repeat split; auto. }
    all: exfalso; unfold locked_call, SpecReuse.fresh, readline in *; destruct (start _ _ _ _ _) as [x|] eqn:Es; [|now destruct Hs];
      destruct (start_normal _ _ _ _ _ _ Es) as (s & ->); destruct (panic_same _ _ (Running MNormal s) false eq_refl Hc) as [G|G]; rewrite E in G; discriminate G.
  - inversion H as [|? ? (s & t & e & Hd) Hcs]; subst. cbn [app locked_calls map].
    destruct (call_same d _ Hd) as (l' & E & Hl). rewrite E. cbn in Hl. subst l'. unfold gives at 1. rewrite Hd.
    destruct (IH Hcs Hs Hc) as (r & rs & -> & Hr). exists r, rs. split; [reflexivity|exact Hr].
Qed.
