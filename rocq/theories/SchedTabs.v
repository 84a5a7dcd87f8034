(** Schedules of sessions with tabs: lemmas for PSched.v. *)
From Verif Require Import Base Utf8 Moji Color Prompt Buffer Commands KeyMap Session Spec SpecTabs TabsFacts Sched SpecSched SchedFacts.

Lemma inputs_cons e es : inputs (e :: es) = (if is_resize e then [] else [e]) ++ inputs es.
Proof. unfold inputs. cbn. now destruct (is_resize e). Qed.
Lemma typed_ordinary S ls : Forall (ordinary_label S) ls -> Forall (ordinary_event S) (typed ls).
Proof.
  induction 1 as [|l ls Hl _ IH]; [constructor|]. cbn [typed flat_map]. apply Forall_app. split; [|exact IH].
  destruct l; try constructor; try exact Hl; try exact Logic.I; constructor.
Qed.
Lemma sizes_ordinary S ls : Forall (ordinary_label S) ls -> Forall (fun w => ordinary_event S (EResize w)) (sizes ls).
Proof.
  induction 1 as [|l ls Hl _ IH]; [constructor|]. cbn [sizes flat_map]. apply Forall_app. split; [|exact IH].
  destruct l; try constructor; try exact Hl; constructor.
Qed.
Lemma split_ordinary S es : Forall (ordinary_event S) (inputs es) -> Forall (fun w => ordinary_event S (EResize w)) (resizes es) -> Forall (ordinary_event S) es.
Proof.
  induction es as [|e es IH]; [constructor|]. rewrite inputs_cons. cbn [resizes flat_map]. intros H1 H2.
  apply Forall_app in H1 as [H1 H1']. apply Forall_app in H2 as [H2 H2']. constructor; [|now apply IH].
  destruct e; cbn in H1, H2; inversion H1; inversion H2; subst; assumption.
Qed.
Lemma within_ordinary S ls es : Forall (ordinary_label S) ls -> within ls es -> Forall (ordinary_event S) es.
Proof.
  intros Hl [[ks Hk] [ws Hw]]. apply split_ordinary.
  - apply typed_ordinary in Hl. rewrite Hk in Hl. now apply Forall_app in Hl as [Hl _].
  - apply sizes_ordinary in Hl. rewrite Hw in Hl. now apply Forall_app in Hl as [Hl _].
Qed.
Lemma inputs_app a b : inputs (a ++ b) = inputs a ++ inputs b.
Proof. unfold inputs. apply filter_app. Qed.
Lemma resizes_app a b : resizes (a ++ b) = resizes a ++ resizes b.
Proof. unfold resizes. apply flat_map_app. Qed.
Lemma within_prefix ls a b : within ls (a ++ b) -> within ls a.
Proof.
  intros [[ks Hk] [ws Hw]]. rewrite inputs_app, <- app_assoc in Hk. rewrite resizes_app, <- app_assoc in Hw. split; eauto.
Qed.
Lemma no_crash_tabs S I : implements S I -> forall default cur w cl s0 ls c l,
  ordinary_editor S -> ordinary_text (cE (base S)) default -> ordinary_clip (cE (base S)) cl -> 0 <= cur ->
  prompt_width (base S) + 11 < w -> start S default cur w cl = Some (Running MNormal s0) -> Forall (ordinary_label S) ls ->
  (forall es e x, within ls (es ++ [e]) -> readline S default cur w cl es = Some x -> short_line x /\ no_swap_at_end S e x) ->
  exec_to I (ready s0) ls (Some c) -> (forall t e, lp c <> LEnd t e) -> ~ cstep I c l None.
Proof.
  intros HI default cur w cl s0 ls c l HE Hd Hcl Hc Hw Hs Hl Hsh Hx Hend Hst.
  destruct (crash_sequential S I HI s0 ls c l Hx Hend Hst) as (es & Hr & Hwi).
  destruct (ordinary_safe S default cur w cl es HE Hd Hcl (within_ordinary S ls es Hl Hwi) Hc Hw) as (x & Hx' & _).
  - intros es1 e es2 x He. apply Hsh. apply (within_prefix ls _ es2). rewrite <- app_assoc. cbn [app]. now rewrite <- He.
  - unfold readline in Hx'. rewrite Hs in Hx'. congruence.
Qed.

Lemma crash_within S I : implements S I -> forall s0 ls c l, exec_to I (ready s0) ls (Some c) ->
  (forall t e, lp c <> LEnd t e) -> cstep I c l None -> exists es, within ls es /\ run S es (Running MNormal s0) = None.
Proof. intros HI s0 ls c l H1 H2 H3. destruct (crash_sequential S I HI s0 ls c l H1 H2 H3) as (es & H & H'). now exists es. Qed.

(** The orders of one key and one size, for the example. *)
Lemma two_orders ls k w es : typed ls = [k] -> sizes ls = [w] -> within ls es ->
  es = [] \/ es = [k] \/ es = [EResize w] \/ es = [k; EResize w] \/ es = [EResize w; k].
Proof.
  intros Ht Hz [[ks Hk] [ws Hw]]. rewrite Ht in Hk. rewrite Hz in Hw.
  assert (Hl : (List.length es = List.length (inputs es) + List.length (resizes es))%nat).
  { clear. induction es as [|e es IH]; [reflexivity|]. rewrite inputs_cons. cbn [resizes flat_map]. rewrite !app_length. fold (resizes es). cbn [List.length].
    rewrite IH. destruct e; cbn; rewrite ?Nat.add_succ_r; reflexivity. }
  apply (f_equal (@List.length _)) in Hk as Hk1. apply (f_equal (@List.length _)) in Hw as Hw1. rewrite app_length in Hk1, Hw1. cbn [List.length] in Hk1, Hw1.
  destruct es as [|a [|b [|c es]]]; [now left| | |cbn [List.length] in Hl; lia].
  - destruct a; cbn in Hk, Hw; try discriminate; try (injection Hk as ->); try (injection Hw as ->); auto.
  - destruct a; destruct b; cbn in Hk, Hw; try discriminate; try (injection Hk as ->); try (injection Hw as ->); auto 6.
Qed.
