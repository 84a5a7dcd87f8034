(** Predictions beside tabs while the window is resized: lemmas for PSchedPred.v. *)
From Verif Require Import Base Utf8 Moji Color Prompt Buffer Commands KeyMap Session Spec SpecLib SpecTerm SpecScreen SpecVt SpecTabScreen SpecVtTabs SpecTabScroll
  Sched SpecSched SchedFacts SpecPredShown SpecSchedPred.
From Verif Require SchedScreen VtPredCut.
From Verif Require Import Session Spec SpecScreen.

Section Run.
Variable S : scfg.
Notation C := (base S).
Notation E := (cE C).
Definition outside_search (x : sess) : Prop := match x with Running (MSearch _) _ => False | _ => True end.
Lemma after_mode o x : after_command S o = Some x -> (exists s, x = Running MNormal s) \/ exists s t r, x = Finished s t r.
Proof.
  unfold after_command. destruct o as [[s rc]|]; [|discriminate]. destruct rc; unfold finish; intros H; repeat match type of H with context [match ?b with _ => _ end] => destruct b end; try discriminate; injection H as <-; eauto.
Qed.
Lemma step_outside e x x' : (is_resize e = true \/ edits_text S e) -> outside_search x -> step S e x = Some x' -> outside_search x'.
Proof.
  intros He Hx H. destruct x as [m s|s t r]; [|destruct e; cbn in H; injection H as <-; exact I].
  destruct e as [k| |w|c]; [|destruct He as [He|[]]; discriminate He| |destruct He as [He|[]]; discriminate He].
  - destruct He as [He|He]; [discriminate|]. cbn [edits_text] in He. destruct m as [| |ss]; [| |destruct Hx].
    + cbn [step] in H. unfold key_normal in H. destruct (LookupCommand _ _ k); try destruct He; try (apply after_mode in H as [(z & ->)|(z & t & r & ->)]; exact I). injection H as <-. exact I.
    + cbn [step] in H. unfold key_quoted in H. apply after_mode in H as [(z & ->)|(z & t & r & ->)]; exact I.
  - destruct m as [| |ss]; [| |destruct Hx]; cbn [step] in H; [destruct (on_resize S w s); [|discriminate]|]; injection H as <-; exact I.
Qed.
Lemma step_anew e x s : (is_resize e = true \/ edits_text S e) -> outside_search x -> step S e x = Some (Running MNormal s) -> predicts_anew S e x.
Proof.
  intros He Hx H. destruct x as [m s0|s0 t r]; [|destruct e; discriminate H].
  destruct e as [k| |w|c]; [|destruct He as [He|[]]; discriminate He| |destruct He as [He|[]]; discriminate He].
  - destruct He as [He|He]; [discriminate|]. cbn [edits_text] in He. destruct m as [| |ss]; [|exact I|destruct Hx].
    cbn [step] in H. unfold key_normal in H. cbn [predicts_anew]. destruct (LookupCommand _ _ k); try destruct He; try exact I. discriminate H.
  - destruct m as [| |ss]; [exact I|discriminate H|destruct Hx].
Qed.
Lemma run_outside es : forall x x', Forall (fun e => is_resize e = true \/ edits_text S e) es -> outside_search x -> run S es x = Some x' -> outside_search x'.
Proof.
  induction es as [|e es IH]; intros x x' Hes Hx H; cbn [run] in H; [injection H as <-; exact Hx|]. apply Forall_cons_iff in Hes as [He Hes].
  destruct (step S e x) as [y|] eqn:Hy; [|discriminate]. eapply IH; [exact Hes| |exact H]. eapply step_outside; eauto.
Qed.
Lemma split_inputs es : Forall (edits_text S) (inputs es) -> Forall (fun e => is_resize e = true \/ edits_text S e) es.
Proof.
  induction es as [|e es IH]; [constructor|]. unfold inputs. cbn [filter]. destruct (is_resize e) eqn:Hr; cbn [negb]; intros H; [constructor; [now left|exact (IH H)]|].
  apply Forall_cons_iff in H as [H1 H2]. constructor; [now right|exact (IH H2)].
Qed.
End Run.

Lemma schedule_cut S I : implements S I -> forall default cur w cl s0 ls c,
  start S default cur w cl = Some (Running MNormal s0) ->
  exec_to I (ready s0) ls (Some c) -> lp c = LRead -> ~ in_callback (sz c) ->
  forall V, single_editor S -> SpecVtTabs.single_text (cE (base S)) default -> single_clip (cE (base S)) cl ->
  prompt_width (base S) + 3 < w < 9223372036854775808 -> counts_like V (cE (base S)) ->
  ready_after V (fst (callPromptWriter (cE (base S)) (prompt (base S)))) -> ready_after V (last_line_prompt (prompt (base S))) ->
  attribute_only V (pcolor0 (base S)) -> attribute_only V (pcolor1 (base S)) -> pcolor0 (base S) <> [] ->
  Forall (single_event S) (typed ls) -> Forall (edits_text S) (typed ls) ->
  (forall es, within ls es -> calm_scroll S es (Running MNormal s0)) ->
  cursor (shared c) = zlen (line (shared c)) -> line (shared c) <> [] -> room_for_line (base S) (shared c) ->
  forall lf v0, v_state v0 = Ground -> 0 <= v_col v0 ->
  vt_shows_cut_prediction V (base S) (shared c) (vbytes V (out_bytes (cE (base S)) lf (out (shared c))) v0).
Proof.
  intros HI default cur w cl s0 ls c Hs Hx Hl Hn V HE Hd Hcl Hw HV Hp1 Hp2 Ha0 Ha1 Hp0 Hls Hed Hst Hcu Hne Hroom lf v0 Hv Hv'.
  destruct (SchedScreen.as_session S I HI default cur w cl s0 ls c MNormal Hs Hx (or_introl (conj Hl (conj eq_refl Hn)))) as (es & Hwi & Hi & Hr).
  rewrite <- Hi in Hls, Hed. apply split_inputs in Hed. pose proof (SchedScreen.single_split S es Hls) as Hes. pose proof (Hst es Hwi) as Hcalm.
  unfold readline in Hr. rewrite Hs in Hr. destruct es as [|e es _] using rev_ind.
  - cbn [run] in Hr. injection Hr as Hr. rewrite <- Hr in *. destruct Hcalm as [Hap _].
    exact (VtPredCut.vt_cut_start V S default cur w cl s0 HE Hd Hcl Hw Hs Hap HV Hp1 Hp2 Ha0 Ha1 Hp0 Hcu Hne Hroom lf v0 Hv Hv').
  - rewrite run_snoc in Hr. destruct (run S es (Running MNormal s0)) as [x|] eqn:Hrun; [|discriminate]. apply Forall_app in Hed as [Hed1 Hed2]. apply Forall_cons_iff in Hed2 as [Hed2 _].
    refine (VtPredCut.vt_cut_session V S default cur w cl es e x (shared c) HE Hd Hcl Hes Hw _ HV Hp1 Hp2 Ha0 Ha1 _ Hr _ Hp0 Hcu Hne Hroom lf v0 Hv Hv').
    + intros x0 Hx0. rewrite Hs in Hx0. injection Hx0 as <-. exact Hcalm.
    + unfold readline. now rewrite Hs.
    + eapply step_anew; [exact Hed2| |exact Hr]. eapply run_outside; [exact Hed1| |exact Hrun]. exact Logic.I.
Qed.
