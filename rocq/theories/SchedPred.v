(** Predictions while the window is resized: lemmas for PSchedPred.v. *)
From Verif Require Import Base Utf8 Moji Color Prompt Buffer Commands KeyMap Session Spec SpecLib SpecTerm SpecScreen SpecVt
  Sched SpecSched SchedFacts SpecRepl SpecTty SpecPredShown.
From Verif Require Import SessFacts EditMore SessProps.
From Verif Require WholeFacts SchedScreen VtPred.
From Verif Require Import Session Spec SpecScreen.

Section Typing.
Variable V : vterm.
Variable S : scfg.
Variable I : impl.
Notation C := (base S).
Notation E := (cE C).
Variable l : list rune.
Variable cur w : Z.
Variable cl : option str.
Variable s0 : buf.
Variable ls : list label.
Hypothesis HI : implements S I.
Hypothesis HE : simple_editor S.
Hypothesis Hcl : simple_clip E cl.
Hypothesis Hl : Forall (typed_char (fun _ => S) E) l.
Hypothesis Hb : bound S [13] CAcceptLine.
Hypothesis Ha : forall r, 0 <= r < 128 -> joins E r = false.
Hypothesis Hc : 0 <= cur.
Hypothesis Hw : prompt_width C + 11 < w < 9223372036854775808.
Hypothesis Hs : start S [] cur w cl = Some (Running MNormal s0).
Hypothesis Hz : Forall (fun w => prompt_width C + 11 < w) (sizes ls).
Hypothesis Hk : exists rest, map EKey (map encode_rune l ++ [[13]]) = typed ls ++ rest.
Variable c : config.
Hypothesis Hx : exec_to I (ready s0) ls (Some c).

(** Every event of such a session makes the prediction anew. *)
Lemma typing_anew es e x s : within ls (es ++ [e]) -> run S es (Running MNormal s0) = Some x -> step S e x = Some (Running MNormal s) ->
  predicts_anew S e x.
Proof.
  intros Hwi Hr Hst. pose proof (WholeFacts.typing_typable S l Hl) as Ht.
  pose proof (WholeFacts.typing_stage0 S l cur w cl s0 Hc Hs) as H0.
  destruct (WholeFacts.typing_within l ls Hk (es ++ [e]) Hwi) as [rest Hi]. rewrite inputs_snoc, <- app_assoc in Hi.
  destruct (WholeFacts.stage_run S (map encode_rune l) [13] Ht Hb es [] (map encode_rune l ++ [[13]]) _ _ eq_refl (ex_intro _ _ Hi) H0 Hr)
    as (more & H1 & H2 & r2 & H3). cbn [app] in H2.
  rewrite H1, H3, map_app in Hi. apply app_inv_head in Hi.
  destruct H2 as [(s' & -> & _ & _ & todo & Hd)|(_ & s' & ->)]; [|discriminate Hst].
  destruct e as [k| |w'|cl']; cbn [is_resize] in Hi; try (exact Logic.I).
  - destruct r2 as [|k' r2]; [discriminate Hi|]. cbn [map app] in Hi. injection Hi as -> _.
    rewrite Hd, <- app_assoc in H3. apply app_inv_head in H3. destruct todo as [|k2 todo]; cbn [app] in H3; injection H3 as <- H3.
    + destruct (key_end S [13] s' _ Hb Hst) as [s2 Hf]. discriminate Hf.
    + rewrite Hd in Ht. apply Forall_app in Ht as [_ Ht]. apply Forall_cons_iff in Ht as [(Hu & _) _]. cbn [predicts_anew]. unfold unbound, bound in Hu. now rewrite Hu.
  - destruct r2 as [|k' r2]; discriminate Hi.
  - destruct r2 as [|k' r2]; discriminate Hi.
Qed.
Lemma typing_prediction : counts_like V E ->
  ready_after V (fst (callPromptWriter E (prompt C))) -> ready_after V (last_line_prompt (prompt C)) ->
  attribute_only V (pcolor0 C) -> attribute_only V (pcolor1 C) -> pcolor0 C <> [] ->
  lp c = LRead -> ~ in_callback (sz c) -> line (shared c) <> [] -> forall lf v0, v_state v0 = Ground -> 0 <= v_col v0 ->
  vt_shows_prediction V C (shared c) (vbytes V (out_bytes E lf (out (shared c))) v0).
Proof.
  intros HV Hp1 Hp2 Ha0 Ha1 Hp0 Hr Hn Hne lf v0 Hv Hv'.
  destruct (SchedScreen.as_session S I HI [] cur w cl s0 ls c MNormal Hs Hx (or_introl (conj Hr (conj eq_refl Hn)))) as (es & Hwi & Hi & Hrl).
  unfold readline in Hrl. rewrite Hs in Hrl. destruct es as [|e es _] using rev_ind.
  { cbn [run] in Hrl. injection Hrl as Hrl. exfalso. apply Hne. rewrite <- Hrl.
    pose proof Hs as Hs'. apply start_state in Hs' as (s & [= <-] & Hli & _). exact Hli. }
  rewrite run_snoc in Hrl. destruct (run S es (Running MNormal s0)) as [x|] eqn:Hrun; [|discriminate].
  destruct (WholeFacts.typing_line S I l cur w cl s0 ls HI Hl Hb Hc Hs Hk c Hx Hr Hn) as (_ & _ & _ & _ & _ & Hcu).
  refine (VtPred.vt_prediction V S [] cur w cl es e x (shared c) HE _ Hcl _ Hc Hw Ha _ HV Hp1 Hp2 Ha0 Ha1 _ Hrl _ Hp0 Hcu Hne lf v0 Hv Hv').
  - intros r [].
  - refine (WholeFacts.within_simple S ls _ _ Hwi). exact (SchedScreen.labels S l w ls Hl Hb Ha Hz Hk).
  - intros x0 Hx0. rewrite Hs in Hx0. injection Hx0 as <-. exact (SchedScreen.steady S l cur w cl s0 ls Hl Hb Hc Hs Hk _ Hwi).
  - unfold readline. now rewrite Hs.
  - exact (typing_anew es e x _ Hwi Hrun Hrl).
Qed.
End Typing.
