(** Schedules, and the colours of lines with tabs that scroll: lemmas for PSchedScrollInk.v. *)
From Verif Require Import Base Utf8 Moji Color Prompt Buffer Commands KeyMap Session Spec SpecLib SpecTerm SpecScreen SpecPaint SpecInk SpecVt SpecVtInk SpecTabScreen SpecVtTabs SpecTabScroll SpecVtScrollInk
  Sched SpecSched SchedFacts.
From Verif Require SchedScreen VtScrollInk ScrollInkSess.
From Verif Require Import Session Spec SpecScreen.

Section Whole.
Variable S : scfg.
Variable I : impl.
Notation C := (base S).
Notation E := (cE C).
Hypothesis HI : implements S I.
Variables (default : str) (cur w : Z) (cl : option str) (s0 : buf) (ls : list label) (c : config) (m : mode).
Hypothesis Hs : start S default cur w cl = Some (Running MNormal s0).
Hypothesis Hx : exec_to I (ready s0) ls (Some c).
Hypothesis Hl : lp c = LRead /\ m = MNormal /\ ~ in_callback (sz c) \/ lp c = LInner m.

Lemma schedule_scroll_ink V worn :
  single_editor S -> single_text E default -> single_clip E cl -> prompt_width C + 3 < w < 9223372036854775808 ->
  blind (ccol C) -> true_colours (ccol C) -> counts_like V E ->
  ready_after V (fst (callPromptWriter E (prompt C))) -> ready_after V (last_line_prompt (prompt C)) ->
  (pcolor0 C <> [] -> colours_only V worn (pcolor0 C) /\ colours_only V worn (pcolor1 C)) ->
  Forall (single_event S) (typed ls) ->
  (forall es, within ls es -> calm_scroll S es (Running MNormal s0) /\ heard_run S es (Running MNormal s0)) ->
  forall lf c0, v_state (c_vt c0) = Ground -> 0 <= v_col (c_vt c0) ->
  vt_scroll_colours V worn C (Running m (shared c)) (cbytes V worn (out_bytes E lf (out (shared c))) c0).
Proof.
  intros HE Hd Hcl Hw Hbl Htr HV Hp1 Hp2 Hat Hls Hst lf v0 Hv Hv'.
  destruct (SchedScreen.as_session S I HI default cur w cl s0 ls c m Hs Hx Hl) as (es & Hwi & Hi & Hr). rewrite <- Hi in Hls.
  refine (VtScrollInk.vt_scroll_ink V worn S default cur w cl es _ HE Hd Hcl (SchedScreen.single_split S es Hls) Hw Hbl Htr _ HV Hp1 Hp2 Hat Hr lf v0 Hv Hv').
  intros x0 Hx0. rewrite Hs in Hx0. injection Hx0 as <-. now apply Hst.
Qed.
Lemma schedule_scroll_vim V worn :
  single_editor S -> single_text E default -> single_clip E cl -> prompt_width C + 3 < w < 9223372036854775808 ->
  ccol C = VimBatch -> counts_like V E ->
  ready_after V (fst (callPromptWriter E (prompt C))) -> ready_after V (last_line_prompt (prompt C)) ->
  (pcolor0 C <> [] -> colours_only V worn (pcolor0 C) /\ colours_only V worn (pcolor1 C)) ->
  Forall (single_event S) (typed ls) ->
  (forall es, within ls es -> calm_scroll S es (Running MNormal s0)) ->
  forall lf c0, v_state (c_vt c0) = Ground -> 0 <= v_col (c_vt c0) ->
  vim_scroll_on_screen V worn C (Running m (shared c)) (cbytes V worn (out_bytes E lf (out (shared c))) c0).
Proof.
  intros HE Hd Hcl Hw Hvi HV Hp1 Hp2 Hat Hls Hst lf v0 Hv Hv'.
  destruct (SchedScreen.as_session S I HI default cur w cl s0 ls c m Hs Hx Hl) as (es & Hwi & Hi & Hr). rewrite <- Hi in Hls.
  refine (VtScrollInk.vt_scroll_vim V worn S default cur w cl es _ HE Hd Hcl (SchedScreen.single_split S es Hls) Hw Hvi _ HV Hp1 Hp2 Hat Hr lf v0 Hv Hv').
  intros x0 Hx0. rewrite Hs in Hx0. injection Hx0 as <-. now apply Hst.
Qed.
End Whole.
