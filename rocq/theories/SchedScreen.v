(** Schedules, the prompt and the colours: lemmas for PSchedScreen.v. *)
From Verif Require Import Base Utf8 Moji Color Prompt Buffer Commands KeyMap Session Spec SpecLib SpecTerm SpecScreen SpecPaint SpecInk SpecVt SpecVtInk SpecTabScreen SpecVtTabs SpecTabScroll SpecVtScroll SpecPromptRow
  Sched SpecSched SchedFacts SpecRepl SpecTty.
From Verif Require VtFacts VtTabs VtScroll VtInk PromptRow WholeFacts.
From Verif Require Import Session Spec SpecScreen.

Lemma single_split S es : Forall (single_event S) (inputs es) -> Forall (single_event S) es.
Proof.
  induction es as [|e es IH]; [constructor|]. unfold inputs. cbn [filter]. destruct e; cbn [is_resize negb]; intros H.
  all: try (apply Forall_cons_iff in H as [H1 H2]; constructor; [exact H1|exact (IH H2)]).
  constructor; [exact Logic.I|exact (IH H)].
Qed.

Section Whole.
Variable S : scfg.
Variable I : impl.
Notation C := (base S).
Notation E := (cE C).
Hypothesis HI : implements S I.
Variables (default : str) (cur w : Z) (cl : option str) (s0 : buf) (ls : list label) (c : config) (m : mode).
Hypothesis Hs : start S default cur w cl = Some (Running MNormal s0).
Hypothesis Hx : exec_to I (ready s0) ls (Some c).
Hypothesis Hl : lp c = LRead /\ m = MNormal /\ ~ in_callback (sz c) \/ lp c = LInner m.

(** What the terminal got was written by ReadLine of the sequential model. *)
Lemma as_session : exists es, within ls es /\ inputs es = typed ls /\ readline S default cur w cl es = Some (Running m (shared c)).
Proof.
  assert (G : exists es, run S es (Running MNormal s0) = Some (Running m (shared c)) /\ inputs es = typed ls /\ sizes ls = resizes es ++ waiting (sz c)).
  { destruct Hl as [(H1 & -> & Hn)|H1]; [eapply atomic_wait|eapply atomic_inner]; eauto. }
  destruct G as (es & Hr & Hi & Hz). exists es. split; [split; [exists []; now rewrite app_nil_r|eauto]|]. split; [exact Hi|]. unfold readline. now rewrite Hs.
Qed.

Lemma schedule_prompt V ps :
  simple_editor S -> simple_text E default -> simple_clip E cl -> prompt_width C + 11 < w < 9223372036854775808 ->
  (forall r, 0 <= r < 128 -> joins E r = false) -> counts_like V E -> returns V ->
  prompt_is S ps -> Forall (showable V) ps -> vcolumns V (visible ps) = prompt_width C ->
  (pcolor0 C <> [] -> attribute_only V (pcolor0 C) /\ attribute_only V (pcolor1 C)) ->
  Forall (simple_label S) ls -> forall lf v0, v_state v0 = Ground -> 0 <= v_col v0 -> begins ps v0 ->
  prompt_on_row V ps (Running m (shared c)) (vbytes V (out_bytes E lf (out (shared c))) v0).
Proof.
  intros HE Hd Hcl Hw Ha HV Hret Hps Hsh Hpw Hat Hls lf v0 Hv Hv' Hb. destruct as_session as (es & Hwi & _ & Hr).
  exact (PromptRow.row_simple V S ps default cur w cl es _ HE Hd Hcl (WholeFacts.within_simple S ls es Hls Hwi) Hw Ha HV Hret Hps Hsh Hpw Hat Hr lf v0 Hv Hv' Hb).
Qed.
Lemma schedule_prompt_tabs V ps :
  single_editor S -> single_text E default -> single_clip E cl -> prompt_width C + 3 < w < 9223372036854775808 ->
  counts_like V E -> returns V -> prompt_is S ps -> Forall (showable V) ps -> vcolumns V (visible ps) = prompt_width C ->
  (pcolor0 C <> [] -> attribute_only V (pcolor0 C) /\ attribute_only V (pcolor1 C)) ->
  Forall (single_event S) (typed ls) -> forall lf v0, v_state v0 = Ground -> 0 <= v_col v0 -> begins ps v0 ->
  prompt_on_row V ps (Running m (shared c)) (vbytes V (out_bytes E lf (out (shared c))) v0).
Proof.
  intros HE Hd Hcl Hw HV Hret Hps Hsh Hpw Hat Hls lf v0 Hv Hv' Hb. destruct as_session as (es & Hwi & Hi & Hr). rewrite <- Hi in Hls.
  exact (PromptRow.row_tabs V S ps default cur w cl es _ HE Hd Hcl (single_split S es Hls) Hw HV Hret Hps Hsh Hpw Hat Hr lf v0 Hv Hv' Hb).
Qed.
Lemma schedule_tabs V :
  single_editor S -> pcolor0 C = [] -> single_text E default -> single_clip E cl -> prompt_width C + 3 < w < 9223372036854775808 ->
  counts_like V E -> ready_after V (fst (callPromptWriter E (prompt C))) -> ready_after V (last_line_prompt (prompt C)) ->
  Forall (single_event S) (typed ls) -> (forall es, within ls es -> calm_tabs S es (Running MNormal s0)) ->
  forall lf v0, v_state v0 = Ground -> 0 <= v_col v0 ->
  vt_tabs_right V E (Running m (shared c)) (vbytes V (out_bytes E lf (out (shared c))) v0).
Proof.
  intros HE HP0 Hd Hcl Hw HV Hp1 Hp2 Hls Hst lf v0 Hv Hv'. destruct as_session as (es & Hwi & Hi & Hr). rewrite <- Hi in Hls.
  refine (VtTabs.vt_tabs_session V S default cur w cl es _ HE HP0 Hd Hcl (single_split S es Hls) Hw _ HV Hp1 Hp2 Hr lf v0 Hv Hv').
  intros x0 Hx0. rewrite Hs in Hx0. injection Hx0 as <-. now apply Hst.
Qed.
Lemma schedule_tabs_scroll V :
  single_editor S -> single_text E default -> single_clip E cl -> prompt_width C + 3 < w < 9223372036854775808 ->
  counts_like V E -> ready_after V (fst (callPromptWriter E (prompt C))) -> ready_after V (last_line_prompt (prompt C)) ->
  (pcolor0 C <> [] -> attribute_only V (pcolor0 C) /\ attribute_only V (pcolor1 C)) ->
  Forall (single_event S) (typed ls) -> (forall es, within ls es -> calm_scroll S es (Running MNormal s0)) ->
  forall lf v0, v_state v0 = Ground -> 0 <= v_col v0 ->
  vt_scrolled_right V E (Running m (shared c)) (vbytes V (out_bytes E lf (out (shared c))) v0).
Proof.
  intros HE Hd Hcl Hw HV Hp1 Hp2 Hat Hls Hst lf v0 Hv Hv'. destruct as_session as (es & Hwi & Hi & Hr). rewrite <- Hi in Hls.
  refine (VtScroll.vt_scroll_session V S default cur w cl es _ HE Hd Hcl (single_split S es Hls) Hw _ HV Hp1 Hp2 Hat Hr lf v0 Hv Hv').
  intros x0 Hx0. rewrite Hs in Hx0. injection Hx0 as <-. now apply Hst.
Qed.
Lemma schedule_colours V worn :
  simple_editor S -> simple_text E default -> simple_clip E cl -> 0 <= cur -> prompt_width C + 11 < w < 9223372036854775808 ->
  (forall r, 0 <= r < 128 -> joins E r = false) -> blind (ccol C) -> true_colours (ccol C) -> counts_like V E ->
  ready_after V (fst (callPromptWriter E (prompt C))) -> ready_after V (last_line_prompt (prompt C)) ->
  (pcolor0 C <> [] -> colours_only V worn (pcolor0 C) /\ colours_only V worn (pcolor1 C)) ->
  Forall (simple_label S) ls -> (forall es, within ls es -> steady_run S es (Running MNormal s0)) ->
  forall lf c0, v_state (c_vt c0) = Ground -> 0 <= v_col (c_vt c0) ->
  vt_colours V worn C (Running m (shared c)) (cbytes V worn (out_bytes E lf (out (shared c))) c0).
Proof.
  intros HE Hd Hcl Hc Hw Ha Hbl Htr HV Hp1 Hp2 Hat Hls Hst lf v0 Hv Hv'. destruct as_session as (es & Hwi & _ & Hr).
  refine (VtInk.vt_ink_session V worn S default cur w cl es _ HE Hd Hcl (WholeFacts.within_simple S ls es Hls Hwi) Hc Hw Ha Hbl Htr _ HV Hp1 Hp2 Hat Hr lf v0 Hv Hv').
  intros x0 Hx0. rewrite Hs in Hx0. injection Hx0 as <-. now apply Hst.
Qed.
Lemma schedule_vim V worn :
  simple_editor S -> simple_text E default -> simple_clip E cl -> 0 <= cur -> prompt_width C + 11 < w < 9223372036854775808 ->
  (forall r, 0 <= r < 128 -> joins E r = false) -> ccol C = VimBatch -> counts_like V E ->
  ready_after V (fst (callPromptWriter E (prompt C))) -> ready_after V (last_line_prompt (prompt C)) ->
  (pcolor0 C <> [] -> colours_only V worn (pcolor0 C) /\ colours_only V worn (pcolor1 C)) ->
  Forall (simple_label S) ls -> (forall es, within ls es -> steady_run S es (Running MNormal s0)) ->
  forall lf c0, v_state (c_vt c0) = Ground -> 0 <= v_col (c_vt c0) ->
  vim_on_screen V C (Running m (shared c)) (cbytes V worn (out_bytes E lf (out (shared c))) c0).
Proof.
  intros HE Hd Hcl Hc Hw Ha Hvi HV Hp1 Hp2 Hat Hls Hst lf v0 Hv Hv'. destruct as_session as (es & Hwi & _ & Hr).
  refine (VtInk.vt_vim_session V worn S default cur w cl es _ HE Hd Hcl (WholeFacts.within_simple S ls es Hls Hwi) Hc Hw Ha Hvi _ HV Hp1 Hp2 Hat Hr lf v0 Hv Hv').
  intros x0 Hx0. rewrite Hs in Hx0. injection Hx0 as <-. now apply Hst.
Qed.
End Whole.

(** Typing a line. *)
Section Typing.
Variable V : vterm.
Variable S : scfg.
Variable I : impl.
Notation C := (base S).
Notation E := (cE C).
Variable l : list rune.
Variable cur w : Z.
Variable cl : option str.
Variable s0 : buf.
Variable ls : list label.
Hypothesis HI : implements S I.
Hypothesis HE : simple_editor S.
Hypothesis Hcl : simple_clip E cl.
Hypothesis Hl : Forall (typed_char (fun _ => S) E) l.
Hypothesis Hb : bound S [13] CAcceptLine.
Hypothesis Ha : forall r, 0 <= r < 128 -> joins E r = false.
Hypothesis Hc : 0 <= cur.
Hypothesis Hw : prompt_width C + 11 < w < 9223372036854775808.
Hypothesis Hs : start S [] cur w cl = Some (Running MNormal s0).
Hypothesis Hz : Forall (fun w => prompt_width C + 11 < w) (sizes ls).
Hypothesis Hk : exists rest, map EKey (map encode_rune l ++ [[13]]) = typed ls ++ rest.
Variable c : config.
Hypothesis Hx : exec_to I (ready s0) ls (Some c).

Lemma labels : Forall (simple_label S) ls.
Proof. eapply WholeFacts.typing_labels; eassumption. Qed.
Lemma steady es : within ls es -> steady_run S es (Running MNormal s0).
Proof.
  intros Hwi. eapply (WholeFacts.stage_steady S (map encode_rune l) [13]) with (done := []); [|exact Hb|reflexivity| |].
  - eapply WholeFacts.typing_typable; eassumption.
  - eapply WholeFacts.typing_within; eassumption.
  - eapply WholeFacts.typing_stage0; eassumption.
Qed.
Lemma typing_prompt ps : counts_like V E -> returns V -> prompt_is S ps -> Forall (showable V) ps -> vcolumns V (visible ps) = prompt_width C ->
  (pcolor0 C <> [] -> attribute_only V (pcolor0 C) /\ attribute_only V (pcolor1 C)) ->
  lp c = LRead -> ~ in_callback (sz c) -> forall lf v0, v_state v0 = Ground -> 0 <= v_col v0 -> begins ps v0 ->
  prompt_on_row V ps (Running MNormal (shared c)) (vbytes V (out_bytes E lf (out (shared c))) v0).
Proof.
  intros HV Hret Hps Hsh Hpw Hat Hr Hn. apply (schedule_prompt S I HI [] cur w cl s0 ls c MNormal Hs Hx (or_introl (conj Hr (conj eq_refl Hn)))); try assumption; [intros r []|exact labels].
Qed.
Lemma typing_colours worn : ccol C = VimBatch -> counts_like V E ->
  ready_after V (fst (callPromptWriter E (prompt C))) -> ready_after V (last_line_prompt (prompt C)) ->
  (pcolor0 C <> [] -> colours_only V worn (pcolor0 C) /\ colours_only V worn (pcolor1 C)) ->
  lp c = LRead -> ~ in_callback (sz c) -> forall lf c0, v_state (c_vt c0) = Ground -> 0 <= v_col (c_vt c0) ->
  vim_on_screen V C (Running MNormal (shared c)) (cbytes V worn (out_bytes E lf (out (shared c))) c0).
Proof.
  intros Hvi HV Hp1 Hp2 Hat Hr Hn. apply (schedule_vim S I HI [] cur w cl s0 ls c MNormal Hs Hx (or_introl (conj Hr (conj eq_refl Hn)))); try assumption; [intros r []|exact labels|exact steady].
Qed.
End Typing.
