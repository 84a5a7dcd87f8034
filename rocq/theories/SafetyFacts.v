(** From the conditions of Spec.v to those of Plain.v. *)
From Verif Require CmdFacts.
From Verif Require Import Base Utf8 Moji Color Prompt Buffer Commands KeyMap Session MojiFacts
  Abs AbsRef AbsSess AbsSafe AbsInv Safe SafeSess Plain Spec Reach.

Section WithSess.
Variable S : scfg.
Notation C := (base S).
Notation E := (cE C).

Lemma joins_like r : joins E r = joinlike E r.
Proof.
  unfold joins, joinlike, isZeroWidthJoin, isVariationSelectorLike, isEmojiModifier, is_join_control, in_range.
  now rewrite <- andb_assoc.
Qed.
Lemma simple_plain s : simple_text E s -> plain S s.
Proof.
  intros H. unfold plain, all_runes. apply Forall_forall. intros r Hr. destruct (H r Hr). split; [assumption|].
  now rewrite <- joins_like.
Qed.
Lemma simple_plain_event e : simple_event S e -> plain_event S e.
Proof.
  destruct e as [k| |w|c]; cbn; [|auto| |].
  - intros (H1 & H2 & H3). split; [now apply simple_plain|]. split; [exact H2|]. intros k' Hk. now apply simple_plain, H3.
  - unfold prompt_width, PW. lia.
  - intros H. destruct c; [|exact I]. now apply simple_plain, H.
Qed.
Lemma simple_safe default cur w cl es : simple_editor S -> simple_text E default -> simple_clip E cl ->
  Forall (simple_event S) es -> 0 <= cur -> prompt_width C + 11 < w ->
  exists x, readline S default cur w cl es = Some x /\ in_bounds (buf_of x).
Proof.
  intros (H1 & H2 & H3 & H4 & H5 & H6 & H7) Hd Hcl Hes Hc Hw.
  destruct (plain_readline S) with (default := default) (cur := cur) (w := w) (cl := cl) (es := es) as (x & w' & Hx & HS & _); auto.
  - now rewrite <- joins_like.
  - split; [lia|]. now rewrite <- joins_like.
  - destruct H6 as [H6|H6]; [now left|right]. intros t c. now apply simple_plain.
  - eapply Forall_impl; [|exact H7]. apply simple_plain.
  - now apply only_builtin_keys.
  - unfold prompt_width, PW in *. lia.
  - now apply simple_plain.
  - destruct cl; [|exact I]. now apply simple_plain, Hcl.
  - eapply Forall_impl; [|exact Hes]. apply simple_plain_event.
  - exists x. split; [exact Hx|]. destruct x; apply HS.
Qed.
End WithSess.

Lemma guarded_safe S : sane_widths (cE (base S)) -> pred_ok (base S) -> builtin_keys S ->
  forall default cur w cl es, 0 <= cur ->
  guarded S w (ARunning MNormal (astart S default cur cl)) es ->
  exists x, readline S default cur w cl es = Some x /\ in_bounds (buf_of x).
Proof.
  intros HE HP HB default cur w cl es Hc HG.
  destruct (readline_safe S HE HP HB default cur w cl es Hc HG) as (x & w' & Hx & HS & _).
  exists x. split; [exact Hx|]. destruct x; apply HS.
Qed.

(** Editor.Cursor below zero. *)
Lemma getView2_behind C s : cursor s < view s -> getView2 C s = None.
Proof.
  intros H. unfold getView2. destruct (getView C s) as [vw|]; [|reflexivity]. unfold slice.
  now replace ((0 <=? view s) && (view s <=? cursor s) && (cursor s <=? zlen (cells s))) with false by lia.
Qed.
Lemma negative_cursor S default cur w cl es : cur < 0 -> readline S default cur w cl es = None.
Proof.
  intros H. unfold readline, start. destruct (callPromptWriter _ _) as [t pw].
  match goal with |- context [InsertString ?C ?s 0 ?d] => destruct (InsertString C s 0 d) as [[s3 n]|] eqn:HI; [|reflexivity] end.
  assert (Hc : cursor s3 = cur).
  { revert HI. match goal with |- InsertString ?C ?s 0 ?d = _ -> _ => destruct (CmdFacts.InsertString_ok C s 0 d) as (s' & H1 & _ & H2) end;
      [split; [lia|unfold zlen; lia]|].
    rewrite H1. intros [= <- _]. rewrite H2. match goal with |- context [if ?b then _ else _] => destruct b end; reflexivity. }
  rewrite Hc. assert (Hn : 0 <= zlen (cells s3)) by (unfold zlen; lia). replace (zlen (cells s3) <? cur) with false by lia.
  replace (RepaintAfterPrompt (base S) s3) with (@None buf); [reflexivity|]. symmetry.
  unfold RepaintAfterPrompt, repaint, repaintWithoutUpdateSuffix. rewrite getView2_behind; [reflexivity|].
  assert (Hv : view (ResetViewStart (base S) s3) = 0).
  { cbn. rewrite Hc. destruct (cells s3); cbn; [reflexivity|]. now replace (0 <=? cur) with false by lia. }
  unfold updateSuffix. destruct (pcolor0 (base S)); [cbn in *; lia|]. destruct (cells (ResetViewStart (base S) s3)); cbn in *; lia.
Qed.
