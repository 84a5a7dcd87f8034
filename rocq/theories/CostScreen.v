(** What one event writes, in columns. *)
From Verif Require Import Base Utf8 Moji Color Prompt Buffer Commands KeyMap Session MojiFacts AbsRef AbsSess Spec SpecScreen SpecCost CostFacts.
From Verif Require Import SafetyFacts.
From Verif Require Import SpecTabScreen.
From Verif Require Safe Reach ScreenProps TabScreenProps.
From Verif Require Import Session Spec SpecScreen.

Section WithEnv.
Variable E : env.
Hypothesis HE : sane_widths E.
Lemma wn m : 0 <= width E m.
Proof.
  destruct HE as (H1 & H2 & H3). induction m; cbn [width]; try lia; auto.
  - pose proof (Z.rem_bound_abs pos 4 ltac:(lia)). lia.
  - pose proof (Safe.lenEscaped_ge r). lia.
  - specialize (H2 (width E m1) (width E m2)). lia.
  - destruct m1; lia.
Qed.
Lemma mwc_nonneg n : forall rs last lw wid cnt, (List.length rs <= n)%nat -> 0 <= lw <= wid -> 0 <= fst (mwc E last lw wid cnt rs).
Proof.
  induction n as [|n IH]; intros rs last lw wid cnt Hn Hw.
  - destruct rs; [cbn; lia|cbn in Hn; lia].
  - destruct rs as [|r rs]; [cbn; lia|]. cbn [List.length] in Hn. cbn [mwc].
    assert (F : forall p, 0 <= fst (mwc E (Some (rune2moji E r p)) (width E (rune2moji E r p)) (wid + width E (rune2moji E r p)) (cnt + 1) rs)).
    { intros p. pose proof (wn (rune2moji E r p)). apply IH; lia. }
    assert (J : forall m rest, (List.length rest <= n)%nat -> 0 <= fst (mwc E (Some m) (width E m) (wid - lw + width E m) cnt rest)).
    { intros m rest Hr. pose proof (wn m). apply IH; [exact Hr|lia]. }
    destruct last as [m|]; [|apply F]. destruct (isZeroWidthJoin E r).
    + destruct rs as [|n0 rs]; [pose proof (wn (MZwj m (MRaw RuneError))); cbn [fst]; lia|]. apply J. cbn in Hn. lia.
    + destruct (isVariationSelectorLike E r); [apply J; lia|]. destruct (isEmojiModifier E r); [apply J; lia|apply F].
Qed.
Lemma prompt_nonneg p : 0 <= snd (callPromptWriter E p).
Proof. destruct p as [t|]; cbn; [|lia]. apply (mwc_nonneg (List.length (runes (cutEscapeSequenceAndOldLine t)))); lia. Qed.

Definition quiet : terminal := mkTerminal (fun _ sc => sc) (fun _ _ _ => Blank).
Lemma col_nonneg ts : forall sc, Forall fine_goto ts -> 0 <= col sc -> 0 <= col (display E quiet ts sc).
Proof.
  induction ts as [|t ts IH]; intros sc Hf Hc; [exact Hc|]. inversion Hf as [|? ? H1 H2]; subst.
  change (0 <= col (display E quiet ts (display1 E quiet sc t))). apply IH; [exact H2|].
  destruct t; cbn in *; try exact Hc; try lia. pose proof (wn m). lia.
Qed.
Lemma columns_cons t ts : columns_written E (t :: ts) = match t with TMoji m => width E m | _ => 0 end + columns_written E ts.
Proof. unfold columns_written. destruct t; reflexivity. Qed.
Lemma columns_inside lim ts : forall sc, 0 <= lim -> Forall fine_goto ts -> 0 <= col sc -> inside E quiet lim sc ts ->
  columns_written E ts <= Z.max 0 (lim - col sc) + gotos ts * lim.
Proof.
  induction ts as [|t ts IH]; intros sc Hl Hf Hc Hi; [cbn; lia|]. inversion Hf as [|? ? H1 H2]; subst.
  assert (Hi' : inside E quiet lim (display1 E quiet sc t) ts).
  { intros a m b ->. exact (Hi (t :: a) m b eq_refl). }
  assert (Hc' : 0 <= col (display1 E quiet sc t)) by (apply (col_nonneg [t]); [now constructor|exact Hc]).
  specialize (IH _ Hl H2 Hc' Hi'). rewrite columns_cons. cbn [gotos].
  destruct t; cbn [goto_of display1 t_other quiet] in *; try (cbn in IH; lia).
  - specialize (Hi [] m ts eq_refl). cbn in Hi. cbn [put col] in IH. lia.
  - cbn in IH. cbn in H1. lia.
Qed.
End WithEnv.

Section WithSess.
Variable S : scfg.
Notation C := (base S).
Notation E := (cE C).
Hypothesis HE : sane_widths E.
Hypothesis HB : only_builtin S.

Definition fine_out (x : sess) : Prop := 0 <= topc (buf_of x) /\ Forall fine_goto (out (buf_of x)).
Lemma fine_run es : forall x x', fine_out x -> run S es x = Some x' -> fine_out x'.
Proof.
  induction es as [|e es IH]; intros x x' Hx H; cbn [run] in H; [now injection H as <-|]. opt H. eapply IH; [|exact H].
  apply (step_cost S (prompt_nonneg E HE _) (Reach.only_builtin_keys S HB)) in Ev as (l & Ho & _ & _ & Hf). destruct Hx as [H1 H2].
  destruct (Hf H1) as [H3 H4]. split; [exact H3|]. rewrite Ho. apply Forall_app. now split.
Qed.
Lemma fine_readline default cur w cl es x : readline S default cur w cl es = Some x -> fine_out x.
Proof.
  unfold readline. intros H. opt H. eapply fine_run; [|exact H]. apply (start_cost S (prompt_nonneg E HE _)) in Ev as (_ & _ & H1 & H2). now split.
Qed.

(** The bound for one event, from [inside]. *)
Lemma cost_of_inside default cur w cl es e x x' : readline S default cur w cl es = Some x -> step S e x = Some x' ->
  (forall sc, exists ts, out (buf_of x') = out (buf_of x) ++ ts /\
     inside E quiet (termw (buf_of x') - 3) (display E quiet (out (buf_of x)) sc) ts) ->
  exists ts, out (buf_of x') = out (buf_of x) ++ ts /\
    columns_written E ts <= 5 * Z.max 0 (termw (buf_of x') - 3) /\ others_written ts <= zlen (written_units ts) + 17.
Proof.
  intros H Hst Hi. destruct (Hi (mkScreen 0 (fun _ => Blank))) as (ts & Ho & Hin).
  pose proof (fine_readline _ _ _ _ _ _ H) as [F1 F2].
  destruct (step_cost S (prompt_nonneg E HE _) (Reach.only_builtin_keys S HB) e x x' Hst) as (l & Ho' & G1 & G2 & G3).
  rewrite Ho in Ho'. apply app_inv_head in Ho'. subst l. exists ts. split; [exact Ho|]. destruct (G3 F1) as [_ F3]. split.
  - assert (Hin' : inside E quiet (Z.max 0 (termw (buf_of x') - 3)) (display E quiet (out (buf_of x)) (mkScreen 0 (fun _ => Blank))) ts).
    { intros a m b Hab. specialize (Hin a m b Hab). lia. }
    pose proof (col_nonneg E HE _ (mkScreen 0 (fun _ => Blank)) F2 (Z.le_refl 0)) as K0.
    pose proof (columns_inside E HE _ ts _ (Z.le_max_l 0 (termw (buf_of x') - 3)) F3 K0 Hin') as K.
    pose proof (gotos_nonneg ts). nia.
  - unfold others_written. lia.
Qed.
Lemma cost_of_start default cur w cl x : start S default cur w cl = Some x ->
  (forall sc, inside E quiet (w - 3) sc (out (buf_of x))) ->
  columns_written E (out (buf_of x)) <= 3 * Z.max 0 (w - 3) /\ others_written (out (buf_of x)) <= zlen (written_units (out (buf_of x))) + 11.
Proof.
  intros H Hi. apply (start_cost S (prompt_nonneg E HE _)) in H as (G1 & G2 & _ & F). split; [|unfold others_written; lia].
  assert (Hin' : inside E quiet (Z.max 0 (w - 3)) (mkScreen 0 (fun _ => Blank)) (out (buf_of x))).
  { intros a m b Hab. specialize (Hi (mkScreen 0 (fun _ => Blank)) a m b Hab). lia. }
  pose proof (columns_inside E HE _ _ (mkScreen 0 (fun _ => Blank)) (Z.le_max_l 0 (w - 3)) F (Z.le_refl 0) Hin') as K. cbn [col] in K. pose proof (gotos_nonneg (out (buf_of x))). nia.
Qed.
End WithSess.

Lemma others_bound S e x x' : sane_widths (cE (base S)) -> only_builtin S -> step S e x = Some x' ->
  exists ts, out (buf_of x') = out (buf_of x) ++ ts /\ others_written ts <= zlen (written_units ts) + 17.
Proof.
  intros HE HB H. destruct (step_cost S (prompt_nonneg _ HE _) (Reach.only_builtin_keys S HB) e x x' H) as (l & Ho & _ & G & _).
  exists l. split; [exact Ho|]. unfold others_written. lia.
Qed.
Lemma cost_simple S default cur w cl es e x x' :
  simple_editor S -> simple_text (cE (base S)) default -> simple_clip (cE (base S)) cl ->
  Forall (simple_event S) (es ++ [e]) -> 0 <= cur -> prompt_width (base S) + 11 < w ->
  (forall x0, start S default cur w cl = Some x0 -> steady_run S (es ++ [e]) x0) ->
  readline S default cur w cl es = Some x -> step S e x = Some x' ->
  exists ts, out (buf_of x') = out (buf_of x) ++ ts /\
    columns_written (cE (base S)) ts <= 5 * Z.max 0 (termw (buf_of x') - 3) /\ others_written ts <= zlen (written_units ts) + 17.
Proof.
  intros HS Hd Hcl Hes Hc Hw Hst H Hx. pose proof HS as (HB & HE & _).
  eapply cost_of_inside; [exact HE|exact HB|exact H|exact Hx|].
  intros sc. exact (ScreenProps.inside_simple S default cur w cl es e x x' HS Hd Hcl Hes Hc Hw Hst H Hx quiet sc).
Qed.
Lemma cost_calm S default cur w cl es e x x' :
  sane_widths (cE (base S)) -> only_builtin S ->
  (pcolor0 (base S) = [] \/ forall t c, Forall (fun m => tabfree m = true) (StringToMoji (cE (base S)) (predictor (base S) t c))) ->
  (forall x0, start S default cur w cl = Some x0 -> calm S (es ++ [e]) x0) ->
  readline S default cur w cl es = Some x -> step S e x = Some x' ->
  exists ts, out (buf_of x') = out (buf_of x) ++ ts /\
    columns_written (cE (base S)) ts <= 5 * Z.max 0 (termw (buf_of x') - 3) /\ others_written ts <= zlen (written_units ts) + 17.
Proof.
  intros HE HB HP Hc H Hx. eapply cost_of_inside; [exact HE|exact HB|exact H|exact Hx|].
  intros sc. exact (ScreenProps.inside_calm S default cur w cl es e x x' HE HB HP Hc H Hx quiet sc).
Qed.
Lemma cost_tabs S default cur w cl es e x x' :
  sane_widths (cE (base S)) -> only_builtin S -> pcolor0 (base S) = [] ->
  (forall x0, start S default cur w cl = Some x0 -> calm_tabs S (es ++ [e]) x0) ->
  readline S default cur w cl es = Some x -> step S e x = Some x' ->
  exists ts, out (buf_of x') = out (buf_of x) ++ ts /\
    columns_written (cE (base S)) ts <= 5 * Z.max 0 (termw (buf_of x') - 3) /\ others_written ts <= zlen (written_units ts) + 17.
Proof.
  intros HE HB HP Hc H Hx. eapply cost_of_inside; [exact HE|exact HB|exact H|exact Hx|].
  intros sc. exact (TabScreenProps.inside_tabs S default cur w cl es e x x' HE HB HP Hc H Hx quiet sc).
Qed.
Lemma cost_start S default cur w cl x :
  sane_widths (cE (base S)) -> only_builtin S ->
  (pcolor0 (base S) = [] \/ forall t c, Forall (fun m => tabfree m = true) (StringToMoji (cE (base S)) (predictor (base S) t c))) ->
  start S default cur w cl = Some x -> roomy S x ->
  columns_written (cE (base S)) (out (buf_of x)) <= 3 * Z.max 0 (w - 3) /\ others_written (out (buf_of x)) <= zlen (written_units (out (buf_of x))) + 11.
Proof.
  intros HE HB HP H Hr. eapply cost_of_start; [exact HE|exact H|]. intros sc. exact (ScreenProps.inside_start S default cur w cl x HE HB HP H Hr quiet sc).
Qed.
