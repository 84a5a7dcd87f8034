(** Sessions whose colours are right. *)
From Coq Require Import Sorting.Permutation.
From Verif Require Import Base Utf8 Moji Color Prompt Buffer Commands KeyMap Session MojiFacts Abs AbsRef AbsSess
  AbsSafe AbsInv Safe SafeSess Plain Spec SpecScript Reach SafetyFacts SpecScreen ScreenFacts ScreenPaint ScreenCmd ScreenSess ScreenSimple ScreenProps ScreenCheck
  SpecLib SpecPaint PaintFacts ColorFacts TermFacts HistFacts SpecInk InkFacts InkPaint InkCmd InkSess.
From Verif Require Import Session Spec SpecScreen.
Ltac lia := unfold rune in *; Lia.lia.

Section Props.
Variable S : scfg.
Notation C := (base S).
Notation E := (cE C).
Notation K := (ccol C).
Hypothesis HE : env_ok E.
Hypothesis HP : pcolor0 C = [] \/ forall t c, nt (StringToMoji E (predictor C t c)).
Hypothesis HB : blind K.
Hypothesis HT : true_colours K.
Hypothesis HO : only_builtin S.

Lemma heard_ni x : reached S x -> roomy S x -> plain_colours S x -> ni (line (buf_of x)).
Proof.
  intros HR Hr Hp. split; [now apply (roomy_nt S HP x)|]. split; [|exact Hp]. apply (reached_valid S x); [now apply builtin_scripted|exact HR].
Qed.
Lemma heard_here es x : heard_run S es x -> plain_colours S x. Proof. destruct es; cbn; tauto. Qed.
Lemma run_I other es : forall x x' sc0 sc k, reached S x -> run S es x = Some x' -> calm S es x -> heard_run S es x ->
  good S x (display E still (out (buf_of x)) sc0) -> binks_right C x (idisplay E other (inkify k (out (buf_of x))) sc) ->
  binks_right C x' (idisplay E other (inkify k (out (buf_of x'))) sc).
Proof.
  induction es as [|e es IH]; intros x x' sc0 sc k HR H Hc Hh Hg Hi; cbn [run] in H; [injection H as <-; exact Hi|]. opt H.
  destruct Hc as (Hr & Hst & Hn). destruct Hh as (Hp & Hls & Hh). specialize (Hn _ Ev). specialize (Hh _ Ev).
  assert (HR' : reached S s) by (eapply reached_step; eauto).
  destruct (step_P S HE HP still HO e x s _ Ev Hg (calm_roomy S HP es s Hn) Hst) as (ts & O & _ & Gd). rewrite <- D_app, <- O in Gd.
  destruct (step_I S HE HP HB HT other HO e x s (idisplay E other (inkify k (out (buf_of x))) sc) Ev) as (ts2 & O2 & I2).
  - split; [|exact Hi]. split; [apply Hg|now apply heard_ni].
  - now apply (calm_roomy S HP es).
  - apply heard_ni; [exact HR'|now apply (calm_roomy S HP es)|now apply (heard_here es)].
  - exact Hst.
  - exact Hls.
  - eapply (IH s x' sc0 sc k); eauto. rewrite O2. destruct (inkify_app (out (buf_of x)) k ts2) as [k' ->]. rewrite iD_app. apply I2.
Qed.
Lemma readline_bink default cur w cl es x :
  (forall x0, start S default cur w cl = Some x0 -> calm S es x0 /\ heard_run S es x0) -> readline S default cur w cl es = Some x ->
  forall other sc, binks_right C x (idisplay E other (inkify Before (out (buf_of x))) sc).
Proof.
  intros Hc H other sc. unfold readline in H. opt H. destruct (Hc _ eq_refl) as [Hcl Hh].
  assert (HR : reached S s) by (exists default, cur, w, cl, []; unfold readline; now rewrite Ev).
  destruct (start_P S HE HP still default cur w cl s Ev (calm_roomy S HP es s Hcl)) as [_ Hs].
  eapply (run_I other es s x (mkScreen 0 (fun _ => Blank)) sc Before); eauto.
  - apply Hs.
  - apply (start_I S HE HP HB HT other default cur w cl s Ev (calm_roomy S HP es s Hcl)). apply heard_ni; [exact HR|now apply (calm_roomy S HP es)|now apply (heard_here es)].
Qed.
Lemma right_blind x sc : reached S x -> binks_right C x sc -> inks_right C x sc.
Proof.
  intros HR. assert (HV : Forall moji_valid (line (buf_of x))) by (apply (reached_valid S x); [now apply builtin_scripted|exact HR]).
  destruct x as [[| |ss] s|s t r]; cbn [binks_right inks_right buf_of] in *; auto;
    (intros (k & pred & H); exists k, pred; now rewrite (inked_blind K HB)).
Qed.
Lemma readline_ink default cur w cl es x :
  (forall x0, start S default cur w cl = Some x0 -> calm S es x0 /\ heard_run S es x0) -> readline S default cur w cl es = Some x ->
  forall other sc, inks_right C x (idisplay E other (inkify Before (out (buf_of x))) sc).
Proof.
  intros Hc H other sc. apply right_blind; [now exists default, cur, w, cl, es|]. eapply readline_bink; eauto.
Qed.
End Props.

Lemma screen_ink S default cur w cl es x :
  sane_widths (cE (base S)) -> only_builtin S -> pred_tabfree S -> blind (ccol (base S)) -> true_colours (ccol (base S)) ->
  (forall x0, start S default cur w cl = Some x0 -> calm S es x0 /\ heard_run S es x0) ->
  readline S default cur w cl es = Some x ->
  forall other sc, inks_right (base S) x (idisplay (cE (base S)) other (inkify Before (out (buf_of x))) sc).
Proof.
  intros HE HO HP HB HT Hc H. apply (readline_ink S HE) with (default := default) (cur := cur) (w := w) (cl := cl) (es := es); auto.
  now apply pred_nt.
Qed.

(** Simple sessions: every unit is a character by itself. *)
Lemma pm_heard S m : pm S m -> heard_as_is m = true.
Proof.
  intros (r & -> & _ & _). unfold rune2moji. repeat (match goal with |- context [if ?b then _ else _] => destruct b end; try reflexivity).
Qed.
Lemma simple_heard S es : simple_editor S -> Forall (simple_event S) es -> forall x, NS S (abss x) -> heard_run S es x.
Proof.
  intros HS. induction 1 as [|e es He Hes IH]; intros x HN; cbn [heard_run].
  - split; [|exact I]. unfold plain_colours. assert (HA : Forall (pm S) (line (buf_of x))) by (destruct x; [destruct HN as [HN _]|]; apply HN).
    eapply Forall_impl; [|exact HA]. intros m. apply pm_heard.
  - split; [|split; [destruct e as [k| | |]; try exact I; destruct x as [[| |]|]; try exact I; intros Hk; now destruct He as (_ & He & _)|]].
    + unfold plain_colours. assert (HA : Forall (pm S) (line (buf_of x))) by (destruct x; [destruct HN as [HN _]|]; apply HN).
      eapply Forall_impl; [|exact HA]. intros m. apply pm_heard.
    + intros x' Hx'. apply IH. pose proof (simple_plain_event S e He) as Hpe.
      apply step_ref in Hx' as [b Hb]; [|now apply ScreenSimple.HB]. eapply NS_step; [..|exact Hb]; auto using ScreenSimple.HVe, ScreenSimple.HV34, ScreenSimple.Hpred, ScreenSimple.Hhist.
Qed.
Lemma simple_NS S default cur w cl x0 : simple_editor S -> simple_text (cE (base S)) default -> simple_clip (cE (base S)) cl ->
  start S default cur w cl = Some x0 -> NS S (abss x0).
Proof.
  intros HS Hd Hcl H. rewrite (start_ref S default cur w cl x0 H). split; [|exact I]. unfold astart. apply NA_aupdate; [now apply ScreenSimple.Hpred|].
  split; [now apply plain_units, simple_plain|]. split; [repeat constructor|]. split; [reflexivity|].
  split; [intros k t []|]. split; [|constructor]. cbn. intros t ->. now apply simple_plain, Hcl.
Qed.
Lemma screen_ink_simple S default cur w cl es x :
  simple_editor S -> simple_text (cE (base S)) default -> simple_clip (cE (base S)) cl ->
  Forall (simple_event S) es -> 0 <= cur -> prompt_width (base S) + 11 < w ->
  blind (ccol (base S)) -> true_colours (ccol (base S)) ->
  (forall x0, start S default cur w cl = Some x0 -> steady_run S es x0) ->
  readline S default cur w cl es = Some x ->
  forall other sc, inks_right (base S) x (idisplay (cE (base S)) other (inkify Before (out (buf_of x))) sc).
Proof.
  intros HS Hd Hcl Hes Hc Hw HB HT Hst H.
  apply (readline_ink S (ScreenSimple.HE S HS) (ScreenSimple.HPn S HS) HB HT (proj1 HS) default cur w cl es x); [|exact H].
  intros x0 Hx. specialize (Hst _ Hx). split; [eapply ScreenSimple.simple_start; eauto|].
  apply simple_heard; auto. eapply simple_NS; eauto.
Qed.

(** VimBatch is such a colouring. *)
Lemma occurrences_perm x a b : Permutation a b -> occurrences x a = occurrences x b.
Proof. intros H. unfold occurrences. now apply (Permutation_count_occ Z.eq_dec). Qed.
Lemma vim_next_perm past past' r : Permutation past past' -> c_next VimBatch past r = c_next VimBatch past' r.
Proof. intros H. cbn [VimBatch c_next]. rewrite !vim_bits_eq. unfold odd_of. now rewrite (occurrences_perm 37 _ _ H), (occurrences_perm 34 _ _ H). Qed.
Lemma vim_blind : blind VimBatch.
Proof.
  intros a b r. rewrite (vim_next_perm (a ++ marker :: b) (marker :: a ++ b)); [|apply Permutation_sym, Permutation_middle].
  cbn [VimBatch c_next]. rewrite !vim_bits_eq. unfold odd_of, occurrences. cbn [count_occ].
  destruct (Z.eq_dec marker 37); [discriminate|]. destruct (Z.eq_dec marker 34); [discriminate|]. reflexivity.
Qed.
Lemma vim_true : true_colours VimBatch.
Proof.
  split; [discriminate|]. intros past r. cbn [VimBatch c_next]. unfold vim_next. cbn [snd].
  repeat match goal with |- context [if ?b then _ else _] => destruct b end; discriminate.
Qed.
Lemma vim_orderless : orderless VimBatch.
Proof. exact vim_next_perm. Qed.
