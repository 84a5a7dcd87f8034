(** The property theorems of C37 and C38. *)
From Verif Require Import Base Utf8 Moji Color Prompt Buffer Commands KeyMap Session Spec SpecScreen.
From Verif Require Import Safe ScreenFacts ScreenPaint ScreenCmd ScreenSess.
From Verif Require ScreenSimple.

Definition pred_tabfree (S : scfg) : Prop :=
  pcolor0 (base S) = [] \/ forall t c, Forall (fun m => tabfree m = true) (StringToMoji (cE (base S)) (predictor (base S) t c)).
Lemma pred_nt S : pred_tabfree S -> pcolor0 (base S) = [] \/ forall t c, nt (StringToMoji (cE (base S)) (predictor (base S) t c)).
Proof. intros [H|H]; [now left|right]. intros t c. now apply tabfree_nt. Qed.

Lemma screen_calm S default cur w cl es x :
  sane_widths (cE (base S)) -> only_builtin S -> pred_tabfree S ->
  (forall x0, start S default cur w cl = Some x0 -> calm S es x0) ->
  readline S default cur w cl es = Some x ->
  forall other sc, screen_right (cE (base S)) x (display (cE (base S)) other (out (buf_of x)) sc).
Proof.
  intros HE HB HP Hc H other sc. apply (readline_screen S HE (pred_nt S HP) other HB default cur w cl es x sc Hc H).
Qed.
Lemma screen_simple S default cur w cl es x :
  simple_editor S -> simple_text (cE (base S)) default -> simple_clip (cE (base S)) cl ->
  Forall (simple_event S) es -> 0 <= cur -> prompt_width (base S) + 11 < w ->
  (forall x0, start S default cur w cl = Some x0 -> steady_run S es x0) ->
  readline S default cur w cl es = Some x ->
  forall other sc, screen_right (cE (base S)) x (display (cE (base S)) other (out (buf_of x)) sc).
Proof.
  intros HS Hd Hcl Hes Hc Hw Hst H other sc.
  apply (readline_screen S (ScreenSimple.HE S HS) (ScreenSimple.HPn S HS) other (proj1 HS) default cur w cl es x sc); [|exact H].
  intros x0 Hx. eapply ScreenSimple.simple_start; eauto.
Qed.
Lemma screen_enter S default cur w cl es s k x' :
  sane_widths (cE (base S)) -> only_builtin S -> pred_tabfree S ->
  (forall x0, start S default cur w cl = Some x0 -> calm S es x0) ->
  readline S default cur w cl es = Some (Running MNormal s) ->
  LookupCommand (kmap S) (gmap S) k = CAcceptLine -> step S (EKey k) (Running MNormal s) = Some x' ->
  forall other sc, exists ts tl, out (buf_of x') = out s ++ ts ++ TLineFeed 1 :: tl /\
    exists n, shows (cE (base S)) (buf_of x') (display (cE (base S)) other (out s ++ ts) sc) n [].
Proof.
  intros HE HB HP Hc H Hk Hst other sc.
  destruct (readline_enter S HE (pred_nt S HP) other HB default cur w cl es k s x' sc Hc H Hk Hst) as (ts & tl & O & _ & Sh). exists ts, tl. auto.
Qed.
Lemma inside_calm S default cur w cl es e x x' :
  sane_widths (cE (base S)) -> only_builtin S -> pred_tabfree S ->
  (forall x0, start S default cur w cl = Some x0 -> calm S (es ++ [e]) x0) ->
  readline S default cur w cl es = Some x -> step S e x = Some x' ->
  forall other sc, exists ts, out (buf_of x') = out (buf_of x) ++ ts /\
    inside (cE (base S)) other (termw (buf_of x') - 3) (display (cE (base S)) other (out (buf_of x)) sc) ts.
Proof.
  intros HE HB HP Hc H Hst other sc. exact (readline_inside S HE (pred_nt S HP) other HB default cur w cl es e x x' sc Hc H Hst).
Qed.
Lemma inside_simple S default cur w cl es e x x' :
  simple_editor S -> simple_text (cE (base S)) default -> simple_clip (cE (base S)) cl ->
  Forall (simple_event S) (es ++ [e]) -> 0 <= cur -> prompt_width (base S) + 11 < w ->
  (forall x0, start S default cur w cl = Some x0 -> steady_run S (es ++ [e]) x0) ->
  readline S default cur w cl es = Some x -> step S e x = Some x' ->
  forall other sc, exists ts, out (buf_of x') = out (buf_of x) ++ ts /\
    inside (cE (base S)) other (termw (buf_of x') - 3) (display (cE (base S)) other (out (buf_of x)) sc) ts.
Proof.
  intros HS Hd Hcl Hes Hc Hw Hst H Hx other sc.
  apply (readline_inside S (ScreenSimple.HE S HS) (ScreenSimple.HPn S HS) other (proj1 HS) default cur w cl es e x x' sc); auto.
  intros x0 Hx0. eapply ScreenSimple.simple_start; eauto.
Qed.
Lemma inside_start S default cur w cl x :
  sane_widths (cE (base S)) -> only_builtin S -> pred_tabfree S ->
  start S default cur w cl = Some x -> roomy S x ->
  forall other sc, inside (cE (base S)) other (w - 3) sc (out (buf_of x)).
Proof.
  intros HE HB HP H Hr other sc. exact (start_inside S HE (pred_nt S HP) other default cur w cl x sc H Hr).
Qed.

Lemma view_width s : ViewWidth s = termw s - topc s - 3.
Proof. reflexivity. Qed.
