(** The property theorems of C37 and C38 for lines with tabs. *)
From Verif Require Import Base Utf8 Moji Color Prompt Buffer Commands KeyMap Session Spec SpecScreen SpecTabScreen.
From Verif Require TabScreenSess.

Lemma screen_tabs S default cur w cl es x :
  sane_widths (cE (base S)) -> only_builtin S -> pcolor0 (base S) = [] ->
  (forall x0, start S default cur w cl = Some x0 -> calm_tabs S es x0) ->
  readline S default cur w cl es = Some x ->
  forall other sc, tab_screen_right (cE (base S)) x (display (cE (base S)) other (out (buf_of x)) sc).
Proof. intros HE HB HP Hc H other sc. apply (TabScreenSess.readline_screen S HE HP other HB default cur w cl es x sc Hc H). Qed.
Lemma screen_tabs_enter S default cur w cl es s k x' :
  sane_widths (cE (base S)) -> only_builtin S -> pcolor0 (base S) = [] ->
  (forall x0, start S default cur w cl = Some x0 -> calm_tabs S es x0) ->
  readline S default cur w cl es = Some (Running MNormal s) ->
  LookupCommand (kmap S) (gmap S) k = CAcceptLine -> step S (EKey k) (Running MNormal s) = Some x' ->
  forall other sc, exists ts tl, out (buf_of x') = out s ++ ts ++ TLineFeed 1 :: tl /\ line (buf_of x') = line s /\
    shows_tabs (cE (base S)) (buf_of x') (display (cE (base S)) other (out s ++ ts) sc).
Proof. intros HE HB HP Hc H Hk Hst other sc. exact (TabScreenSess.readline_enter S HE HP other HB default cur w cl es k s x' sc Hc H Hk Hst). Qed.
Lemma inside_tabs S default cur w cl es e x x' :
  sane_widths (cE (base S)) -> only_builtin S -> pcolor0 (base S) = [] ->
  (forall x0, start S default cur w cl = Some x0 -> calm_tabs S (es ++ [e]) x0) ->
  readline S default cur w cl es = Some x -> step S e x = Some x' ->
  forall other sc, exists ts, out (buf_of x') = out (buf_of x) ++ ts /\
    inside (cE (base S)) other (termw (buf_of x') - 3) (display (cE (base S)) other (out (buf_of x)) sc) ts.
Proof. intros HE HB HP Hc H Hst other sc. exact (TabScreenSess.readline_inside S HE HP other HB default cur w cl es e x x' sc Hc H Hst). Qed.
Lemma inside_tabs_start S default cur w cl x :
  sane_widths (cE (base S)) -> pcolor0 (base S) = [] ->
  start S default cur w cl = Some x -> fits_tabs S x ->
  forall other sc, inside (cE (base S)) other (w - 3) sc (out (buf_of x)).
Proof. intros HE HP H Hr other sc. exact (TabScreenSess.start_inside S HE HP other default cur w cl x sc H Hr). Qed.
