(** C37, C38: what stands on the terminal row. *)
From Verif Require Import Base Utf8 Moji Color Prompt Buffer Commands KeyMap Session Spec Sample SpecScreen ScreenCheck.
From Verif Require ScreenSess ScreenSimple ScreenProps.

(** C37 for every session under conditions on the events alone, whatever was on the
    screen before and whatever the terminal makes of the prompt, of line feeds, of
    clearing and of characters overwritten in part.  Missing for the full claim: tabs (PTabScreen.v has them), joined characters, SWAPCHAR (the next
    theorem has the last two), and what [steady] leaves out (refuted below). *)
Theorem C37_screen_simple_partial : forall S default cur w cl es x,
  simple_editor S -> simple_text (cE (base S)) default -> simple_clip (cE (base S)) cl ->
  Forall (simple_event S) es -> 0 <= cur -> prompt_width (base S) + 11 < w ->
  (forall x0, start S default cur w cl = Some x0 -> steady_run S es x0) ->
  readline S default cur w cl es = Some x ->
  forall other sc, screen_right (cE (base S)) x (display (cE (base S)) other (out (buf_of x)) sc).
Proof. exact ScreenProps.screen_simple. Qed.
Print Assumptions C37_screen_simple_partial.

(** C37 with joined characters and SWAPCHAR: [calm] asks of every state of the run that
    its line has no tab and that each unit is narrower than the visible part. *)
Theorem C37_screen_calm_partial : forall S default cur w cl es x,
  sane_widths (cE (base S)) -> only_builtin S ->
  (pcolor0 (base S) = [] \/ forall t c, Forall (fun m => tabfree m = true) (StringToMoji (cE (base S)) (predictor (base S) t c))) ->
  (forall x0, start S default cur w cl = Some x0 -> calm S es x0) ->
  readline S default cur w cl es = Some x ->
  forall other sc, screen_right (cE (base S)) x (display (cE (base S)) other (out (buf_of x)) sc).
Proof. exact ScreenProps.screen_calm. Qed.
Print Assumptions C37_screen_calm_partial.

(** Enter: just before the line feed the row shows the line without any prediction. *)
Theorem C37_enter_partial : forall S default cur w cl es s k x',
  sane_widths (cE (base S)) -> only_builtin S ->
  (pcolor0 (base S) = [] \/ forall t c, Forall (fun m => tabfree m = true) (StringToMoji (cE (base S)) (predictor (base S) t c))) ->
  (forall x0, start S default cur w cl = Some x0 -> calm S es x0) ->
  readline S default cur w cl es = Some (Running MNormal s) ->
  LookupCommand (kmap S) (gmap S) k = CAcceptLine -> step S (EKey k) (Running MNormal s) = Some x' ->
  forall other sc, exists ts tl, out (buf_of x') = out s ++ ts ++ TLineFeed 1 :: tl /\
    exists n, shows (cE (base S)) (buf_of x') (display (cE (base S)) other (out s ++ ts) sc) n [].
Proof. exact ScreenProps.screen_enter. Qed.
Print Assumptions C37_enter_partial.

(** Sessions that meet the conditions: a narrow terminal that has to scroll both ways,
    control characters, wide characters, history, search, undo, resize; *)
Definition C37_events : list event :=
  keys "echo hello world and more" ++ [key 1; key 6; key 6; key 5; key 2; key 2; key 11; key 25; key 23; key 26; key 16; key 14; EResize 24; key 18]
  ++ keys "re" ++ [key 18; key 13; key 17; key 3; EKey (encode [12354]); key 1; key 6; key 4; key 21; key 12].
Example C37_simple_case : simple_editor S_pred /\ simple_text E_off (s2l "abc") /\ Forall (simple_event S_pred) C37_events /\ prompt_width (base S_pred) + 11 < 20 /\
  (forall x0, start S_pred (s2l "abc") 3 20 (Some []) = Some x0 -> steady_run S_pred C37_events x0) /\
  text_of (readline S_pred (s2l "abc") 3 20 (Some []) C37_events) = Some (s2l "t readme" ++ [3] ++ encode [12354]).
Proof.
  split; [exact simple_pred|]. split; [now apply simple_textb_ok|]. split; [now apply simple_eventb_ok|]. split; [reflexivity|]. split.
  - intros x0 Hx. apply calm_steady. revert x0 Hx. apply calm_read_ok. vm_compute. reflexivity.
  - vm_compute. reflexivity.
Qed.
(** joined emoji and SWAPCHAR. *)
Definition C37_joined : list event :=
  keys "abc" ++ [key 20; key 2; key 20] ++ [EKey (encode [128104; 8205; 128105]); key 2; key 127] ++ keys "xyz".
Example C37_calm_case : sane_widths (cE (base S_on)) /\ only_builtin S_on /\ pcolor0 (base S_on) = [] /\
  (forall x0, start S_on [] 0 20 (Some []) = Some x0 -> calm S_on C37_joined x0) /\
  text_of (readline S_on [] 0 20 (Some []) C37_joined) = Some (s2l "abxyz" ++ encode [128104; 8205; 128105]).
Proof.
  split; [exact sane_on|]. split; [exact builtin_on|]. split; [reflexivity|]. split.
  - apply calm_read_ok. vm_compute. reflexivity.
  - vm_compute. reflexivity.
Qed.

(** A read error during the incremental search leaves the search line on the screen
    (isearch.go:54-57 returns without painting). *)
Theorem C37_search_error_refuted : exists s sc, readline S_off [] 0 80 (Some []) [key 18; EKeyErr] = Some (Running MNormal s) /\
  ~ shown E_off s (display E_off still (out s) sc).
Proof.
  set (x := readline S_off [] 0 80 (Some []) [key 18; EKeyErr]).
  assert (Hx : match x with Some (Running MNormal s) => suffix s = None /\ line s = [] /\ topc s = 2 /\
    row (display E_off still (out s) (mkScreen 0 (fun _ => Blank))) 2 = Part (MRaw 40) 0 | _ => False end) by (vm_compute; auto).
  destruct x as [[[| |ss] s|s t r]|]; try destruct Hx. destruct H0 as (H1 & H2 & H3). exists s, (mkScreen 0 (fun _ => Blank)). split; [reflexivity|].
  intros (k & pred & _ & Hp & Hr & _). assert (pred = []) by (destruct Hp as [Hp|(_ & _ & rest & Hp)]; [exact Hp|rewrite H in Hp; discriminate]). subst pred.
  specialize (Hr 2 ltac:(rewrite H2; apply Z.le_refl)). rewrite H3, H1 in Hr. unfold part in Hr. rewrite skipn_nil, firstn_nil in Hr. discriminate.
Qed.
Print Assumptions C37_search_error_refuted.

(** The columns used after the prompt: all but three. *)
Theorem C38_view_width : forall s, ViewWidth s = termw s - topc s - 3.
Proof. exact ScreenProps.view_width. Qed.
Print Assumptions C38_view_width.

(** C38: every unit written by an event ends at least three columns before the right
    edge, under conditions on the events alone; *)
Theorem C38_inside_simple_partial : forall S default cur w cl es e x x',
  simple_editor S -> simple_text (cE (base S)) default -> simple_clip (cE (base S)) cl ->
  Forall (simple_event S) (es ++ [e]) -> 0 <= cur -> prompt_width (base S) + 11 < w ->
  (forall x0, start S default cur w cl = Some x0 -> steady_run S (es ++ [e]) x0) ->
  readline S default cur w cl es = Some x -> step S e x = Some x' ->
  forall other sc, exists ts, out (buf_of x') = out (buf_of x) ++ ts /\
    inside (cE (base S)) other (termw (buf_of x') - 3) (display (cE (base S)) other (out (buf_of x)) sc) ts.
Proof. exact ScreenProps.inside_simple. Qed.
Print Assumptions C38_inside_simple_partial.

(** the same with joined characters and SWAPCHAR; *)
Theorem C38_inside_calm_partial : forall S default cur w cl es e x x',
  sane_widths (cE (base S)) -> only_builtin S ->
  (pcolor0 (base S) = [] \/ forall t c, Forall (fun m => tabfree m = true) (StringToMoji (cE (base S)) (predictor (base S) t c))) ->
  (forall x0, start S default cur w cl = Some x0 -> calm S (es ++ [e]) x0) ->
  readline S default cur w cl es = Some x -> step S e x = Some x' ->
  forall other sc, exists ts, out (buf_of x') = out (buf_of x) ++ ts /\
    inside (cE (base S)) other (termw (buf_of x') - 3) (display (cE (base S)) other (out (buf_of x)) sc) ts.
Proof. exact ScreenProps.inside_calm. Qed.
Print Assumptions C38_inside_calm_partial.

(** and the first painting of the line. *)
Theorem C38_start_partial : forall S default cur w cl x,
  sane_widths (cE (base S)) -> only_builtin S ->
  (pcolor0 (base S) = [] \/ forall t c, Forall (fun m => tabfree m = true) (StringToMoji (cE (base S)) (predictor (base S) t c))) ->
  start S default cur w cl = Some x -> roomy S x ->
  forall other sc, inside (cE (base S)) other (w - 3) sc (out (buf_of x)).
Proof. exact ScreenProps.inside_start. Qed.
Print Assumptions C38_start_partial.

Example C38_case : Forall (simple_event S_pred) (C37_events ++ [key 16]) /\
  (forall x0, start S_pred (s2l "abc") 3 20 (Some []) = Some x0 -> steady_run S_pred (C37_events ++ [key 16]) x0) /\
  exists x0, start S_pred (s2l "abc") 3 20 (Some []) = Some x0 /\ roomy S_pred x0.
Proof.
  split; [now apply simple_eventb_ok|]. split.
  - intros x0 Hx. apply calm_steady. revert x0 Hx. apply calm_read_ok. vm_compute. reflexivity.
  - assert (H : match start S_pred (s2l "abc") 3 20 (Some []) with Some x => roomyb S_pred x | None => false end = true) by (vm_compute; reflexivity).
    destruct (start S_pred (s2l "abc") 3 20 (Some [])) as [x|]; [|discriminate]. exists x. split; [reflexivity|]. now apply roomyb_ok.
Qed.

(** Outside the conditions the last columns are written to.  FORWARD_CHAR onto a unit
    wider than two columns (here U+0300, shown as <300>) scrolls by two units only; *)
Theorem C38_forward_refuted : exists default es, Forall (simple_event S_off) es /\ simple_text E_off default /\
  exists x, readline S_off default 0 20 (Some []) es = Some x /\ roomy S_off x /\
  ~ inside E_off still (20 - 3) (mkScreen 0 (fun _ => Blank)) (out (buf_of x)).
Proof.
  exists (s2l "aaaaaaaaaaaaaa" ++ encode [768; 768]), (repeat (key 6) 15). split; [now apply simple_eventb_ok|]. split; [now apply simple_textb_ok|].
  set (o := readline _ _ _ _ _ _).
  assert (H : match o with Some x => roomyb S_off x && over E_off still (20 - 3) (mkScreen 0 (fun _ => Blank)) (out (buf_of x)) | None => false end = true) by (vm_compute; reflexivity).
  destruct o as [x|]; [|discriminate]. apply andb_true_iff in H as [H1 H2]. exists x. split; [reflexivity|]. split; [now apply roomyb_ok|now apply over_ok].
Qed.
Print Assumptions C38_forward_refuted.

(** onto a tab likewise; *)
Theorem C38_tab_refuted : exists default es, exists x, readline S_off default 0 20 (Some []) es = Some x /\
  forallb (fun m => width E_off m <? ViewWidth (buf_of x)) (line (buf_of x)) = true /\
  ~ inside E_off still (20 - 3) (mkScreen 0 (fun _ => Blank)) (out (buf_of x)).
Proof.
  exists (s2l "aaaaaaaaaaaa" ++ [9; 9; 9]), (repeat (key 6) 15).
  set (o := readline _ _ _ _ _ _).
  assert (H : match o with Some x => forallb (fun m => width E_off m <? ViewWidth (buf_of x)) (line (buf_of x)) && over E_off still (20 - 3) (mkScreen 0 (fun _ => Blank)) (out (buf_of x)) | None => false end = true) by (vm_compute; reflexivity).
  destruct o as [x|]; [|discriminate]. apply andb_true_iff in H as [H1 H2]. exists x. split; [reflexivity|]. split; [exact H1|now apply over_ok].
Qed.
Print Assumptions C38_tab_refuted.

(** and SWAPCHAR scrolls by one unit only, too few when a two-column unit comes in for a
    one-column unit. *)
Theorem C38_swap_refuted : exists default es, exists x, readline S_off default 0 20 (Some []) es = Some x /\ roomy S_off x /\
  ~ inside E_off still (20 - 3) (mkScreen 0 (fun _ => Blank)) (out (buf_of x)).
Proof.
  exists (s2l "aaaaaaaaaaaa" ++ encode [12354; 12354; 12354; 12354; 12354; 12354]), (repeat (key 6) 13 ++ repeat (key 20) 4).
  set (o := readline _ _ _ _ _ _).
  assert (H : match o with Some x => roomyb S_off x && over E_off still (20 - 3) (mkScreen 0 (fun _ => Blank)) (out (buf_of x)) | None => false end = true) by (vm_compute; reflexivity).
  destruct o as [x|]; [|discriminate]. apply andb_true_iff in H as [H1 H2]. exists x. split; [reflexivity|]. split; [now apply roomyb_ok|now apply over_ok].
Qed.
Print Assumptions C38_swap_refuted.
