(** C71: what one event writes is bounded by the width of the terminal, not by the length of the line. *)
From Verif Require Import Base Utf8 Moji Color Prompt Buffer Commands KeyMap Session Spec Sample SpecScreen ScreenCheck SpecTabScreen TabScreenCheck SpecCost.
From Verif Require PScreen PTabScreen CostScreen.

(** Whatever the state, the line, the history, the text pasted and the events: what is not text is
    bounded by what is text. *)
Theorem C71_marks : forall S e x x',
  sane_widths (cE (base S)) -> only_builtin S -> step S e x = Some x' ->
  exists ts, out (buf_of x') = out (buf_of x) ++ ts /\ others_written ts <= zlen (written_units ts) + 17.
Proof. exact CostScreen.others_bound. Qed.
Print Assumptions C71_marks.

(** C71 under conditions on the events alone.  Missing for the full claim: what [steady] leaves out. *)
Theorem C71_simple_partial : forall S default cur w cl es e x x',
  simple_editor S -> simple_text (cE (base S)) default -> simple_clip (cE (base S)) cl ->
  Forall (simple_event S) (es ++ [e]) -> 0 <= cur -> prompt_width (base S) + 11 < w ->
  (forall x0, start S default cur w cl = Some x0 -> steady_run S (es ++ [e]) x0) ->
  readline S default cur w cl es = Some x -> step S e x = Some x' ->
  exists ts, out (buf_of x') = out (buf_of x) ++ ts /\ bounded_by_row (cE (base S)) (termw (buf_of x')) ts.
Proof. exact CostScreen.cost_simple. Qed.
Print Assumptions C71_simple_partial.

(** With joined characters and SWAPCHAR, *)
Theorem C71_calm_partial : forall S default cur w cl es e x x',
  sane_widths (cE (base S)) -> only_builtin S ->
  (pcolor0 (base S) = [] \/ forall t c, Forall (fun m => tabfree m = true) (StringToMoji (cE (base S)) (predictor (base S) t c))) ->
  (forall x0, start S default cur w cl = Some x0 -> calm S (es ++ [e]) x0) ->
  readline S default cur w cl es = Some x -> step S e x = Some x' ->
  exists ts, out (buf_of x') = out (buf_of x) ++ ts /\ bounded_by_row (cE (base S)) (termw (buf_of x')) ts.
Proof. exact CostScreen.cost_calm. Qed.
Print Assumptions C71_calm_partial.

(** with tabs, *)
Theorem C71_tabs_partial : forall S default cur w cl es e x x',
  sane_widths (cE (base S)) -> only_builtin S -> pcolor0 (base S) = [] ->
  (forall x0, start S default cur w cl = Some x0 -> calm_tabs S (es ++ [e]) x0) ->
  readline S default cur w cl es = Some x -> step S e x = Some x' ->
  exists ts, out (buf_of x') = out (buf_of x) ++ ts /\ bounded_by_row (cE (base S)) (termw (buf_of x')) ts.
Proof. exact CostScreen.cost_tabs. Qed.
Print Assumptions C71_tabs_partial.

(** and for the first painting, however long the first text. *)
Theorem C71_start_partial : forall S default cur w cl x,
  sane_widths (cE (base S)) -> only_builtin S ->
  (pcolor0 (base S) = [] \/ forall t c, Forall (fun m => tabfree m = true) (StringToMoji (cE (base S)) (predictor (base S) t c))) ->
  start S default cur w cl = Some x -> roomy S x ->
  columns_written (cE (base S)) (out (buf_of x)) <= 3 * Z.max 0 (w - 3) /\
  others_written (out (buf_of x)) <= zlen (written_units (out (buf_of x))) + 11.
Proof. exact CostScreen.cost_start. Qed.
Print Assumptions C71_start_partial.

(** Cases: the sessions of C37 and C38 (PScreen.v, PTabScreen.v), and a pasted text of hundreds of
    characters on a row of thirty columns. *)
Definition C71_long : str := List.concat (List.repeat (s2l "go run main.go ") 30).
Example C71_case :
  simple_text E_off C71_long /\ simple_clip E_off (Some C71_long) /\ Forall (simple_event S_pred) ([key 25] ++ [key 25]) /\
  (forall x0, start S_pred C71_long 3 30 (Some C71_long) = Some x0 -> steady_run S_pred ([key 25] ++ [key 25]) x0) /\
  option_map (fun t => (zlen t >? 1000)%Z) (text_of (readline S_pred C71_long 3 30 (Some C71_long) [key 25; key 25])) = Some true.
Proof.
  split; [now apply simple_textb_ok|]. split; [intros t Ht; injection Ht as <-; now apply simple_textb_ok|]. split; [now apply simple_eventb_ok|]. split.
  - intros x0 Hx. apply calm_steady. revert x0 Hx. apply calm_read_ok. vm_compute. reflexivity.
  - vm_compute. reflexivity.
Qed.

(** Outside the conditions more is written: FORWARD_CHAR scrolls by two units at most, however wide
    the unit that comes in (C38_forward_refuted), so a row of forty columns comes to hold
    hundreds, and CTRL-L writes all of them.  No unit is wider than the row. *)
Definition C71_wide : str := List.repeat 97 30 ++ List.concat (List.repeat (encode (12354 :: List.concat (List.repeat [8205; 12354] 9))) 16).
Theorem C71_refuted : exists x x', readline S_on C71_wide 0 40 (Some []) (List.repeat (key 6) 44) = Some x /\ step S_on (key 12) x = Some x' /\
  forallb (fun m => width E_on m <? ViewWidth (buf_of x)) (line (buf_of x)) = true /\
  forall ts, out (buf_of x') = out (buf_of x) ++ ts -> ~ bounded_by_row E_on (termw (buf_of x')) ts.
Proof.
  assert (H : match readline S_on C71_wide 0 40 (Some []) (List.repeat (key 6) 44) with
              | Some x => match step S_on (key 12) x with
                          | Some x' => forallb (fun m => width E_on m <? ViewWidth (buf_of x)) (line (buf_of x)) &&
                                       (5 * Z.max 0 (termw (buf_of x') - 3) <? columns_written E_on (skipn (List.length (out (buf_of x))) (out (buf_of x'))))%Z
                          | None => false end
              | None => false end = true) by (vm_compute; reflexivity).
  destruct (readline S_on C71_wide 0 40 (Some []) (List.repeat (key 6) 44)) as [x|]; [|discriminate].
  destruct (step S_on (key 12) x) as [x'|] eqn:Ex; [|discriminate]. apply andb_true_iff in H as [H1 H].
  exists x, x'. split; [reflexivity|]. split; [exact Ex|]. split; [exact H1|]. intros ts Ho [Hc _].
  rewrite Ho, skipn_app, skipn_all, Nat.sub_diag in H. cbn [skipn app] in H. apply Z.ltb_lt in H. lia.
Qed.
Print Assumptions C71_refuted.
