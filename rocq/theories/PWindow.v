(** C38: the row is that of the window. *)
From Verif Require Import Base Utf8 Moji Color Prompt Buffer Commands KeyMap Session Spec Sample SpecLib SpecTerm SpecScreen SpecTabScreen SpecCost SpecWindow Sched SpecSched.
From Verif Require WindowFacts WindowSched ScreenProps TabScreenProps CostScreen PScreen PTabScreen PSched SchedFacts.

(** The width the editor goes by is the one it was told last. *)
Theorem C38_window : forall S default cur w cl es x, only_builtin S ->
  readline S default cur w cl es = Some x -> termw (buf_of x) = window S default cur w cl es.
Proof. intros S default cur w cl es x HB. exact (WindowFacts.session_window S HB default cur w cl es x). Qed.
Print Assumptions C38_window.

(** The row begins after the prompt, *)
Theorem C38_row_start : forall S default cur w cl es x, only_builtin S -> sane_widths (cE (base S)) -> prompt_width (base S) + 3 < w ->
  readline S default cur w cl es = Some x -> topc (buf_of x) = prompt_width (base S).
Proof. intros S default cur w cl es x HB. exact (WindowFacts.session_prompt S HB default cur w cl es x). Qed.
Print Assumptions C38_row_start.

(** and what is used of it ends three columns before the edge of the window. *)
Theorem C38_row_width : forall S default cur w cl es x, only_builtin S -> sane_widths (cE (base S)) -> prompt_width (base S) + 3 < w ->
  readline S default cur w cl es = Some x -> ViewWidth (buf_of x) = window S default cur w cl es - prompt_width (base S) - 3.
Proof. exact WindowFacts.session_room. Qed.
Print Assumptions C38_row_width.

(** C38: every unit written by an event ends at least three columns before the right edge of the
    window.  Missing for the full claim: what [calm] leaves out (refuted in PScreen.v). *)
Theorem C38_inside_window_partial : forall S default cur w cl es e x x',
  sane_widths (cE (base S)) -> only_builtin S ->
  (pcolor0 (base S) = [] \/ forall t c, Forall (fun m => tabfree m = true) (StringToMoji (cE (base S)) (predictor (base S) t c))) ->
  (forall x0, start S default cur w cl = Some x0 -> calm S (es ++ [e]) x0) ->
  readline S default cur w cl es = Some x -> step S e x = Some x' ->
  forall other sc, exists ts, out (buf_of x') = out (buf_of x) ++ ts /\
    inside (cE (base S)) other (window S default cur w cl (es ++ [e]) - 3) (display (cE (base S)) other (out (buf_of x)) sc) ts.
Proof. exact WindowFacts.inside_window. Qed.
Print Assumptions C38_inside_window_partial.

(** The same with tabs.  Missing for the full claim: what [calm_tabs] leaves out. *)
Theorem C38_tabs_window_partial : forall S default cur w cl es e x x',
  sane_widths (cE (base S)) -> only_builtin S -> pcolor0 (base S) = [] ->
  (forall x0, start S default cur w cl = Some x0 -> calm_tabs S (es ++ [e]) x0) ->
  readline S default cur w cl es = Some x -> step S e x = Some x' ->
  forall other sc, exists ts, out (buf_of x') = out (buf_of x) ++ ts /\
    inside (cE (base S)) other (window S default cur w cl (es ++ [e]) - 3) (display (cE (base S)) other (out (buf_of x)) sc) ts.
Proof.
  intros S default cur w cl es e x x' HW HB HP Hc H He. rewrite <- (WindowFacts.session_window S HB _ _ _ _ _ _ (WindowFacts.readline_snoc _ _ _ _ _ _ _ _ _ H He)). exact (TabScreenProps.inside_tabs S default cur w cl es e x x' HW HB HP Hc H He).
Qed.
Print Assumptions C38_tabs_window_partial.

(** C71: what one event writes is bounded by the width of the window.  Missing for the full claim:
    what [calm] leaves out (refuted in PCost.v); *)
Theorem C71_window_partial : forall S default cur w cl es e x x',
  sane_widths (cE (base S)) -> only_builtin S ->
  (pcolor0 (base S) = [] \/ forall t c, Forall (fun m => tabfree m = true) (StringToMoji (cE (base S)) (predictor (base S) t c))) ->
  (forall x0, start S default cur w cl = Some x0 -> calm S (es ++ [e]) x0) ->
  readline S default cur w cl es = Some x -> step S e x = Some x' ->
  exists ts, out (buf_of x') = out (buf_of x) ++ ts /\ bounded_by_row (cE (base S)) (window S default cur w cl (es ++ [e])) ts.
Proof.
  intros S default cur w cl es e x x' HW HB HP Hc H He. rewrite <- (WindowFacts.session_window S HB _ _ _ _ _ _ (WindowFacts.readline_snoc _ _ _ _ _ _ _ _ _ H He)). exact (CostScreen.cost_calm S default cur w cl es e x x' HW HB HP Hc H He).
Qed.
Print Assumptions C71_window_partial.
(** with tabs, what [calm_tabs] leaves out. *)
Theorem C71_tabs_window_partial : forall S default cur w cl es e x x',
  sane_widths (cE (base S)) -> only_builtin S -> pcolor0 (base S) = [] ->
  (forall x0, start S default cur w cl = Some x0 -> calm_tabs S (es ++ [e]) x0) ->
  readline S default cur w cl es = Some x -> step S e x = Some x' ->
  exists ts, out (buf_of x') = out (buf_of x) ++ ts /\ bounded_by_row (cE (base S)) (window S default cur w cl (es ++ [e])) ts.
Proof.
  intros S default cur w cl es e x x' HW HB HP Hc H He. rewrite <- (WindowFacts.session_window S HB _ _ _ _ _ _ (WindowFacts.readline_snoc _ _ _ _ _ _ _ _ _ H He)). exact (CostScreen.cost_tabs S default cur w cl es e x x' HW HB HP Hc H He).
Qed.
Print Assumptions C71_tabs_window_partial.
(** A session with tabs (PTabScreen.v), whose window is sixty columns wide at its end. *)
Example C71_window_case : sane_widths (cE (base S_off)) /\ only_builtin S_off /\ pcolor0 (base S_off) = [] /\
  (forall x0, start S_off (s2l "a" ++ [9] ++ s2l "b") 3 80 (Some []) = Some x0 -> calm_tabs S_off PTabScreen.C37_tab_events x0) /\
  window S_off (s2l "a" ++ [9] ++ s2l "b") 3 80 (Some []) PTabScreen.C37_tab_events = 60.
Proof. destruct PTabScreen.C37_tabs_case as (H1 & H2 & H3 & H4 & _). repeat (split; [assumption|]). vm_compute. reflexivity. Qed.

(** Eighty columns, then twenty; while a quoted key is awaited nothing is delivered. *)
Definition C38_events : list event := keys "echo" ++ [EResize 20] ++ keys " one two three four" ++ [key 17; EResize 70; key 9].
Example C38_window_case : only_builtin S_off /\ sane_widths (cE (base S_off)) /\ prompt_width (base S_off) + 3 < 80 /\
  match readline S_off [] 0 80 (Some []) C38_events with
  | Some x => termw (buf_of x) = 20 /\ topc (buf_of x) = 2 /\ ViewWidth (buf_of x) = 15 /\ 0 < view (buf_of x)
  | None => False end /\ window S_off [] 0 80 (Some []) C38_events = 20.
Proof. split; [exact builtin_off|]. split; [exact sane_off|]. vm_compute. repeat split; discriminate. Qed.

(** C35: whenever the editor waits for a key and no callback is under way, it goes by the last size
    the terminal announced; no change of the size is lost, whatever commands it had to wait for. *)
Theorem C35_last_size : forall S I, only_builtin S -> implements S I -> forall default cur w cl s0 ls c,
  start S default cur w cl = Some (Running MNormal s0) -> exec_to I (ready s0) ls (Some c) -> lp c = LRead -> sz c = ZIdle ->
  termw (shared c) = last (sizes ls) w.
Proof. exact WindowSched.last_size. Qed.
Print Assumptions C35_last_size.

(** Two changes of the size; the first comes while the key d is being handled. *)
Definition C35_s3 : buf := PSched.C35_get (step S_off (EResize 25) (Running MNormal PSched.C35_s2)).
Definition C35_sizes : list label := [Internal; Key (s2l "d"); Internal; Size 40; Internal; Internal; Internal; Internal; Internal; Internal; Internal; Internal] ++
  [Size 25; Internal; Internal; Internal; Internal; Internal].
Example C35_last_size_case : only_builtin S_off /\ implements S_off (by_lines S_off) /\ start S_off (s2l "abc") 3 80 None = Some (Running MNormal PSched.C35_s0) /\
  exec_to (by_lines S_off) (ready PSched.C35_s0) C35_sizes (Some (mkConf C35_s3 None LRead ZIdle)) /\ last (sizes C35_sizes) 80 = 25 /\ termw C35_s3 = 25.
Proof.
  split; [exact builtin_off|]. destruct PSched.C35_case as (H1 & H2 & H3 & _). split; [exact H1|]. split; [exact H2|]. split; [|split; vm_compute; reflexivity].
  unfold C35_sizes. eapply WindowSched.X_app; [exact H3|].
  eapply SchedFacts.X_cons; [apply S_size|]. eapply SchedFacts.X_cons; [apply S_size_lock|].
  eapply SchedFacts.X_cons; [apply S_size_body; reflexivity|]. eapply SchedFacts.X_cons; [apply S_size_body; reflexivity|].
  eapply SchedFacts.X_cons; [apply (S_size_body _ _ _ _ _ C35_s3 (Ret tt)); vm_compute; reflexivity|]. apply SchedFacts.X_last. apply S_size_unlock.
Qed.
