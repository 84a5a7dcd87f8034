(** C78: the prediction is on the screen. *)
From Verif Require Import Base Utf8 Moji Color Prompt Buffer Commands KeyMap Session Spec Sample SpecTabs SpecUndo SpecLib SpecTerm SpecScreen SpecVt ScreenCheck VtSample SpecPredShown.
From Verif Require Import SpecVtTabs SpecTabScroll SpecVtScroll TabScrollCheck VtTabsSample.
From Verif Require PredShown VtPred PredTabs VtPredTabs PredCut PredExact VtPredCut.

(** C78 under conditions on the events alone (those of C37_screen_simple_partial).  Missing
    for the full claim: tabs (see C78_tabs_partial), and the events [predicts_anew] leaves out
    (refuted below). *)
Theorem C78_simple_partial : forall S default cur w cl es e x s,
  simple_editor S -> simple_text (cE (base S)) default -> simple_clip (cE (base S)) cl ->
  Forall (simple_event S) (es ++ [e]) -> 0 <= cur -> prompt_width (base S) + 11 < w ->
  (forall x0, start S default cur w cl = Some x0 -> steady_run S (es ++ [e]) x0) ->
  readline S default cur w cl es = Some x -> step S e x = Some (Running MNormal s) -> predicts_anew S e x ->
  pcolor0 (base S) <> [] -> cursor s = zlen (line s) -> line s <> [] ->
  forall other sc, shows_prediction (base S) s (display (cE (base S)) other (out s) sc).
Proof. exact PredShown.shown_simple. Qed.
Print Assumptions C78_simple_partial.

(** C78 with joined characters, in the line and in the prediction. *)
Theorem C78_calm_partial : forall S default cur w cl es e x s,
  sane_widths (cE (base S)) -> only_builtin S ->
  (pcolor0 (base S) = [] \/ forall t c, Forall (fun m => tabfree m = true) (StringToMoji (cE (base S)) (predictor (base S) t c))) ->
  (forall x0, start S default cur w cl = Some x0 -> calm S (es ++ [e]) x0) ->
  readline S default cur w cl es = Some x -> step S e x = Some (Running MNormal s) -> predicts_anew S e x ->
  pcolor0 (base S) <> [] -> cursor s = zlen (line s) -> line s <> [] ->
  forall other sc, shows_prediction (base S) s (display (cE (base S)) other (out s) sc).
Proof. exact PredShown.shown_calm. Qed.
Print Assumptions C78_calm_partial.

(** A line to begin with has its prediction at once. *)
Theorem C78_start_partial : forall S default cur w cl s,
  sane_widths (cE (base S)) ->
  (pcolor0 (base S) = [] \/ forall t c, Forall (fun m => tabfree m = true) (StringToMoji (cE (base S)) (predictor (base S) t c))) ->
  start S default cur w cl = Some (Running MNormal s) -> roomy S (Running MNormal s) ->
  pcolor0 (base S) <> [] -> cursor s = zlen (line s) -> line s <> [] ->
  forall other sc, shows_prediction (base S) s (display (cE (base S)) other (out s) sc).
Proof. exact PredShown.shown_start. Qed.
Print Assumptions C78_start_partial.

(** C78 on an ordinary terminal that is given the bytes (the terminals of C58). *)
Theorem C78_bytes_partial : forall V S default cur w cl es e x s, simple_editor S -> simple_text (cE (base S)) default -> simple_clip (cE (base S)) cl ->
  Forall (simple_event S) (es ++ [e]) -> 0 <= cur -> prompt_width (base S) + 11 < w < 9223372036854775808 ->
  (forall r, 0 <= r < 128 -> joins (cE (base S)) r = false) ->
  (forall x0, start S default cur w cl = Some x0 -> steady_run S (es ++ [e]) x0) ->
  counts_like V (cE (base S)) ->
  ready_after V (fst (callPromptWriter (cE (base S)) (prompt (base S)))) -> ready_after V (last_line_prompt (prompt (base S))) ->
  attribute_only V (pcolor0 (base S)) -> attribute_only V (pcolor1 (base S)) ->
  readline S default cur w cl es = Some x -> step S e x = Some (Running MNormal s) -> predicts_anew S e x ->
  pcolor0 (base S) <> [] -> cursor s = zlen (line s) -> line s <> [] ->
  forall lf v0, v_state v0 = Ground -> 0 <= v_col v0 ->
  vt_shows_prediction V (base S) s (vbytes V (out_bytes (cE (base S)) lf (out s)) v0).
Proof. exact VtPred.vt_prediction. Qed.
Print Assumptions C78_bytes_partial.

(** C78 with tabs, in the line and in the prediction, whatever the lengths of the prompt and
    the line, for predictions that fit (the others: C78_tabs_cut_partial). *)
Theorem C78_tabs_partial : forall S default cur w cl es e x s,
  sane_widths (cE (base S)) -> only_builtin S ->
  (forall x0, start S default cur w cl = Some x0 -> calm_scroll S (es ++ [e]) x0) ->
  readline S default cur w cl es = Some x -> step S e x = Some (Running MNormal s) -> predicts_anew S e x ->
  pcolor0 (base S) <> [] -> cursor s = zlen (line s) -> line s <> [] -> room_for_both (base S) s ->
  forall other sc, shows_whole_prediction (base S) s (display (cE (base S)) other (out s) sc).
Proof. intros S default cur w cl es e x s HE HB. exact (PredTabs.whole_session S HE HB default cur w cl es e x s). Qed.
Print Assumptions C78_tabs_partial.

(** The same on an ordinary terminal that is given the bytes. *)
Theorem C78_tabs_bytes_partial : forall V S default cur w cl es e x s, single_editor S -> SpecVtTabs.single_text (cE (base S)) default -> single_clip (cE (base S)) cl ->
  Forall (single_event S) (es ++ [e]) -> prompt_width (base S) + 3 < w < 9223372036854775808 ->
  (forall x0, start S default cur w cl = Some x0 -> calm_scroll S (es ++ [e]) x0) ->
  counts_like V (cE (base S)) ->
  ready_after V (fst (callPromptWriter (cE (base S)) (prompt (base S)))) -> ready_after V (last_line_prompt (prompt (base S))) ->
  attribute_only V (pcolor0 (base S)) -> attribute_only V (pcolor1 (base S)) ->
  readline S default cur w cl es = Some x -> step S e x = Some (Running MNormal s) -> predicts_anew S e x ->
  pcolor0 (base S) <> [] -> cursor s = zlen (line s) -> line s <> [] -> room_for_both (base S) s ->
  forall lf v0, v_state v0 = Ground -> 0 <= v_col v0 ->
  vt_shows_whole_prediction V (base S) s (vbytes V (out_bytes (cE (base S)) lf (out s)) v0).
Proof. exact VtPredTabs.vt_whole_session. Qed.
Print Assumptions C78_tabs_bytes_partial.

(** C78 with tabs for predictions of any length: all of it, or as many units as fit, in order
    and cut at the first that does not fit.  Missing for the full claim: beside tabs the code counts with
    the widths from before the edit, so the place of the cut is known up to three columns for each tab of the line. *)
Theorem C78_tabs_cut_partial : forall S default cur w cl es e x s,
  sane_widths (cE (base S)) -> only_builtin S ->
  (forall x0, start S default cur w cl = Some x0 -> calm_scroll S (es ++ [e]) x0) ->
  readline S default cur w cl es = Some x -> step S e x = Some (Running MNormal s) -> predicts_anew S e x ->
  pcolor0 (base S) <> [] -> cursor s = zlen (line s) -> line s <> [] -> room_for_line (base S) s ->
  forall other sc, shows_cut_prediction (base S) s (display (cE (base S)) other (out s) sc).
Proof. intros S default cur w cl es e x s HE HB. exact (PredCut.cut_session S HE HB default cur w cl es e x s). Qed.
Print Assumptions C78_tabs_cut_partial.

(** A line with tabs to begin with. *)
Theorem C78_tabs_start_partial : forall S default cur w cl s, sane_widths (cE (base S)) ->
  start S default cur w cl = Some (Running MNormal s) -> tabs_apart S (Running MNormal s) ->
  pcolor0 (base S) <> [] -> cursor s = zlen (line s) -> line s <> [] -> room_for_line (base S) s ->
  forall other sc, shows_cut_prediction (base S) s (display (cE (base S)) other (out s) sc).
Proof. intros S default cur w cl s HE. exact (PredExact.cut_start S HE default cur w cl s). Qed.
Print Assumptions C78_tabs_start_partial.

(** The same on an ordinary terminal that is given the bytes. *)
Theorem C78_tabs_cut_bytes_partial : forall V S default cur w cl es e x s, single_editor S -> SpecVtTabs.single_text (cE (base S)) default -> single_clip (cE (base S)) cl ->
  Forall (single_event S) (es ++ [e]) -> prompt_width (base S) + 3 < w < 9223372036854775808 ->
  (forall x0, start S default cur w cl = Some x0 -> calm_scroll S (es ++ [e]) x0) ->
  counts_like V (cE (base S)) ->
  ready_after V (fst (callPromptWriter (cE (base S)) (prompt (base S)))) -> ready_after V (last_line_prompt (prompt (base S))) ->
  attribute_only V (pcolor0 (base S)) -> attribute_only V (pcolor1 (base S)) ->
  readline S default cur w cl es = Some x -> step S e x = Some (Running MNormal s) -> predicts_anew S e x ->
  pcolor0 (base S) <> [] -> cursor s = zlen (line s) -> line s <> [] -> room_for_line (base S) s ->
  forall lf v0, v_state v0 = Ground -> 0 <= v_col v0 ->
  vt_shows_cut_prediction V (base S) s (vbytes V (out_bytes (cE (base S)) lf (out s)) v0).
Proof. exact VtPredCut.vt_cut_session. Qed.
Print Assumptions C78_tabs_cut_bytes_partial.

(** A line with tabs to begin with, on such a terminal. *)
Theorem C78_tabs_start_bytes_partial : forall V S default cur w cl s, single_editor S -> SpecVtTabs.single_text (cE (base S)) default -> single_clip (cE (base S)) cl ->
  prompt_width (base S) + 3 < w < 9223372036854775808 -> start S default cur w cl = Some (Running MNormal s) -> tabs_apart S (Running MNormal s) ->
  counts_like V (cE (base S)) ->
  ready_after V (fst (callPromptWriter (cE (base S)) (prompt (base S)))) -> ready_after V (last_line_prompt (prompt (base S))) ->
  attribute_only V (pcolor0 (base S)) -> attribute_only V (pcolor1 (base S)) ->
  pcolor0 (base S) <> [] -> cursor s = zlen (line s) -> line s <> [] -> room_for_line (base S) s ->
  forall lf v0, v_state v0 = Ground -> 0 <= v_col v0 ->
  vt_shows_cut_prediction V (base S) s (vbytes V (out_bytes (cE (base S)) lf (out s)) v0).
Proof. exact VtPredCut.vt_cut_start. Qed.
Print Assumptions C78_tabs_start_bytes_partial.

(** When the event brings no tab into the line, and the key typed does not attach to the
    character before it, the cut is exact: the prediction ends at the first unit that does not fit the row.
    Missing for the full claim: events that bring a tab (see [C78_tabs_counted_partial]), and those [predicts_anew] leaves out. *)
Theorem C78_tabs_exact_partial : forall S default cur w cl es e x s,
  sane_widths (cE (base S)) -> only_builtin S ->
  (forall x0, start S default cur w cl = Some x0 -> calm_scroll S (es ++ [e]) x0) ->
  readline S default cur w cl es = Some x -> step S e x = Some (Running MNormal s) -> predicts_anew S e x -> brings_no_tab S e x ->
  pcolor0 (base S) <> [] -> cursor s = zlen (line s) -> line s <> [] -> line_fits (base S) s ->
  forall other sc, shows_prediction_exactly (base S) s (display (cE (base S)) other (out s) sc).
Proof. intros S default cur w cl es e x s HE HB. exact (PredExact.exact_session S HE HB default cur w cl es e x s). Qed.
Print Assumptions C78_tabs_exact_partial.

(** The same on an ordinary terminal that is given the bytes. *)
Theorem C78_tabs_exact_bytes_partial : forall V S default cur w cl es e x s, single_editor S -> SpecVtTabs.single_text (cE (base S)) default -> single_clip (cE (base S)) cl ->
  Forall (single_event S) (es ++ [e]) -> prompt_width (base S) + 3 < w < 9223372036854775808 ->
  (forall x0, start S default cur w cl = Some x0 -> calm_scroll S (es ++ [e]) x0) ->
  counts_like V (cE (base S)) ->
  ready_after V (fst (callPromptWriter (cE (base S)) (prompt (base S)))) -> ready_after V (last_line_prompt (prompt (base S))) ->
  attribute_only V (pcolor0 (base S)) -> attribute_only V (pcolor1 (base S)) ->
  readline S default cur w cl es = Some x -> step S e x = Some (Running MNormal s) -> predicts_anew S e x -> brings_no_tab S e x ->
  pcolor0 (base S) <> [] -> cursor s = zlen (line s) -> line s <> [] -> line_fits (base S) s ->
  forall lf v0, v_state v0 = Ground -> 0 <= v_col v0 ->
  vt_shows_prediction_exactly V (base S) s (vbytes V (out_bytes (cE (base S)) lf (out s)) v0).
Proof. exact VtPredCut.vt_exact_session. Qed.
Print Assumptions C78_tabs_exact_bytes_partial.

(** In general the cut is exact by the code's own count, in which the text an event brings keeps its
    tabs as wide as in that text by itself (so a tab just brought may cost the prediction up to three columns).
    Missing for the full claim: the columns so lost, keys that attach to the character before them, and the
    events [predicts_anew] leaves out. *)
Theorem C78_tabs_counted_partial : forall S default cur w cl es e x s,
  sane_widths (cE (base S)) -> only_builtin S ->
  (forall x0, start S default cur w cl = Some x0 -> calm_scroll S (es ++ [e]) x0) ->
  readline S default cur w cl es = Some x -> step S e x = Some (Running MNormal s) -> predicts_anew S e x -> single_piece S e ->
  pcolor0 (base S) <> [] -> cursor s = zlen (line s) -> line s <> [] -> counted_fits (base S) (brought S e x) s ->
  forall other sc, shows_prediction_counted (base S) (brought S e x) s (display (cE (base S)) other (out s) sc).
Proof. intros S default cur w cl es e x s HE HB. exact (PredExact.counted_session S HE HB default cur w cl es e x s). Qed.
Print Assumptions C78_tabs_counted_partial.

(** The same on an ordinary terminal that is given the bytes. *)
Theorem C78_tabs_counted_bytes_partial : forall V S default cur w cl es e x s, single_editor S -> SpecVtTabs.single_text (cE (base S)) default -> single_clip (cE (base S)) cl ->
  Forall (single_event S) (es ++ [e]) -> prompt_width (base S) + 3 < w < 9223372036854775808 ->
  (forall x0, start S default cur w cl = Some x0 -> calm_scroll S (es ++ [e]) x0) ->
  counts_like V (cE (base S)) ->
  ready_after V (fst (callPromptWriter (cE (base S)) (prompt (base S)))) -> ready_after V (last_line_prompt (prompt (base S))) ->
  attribute_only V (pcolor0 (base S)) -> attribute_only V (pcolor1 (base S)) ->
  readline S default cur w cl es = Some x -> step S e x = Some (Running MNormal s) -> predicts_anew S e x -> single_piece S e ->
  pcolor0 (base S) <> [] -> cursor s = zlen (line s) -> line s <> [] -> counted_fits (base S) (brought S e x) s ->
  forall lf v0, v_state v0 = Ground -> 0 <= v_col v0 ->
  vt_shows_prediction_counted V (base S) (brought S e x) s (vbytes V (out_bytes (cE (base S)) lf (out s)) v0).
Proof. exact VtPredCut.vt_counted_session. Qed.
Print Assumptions C78_tabs_counted_bytes_partial.

(** A session that meets the conditions, whose last key undoes the clearing of the line; the
    window is so narrow that only ke instal is shown of the prediction ke install. *)
Definition C78_events : list event := keys "max" ++ [key 8; key 21].
Definition C78_last (es : list event) (e : event) : option (bool * list slot) :=
  match readline S_pred [] 0 17 (Some []) es with
  | Some x => match step S_pred e x with
      | Some (Running MNormal s) => Some (cursor s =? zlen (line s), map (row (display E_off still (out s) (mkScreen 0 (fun _ => Blank)))) [3; 4; 5; 12; 13])
      | _ => None end
  | None => None end.
Example C78_case : simple_editor S_pred /\ Forall (simple_event S_pred) (C78_events ++ [key 26]) /\ prompt_width (base S_pred) + 11 < 17 /\
  (forall x0, start S_pred [] 0 17 (Some []) = Some x0 -> steady_run S_pred (C78_events ++ [key 26]) x0) /\
  pcolor0 (base S_pred) <> [] /\
  match readline S_pred [] 0 17 (Some []) C78_events with Some (Running MNormal s) => undoes s <> [] | _ => False end /\
  LookupCommand (kmap S_pred) (gmap S_pred) [26] = CUndo /\
  C78_last C78_events (key 26) = Some (true, [Part (MRaw 97) 0; Part (MRaw 107) 0; Part (MRaw 101) 0; Part (MRaw 108) 0; Blank]).
Proof.
  split; [exact simple_pred|]. split; [now apply simple_eventb_ok|]. split; [reflexivity|]. split.
  - intros x0 Hx. apply calm_steady. revert x0 Hx. apply calm_read_ok. vm_compute. reflexivity.
  - split; [discriminate|]. split; [vm_compute; discriminate|]. split; [reflexivity|]. vm_compute. reflexivity.
Qed.
(** A line to begin with. *)
Example C78_start_case : exists s, start S_pred (s2l "ma") 2 17 (Some []) = Some (Running MNormal s) /\ roomy S_pred (Running MNormal s) /\
  cursor s = zlen (line s) /\ line s <> [] /\ predictor (base S_pred) (written (line s)) (cursor s) = s2l "ke install".
Proof.
  set (o := start S_pred (s2l "ma") 2 17 (Some [])).
  assert (H : match o with Some (Running MNormal s) => roomyb S_pred (Running MNormal s) = true /\ cursor s = zlen (line s) /\ line s <> [] /\
    predictor (base S_pred) (written (line s)) (cursor s) = s2l "ke install" | _ => False end) by (vm_compute; repeat split; discriminate).
  destruct o as [[[| |ss] s|s t r]|]; try destruct H. destruct H0 as (H1 & H2 & H3). exists s. split; [reflexivity|]. split; [now apply roomyb_ok|auto].
Qed.

(** The bytes of a session: the window has become narrower and the prediction with it. *)
Definition C78_typed : list event := keys "cxx" ++ [key 8; key 8].
Example C78_bytes_case : forall torn other, let V := V_with torn other in
  simple_editor S_vt /\ Forall (simple_event S_vt) (C78_typed ++ [EResize 15]) /\ prompt_width (base S_vt) + 11 < 20 /\
  (forall r, 0 <= r < 128 -> joins E_vt r = false) /\
  (forall x0, start S_vt [] 0 20 (Some []) = Some x0 -> steady_run S_vt (C78_typed ++ [EResize 15]) x0) /\
  counts_like V E_vt /\ ready_after V (fst (callPromptWriter E_vt (prompt (base S_vt)))) /\ ready_after V (last_line_prompt (prompt (base S_vt))) /\
  attribute_only V (pcolor0 (base S_vt)) /\ attribute_only V (pcolor1 (base S_vt)) /\ pcolor0 (base S_vt) <> [] /\
  match readline S_vt [] 0 20 (Some []) C78_typed with
  | Some x => match step S_vt (EResize 15) x with
      | Some (Running MNormal s) => cursor s = zlen (line s) /\ line s <> [] /\
          let v := vbytes V_vt (out_bytes E_vt (fun _ => [10]) (out s)) (mkVt Ground 5 (fun _ => Char 120 0) 0 false) in
          (map (fun i => v_row v (Z.of_nat i)) (seq 0 14), v_col v) = (map (fun r => Char r 0) (s2l "$ cat readm") ++ repeat Empty 3, 3)
      | _ => False end
  | None => False end.
Proof.
  intros torn other V. split; [exact simple_vt|]. split; [now apply simple_eventb_ok|]. split; [vm_compute; reflexivity|].
  split; [exact low_vt|]. split.
  { intros x0 Hx. apply calm_steady. revert x0 Hx. apply calm_read_ok. vm_compute. reflexivity. }
  split; [apply vt_counts|]. split; [now apply quiet_ready|]. split; [now apply quiet_ready|].
  split; [exact (sgr_attribute V (s2l "3;22;34") eq_refl)|]. split; [exact (sgr_attribute V (s2l "23;39") eq_refl)|]. split; [discriminate|].
  vm_compute. repeat split; discriminate.
Qed.

(** A tab comes before the prediction all. *)
Definition C78_tab_typed : list event := keys "xy" ++ [key 17; key 9; key 5; key 21] ++ keys "make" ++ [key 17].
Example C78_tabs_case : forall torn other, let V := V_with torn other in
  single_editor S_vttp /\ only_builtin S_vttp /\ Forall (single_event S_vttp) (C78_tab_typed ++ [key 9]) /\ prompt_width (base S_vttp) + 3 < 30 < 9223372036854775808 /\
  (forall x0, start S_vttp [] 0 30 (Some []) = Some x0 -> calm_scroll S_vttp (C78_tab_typed ++ [key 9]) x0) /\
  counts_like V E_vt /\ ready_after V (fst (callPromptWriter E_vt (prompt (base S_vttp)))) /\ ready_after V (last_line_prompt (prompt (base S_vttp))) /\
  attribute_only V (pcolor0 (base S_vttp)) /\ attribute_only V (pcolor1 (base S_vttp)) /\ pcolor0 (base S_vttp) <> [] /\
  match readline S_vttp [] 0 30 (Some []) C78_tab_typed with
  | Some x => match step S_vttp (key 9) x with
      | Some (Running MNormal s) => predicts_anew S_vttp (key 9) x /\ cursor s = zlen (line s) /\ line s <> [] /\ room_for_both (base S_vttp) s /\
          let v := vbytes V_vt (out_bytes E_vt (fun _ => [10]) (out s)) (mkVt Ground 5 (fun _ => Char 120 0) 0 false) in
          (map (fun i => v_row v (Z.of_nat i)) (seq 2 17), v_col v) = (map (fun r => Char r 0) (s2l "make    all") ++ repeat Empty 6, 10)
      | _ => False end
  | None => False end.
Proof.
  intros torn other V. split; [exact single_vttp|]. split; [exact (proj1 single_vttp)|]. split; [now apply single_eventb_ok|]. split; [vm_compute; auto|].
  split; [apply calm_scroll_read_ok; vm_compute; reflexivity|]. split; [apply vt_counts|]. split; [now apply quiet_ready|]. split; [now apply quiet_ready|].
  split; [exact (sgr_attribute V (s2l "3;22;34") eq_refl)|]. split; [exact (sgr_attribute V (s2l "23;39") eq_refl)|]. split; [discriminate|].
  vm_compute. repeat split; discriminate.
Qed.

(** make, a tab and the prediction install clean, of which ins is shown. *)
Definition cut_hist : list str := [s2l "make" ++ [9] ++ s2l "install clean"].
Definition S_vtcut : scfg := mkScfg (mkCfg E_vt cut_hist false ([27] ++ s2l "[3;22;34m") ([27] ++ s2l "[23;39m") (predictByHistory cut_hist)
  (Some ([10; 27] ++ s2l "[36;1m$ " ++ [27] ++ s2l "[0m")) VimBatch ascii_upper) [] GlobalKeyMap.
Lemma single_vtcut : single_editor S_vtcut.
Proof.
  split; [exact (proj1 single_vttp)|]. split; [exact (proj1 (proj2 single_vttp))|]. split; [|split; [reflexivity|]; split; [exact (proj1 (proj2 (proj2 (proj2 (proj2 single_vttp)))))|]; repeat constructor; now apply single_textb_ok].
  right. intros t c. cbn [base S_vtcut predictor]. unfold predictByHistory.
  destruct (predict_suffix (rev cut_hist) t) as [-> |(h & n & Hi & ->)]; [intros r []|].
  assert (G : forallb (fun h => forallb (fun n => single_textb E_vt (skipn n h)) (seq 0 (S (List.length h)))) (rev cut_hist) = true) by reflexivity.
  rewrite forallb_forall in G. specialize (G h Hi). rewrite forallb_forall in G. apply single_textb_ok.
  destruct (Nat.le_gt_cases n (List.length h)) as [Hn|Hn]; [apply G, in_seq; lia|]. rewrite skipn_all2 by lia. reflexivity.
Qed.
Example C78_tabs_cut_case : forall torn other, let V := V_with torn other in
  single_editor S_vtcut /\ only_builtin S_vtcut /\ Forall (single_event S_vtcut) (C78_tab_typed ++ [key 9]) /\ prompt_width (base S_vtcut) + 3 < 17 < 9223372036854775808 /\
  (forall x0, start S_vtcut [] 0 17 (Some []) = Some x0 -> calm_scroll S_vtcut (C78_tab_typed ++ [key 9]) x0) /\
  counts_like V E_vt /\ ready_after V (fst (callPromptWriter E_vt (prompt (base S_vtcut)))) /\ ready_after V (last_line_prompt (prompt (base S_vtcut))) /\
  attribute_only V (pcolor0 (base S_vtcut)) /\ attribute_only V (pcolor1 (base S_vtcut)) /\ pcolor0 (base S_vtcut) <> [] /\
  match readline S_vtcut [] 0 17 (Some []) C78_tab_typed with
  | Some x => match step S_vtcut (key 9) x with
      | Some (Running MNormal s) => predicts_anew S_vtcut (key 9) x /\ cursor s = zlen (line s) /\ line s <> [] /\ room_for_line (base S_vtcut) s /\
          let v := vbytes V_vt (out_bytes E_vt (fun _ => [10]) (out s)) (mkVt Ground 5 (fun _ => Char 120 0) 0 false) in
          (map (fun i => v_row v (Z.of_nat i)) (seq 2 17), v_col v) = (map (fun r => Char r 0) (s2l "make    ins") ++ repeat Empty 6, 10)
      | _ => False end
  | None => False end.
Proof.
  intros torn other V. split; [exact single_vtcut|]. split; [exact (proj1 single_vtcut)|]. split; [now apply single_eventb_ok|]. split; [vm_compute; auto|].
  split; [apply calm_scroll_read_ok; vm_compute; reflexivity|]. split; [apply vt_counts|]. split; [now apply quiet_ready|]. split; [now apply quiet_ready|].
  split; [exact (sgr_attribute V (s2l "3;22;34") eq_refl)|]. split; [exact (sgr_attribute V (s2l "23;39") eq_refl)|]. split; [discriminate|].
  vm_compute. repeat split; discriminate.
Qed.

(** The line make and a tab to begin with. *)
Example C78_tabs_start_case : match start S_vtcut (s2l "make" ++ [9]) 5 17 (Some []) with
  | Some (Running MNormal s) => tabs_apart S_vtcut (Running MNormal s) /\ cursor s = zlen (line s) /\ line s <> [] /\ room_for_line (base S_vtcut) s /\
      map (fun x => match row (display E_vt still (out s) (mkScreen 0 (fun _ => Blank))) x with Part (MRaw r) _ => r | Part (MTab _) _ => 9 | _ => 0 end) (map Z.of_nat (seq 2 12)) = s2l "make" ++ [9; 9; 9; 9] ++ s2l "ins" ++ [0]
  | _ => False end.
Proof.
  set (o := start S_vtcut (s2l "make" ++ [9]) 5 17 (Some [])).
  assert (H : match o with Some (Running MNormal s) => line s = map MRaw (s2l "make") ++ [MTab 0] /\ total_width E_vt (line s) = 8 /\ cursor s = zlen (line s) /\ line s <> [] /\ room_for_line (base S_vtcut) s /\
      map (fun x => match row (display E_vt still (out s) (mkScreen 0 (fun _ => Blank))) x with Part (MRaw r) _ => r | Part (MTab _) _ => 9 | _ => 0 end) (map Z.of_nat (seq 2 12)) = s2l "make" ++ [9; 9; 9; 9] ++ s2l "ins" ++ [0]
    | _ => False end) by (vm_compute; repeat split; discriminate).
  destruct o as [[[| |ss] s|s t r]|]; try destruct H. destruct H0 as (H1 & H2). split; [|exact H2]. unfold tabs_apart. cbn [buf_of]. change (cE (base S_vtcut)) with E_vt. rewrite H1, H. split; [|lia].
  repeat (apply Forall_cons; [first [left; reflexivity|right; reflexivity]|]). apply Forall_nil.
Qed.

Lemma typed_i s : pending s = [] -> brings_no_tab S_vtcut (EKey [105]) (Running MNormal s).
Proof.
  assert (L : LookupCommand (kmap S_vtcut) (gmap S_vtcut) [105] = CSelfInsert [105]) by reflexivity.
  intros Hp. split.
  - unfold brought. rewrite L, Hp. apply Forall_cons; [reflexivity|apply Forall_nil].
  - unfold single_piece, bound. rewrite L. split; [discriminate|]. split; [discriminate|]. split; [|reflexivity]. intros k' [= <-]. reflexivity.
Qed.
(** One more letter, after the tab: ns is shown of nstall clean. *)
Example C78_tabs_exact_case : forall torn other, let V := V_with torn other in
  single_editor S_vtcut /\ only_builtin S_vtcut /\ Forall (single_event S_vtcut) ((C78_tab_typed ++ [key 9]) ++ keys "i") /\ prompt_width (base S_vtcut) + 3 < 17 < 9223372036854775808 /\
  (forall x0, start S_vtcut [] 0 17 (Some []) = Some x0 -> calm_scroll S_vtcut ((C78_tab_typed ++ [key 9]) ++ keys "i") x0) /\
  counts_like V E_vt /\ ready_after V (fst (callPromptWriter E_vt (prompt (base S_vtcut)))) /\ ready_after V (last_line_prompt (prompt (base S_vtcut))) /\
  attribute_only V (pcolor0 (base S_vtcut)) /\ attribute_only V (pcolor1 (base S_vtcut)) /\ pcolor0 (base S_vtcut) <> [] /\
  match readline S_vtcut [] 0 17 (Some []) (C78_tab_typed ++ [key 9]) with
  | Some x => match step S_vtcut (EKey [105]) x with
      | Some (Running MNormal s) => predicts_anew S_vtcut (EKey [105]) x /\ brings_no_tab S_vtcut (EKey [105]) x /\ cursor s = zlen (line s) /\ line s <> [] /\ line_fits (base S_vtcut) s /\
          let v := vbytes V_vt (out_bytes E_vt (fun _ => [10]) (out s)) (mkVt Ground 5 (fun _ => Char 120 0) 0 false) in
          (map (fun i => v_row v (Z.of_nat i)) (seq 2 17), v_col v) = (map (fun r => Char r 0) (s2l "make    ins") ++ repeat Empty 6, 11)
      | _ => False end
  | None => False end.
Proof.
  intros torn other V. split; [exact single_vtcut|]. split; [exact (proj1 single_vtcut)|]. split; [now apply single_eventb_ok|]. split; [vm_compute; auto|].
  split; [apply calm_scroll_read_ok; vm_compute; reflexivity|]. split; [apply vt_counts|]. split; [now apply quiet_ready|]. split; [now apply quiet_ready|].
  split; [exact (sgr_attribute V (s2l "3;22;34") eq_refl)|]. split; [exact (sgr_attribute V (s2l "23;39") eq_refl)|]. split; [discriminate|].
  set (o := readline S_vtcut [] 0 17 (Some []) (C78_tab_typed ++ [key 9])).
  assert (H : match o with
    | Some (Running MNormal s0) => pending s0 = [] /\ match step S_vtcut (EKey [105]) (Running MNormal s0) with
      | Some (Running MNormal s) => predicts_anew S_vtcut (EKey [105]) (Running MNormal s0) /\ cursor s = zlen (line s) /\ line s <> [] /\ line_fits (base S_vtcut) s /\
          let v := vbytes V_vt (out_bytes E_vt (fun _ => [10]) (out s)) (mkVt Ground 5 (fun _ => Char 120 0) 0 false) in
          (map (fun i => v_row v (Z.of_nat i)) (seq 2 17), v_col v) = (map (fun r => Char r 0) (s2l "make    ins") ++ repeat Empty 6, 11)
      | _ => False end
    | _ => False end) by (vm_compute; repeat split; discriminate).
  destruct o as [[[| |ss] s0|s0 t r]|]; try destruct H. destruct (step S_vtcut (EKey [105]) (Running MNormal s0)) as [[[| |ss] s|s t r]|]; try contradiction.
  destruct H0 as (H1 & H2). split; [exact H1|]. split; [now apply typed_i|exact H2].
Qed.

(** The tab after mak is one column wide where it stands and four by itself: of install clean, where
    install would fit, inst is shown. *)
Definition counted_hist : list str := [s2l "mak" ++ [9] ++ s2l "install clean"].
Definition S_vtcnt : scfg := mkScfg (mkCfg E_vt counted_hist false ([27] ++ s2l "[3;22;34m") ([27] ++ s2l "[23;39m") (predictByHistory counted_hist)
  (Some ([10; 27] ++ s2l "[36;1m$ " ++ [27] ++ s2l "[0m")) VimBatch ascii_upper) [] GlobalKeyMap.
Lemma single_vtcnt : single_editor S_vtcnt.
Proof.
  split; [exact (proj1 single_vttp)|]. split; [exact (proj1 (proj2 single_vttp))|]. split; [|split; [reflexivity|]; split; [exact (proj1 (proj2 (proj2 (proj2 (proj2 single_vttp)))))|]; repeat constructor; now apply single_textb_ok].
  right. intros t c. cbn [base S_vtcnt predictor]. unfold predictByHistory.
  destruct (predict_suffix (rev counted_hist) t) as [-> |(h & n & Hi & ->)]; [intros r []|].
  assert (G : forallb (fun h => forallb (fun n => single_textb E_vt (skipn n h)) (seq 0 (S (List.length h)))) (rev counted_hist) = true) by reflexivity.
  rewrite forallb_forall in G. specialize (G h Hi). rewrite forallb_forall in G. apply single_textb_ok.
  destruct (Nat.le_gt_cases n (List.length h)) as [Hn|Hn]; [apply G, in_seq; lia|]. rewrite skipn_all2 by lia. reflexivity.
Qed.
Lemma quoted_tab : single_piece S_vtcnt (EKey [9]).
Proof.
  assert (L : LookupCommand (kmap S_vtcnt) (gmap S_vtcnt) [9] = CSelfInsert [9]) by reflexivity.
  unfold single_piece, bound. rewrite L. split; [discriminate|]. split; [discriminate|]. split; [|reflexivity]. intros k' [= <-]. reflexivity.
Qed.
Example C78_tabs_counted_case : forall torn other, let V := V_with torn other in
  single_editor S_vtcnt /\ only_builtin S_vtcnt /\ Forall (single_event S_vtcnt) ((keys "mak" ++ [key 17]) ++ [key 9]) /\ prompt_width (base S_vtcnt) + 3 < 17 < 9223372036854775808 /\
  (forall x0, start S_vtcnt [] 0 17 (Some []) = Some x0 -> calm_scroll S_vtcnt ((keys "mak" ++ [key 17]) ++ [key 9]) x0) /\
  counts_like V E_vt /\ ready_after V (fst (callPromptWriter E_vt (prompt (base S_vtcnt)))) /\ ready_after V (last_line_prompt (prompt (base S_vtcnt))) /\
  attribute_only V (pcolor0 (base S_vtcnt)) /\ attribute_only V (pcolor1 (base S_vtcnt)) /\ pcolor0 (base S_vtcnt) <> [] /\ single_piece S_vtcnt (EKey [9]) /\
  match readline S_vtcnt [] 0 17 (Some []) (keys "mak" ++ [key 17]) with
  | Some x => match step S_vtcnt (EKey [9]) x with
      | Some (Running MNormal s) => predicts_anew S_vtcnt (EKey [9]) x /\ cursor s = zlen (line s) /\ line s <> [] /\ counted_fits (base S_vtcnt) (brought S_vtcnt (EKey [9]) x) s /\
          let v := vbytes V_vt (out_bytes E_vt (fun _ => [10]) (out s)) (mkVt Ground 5 (fun _ => Char 120 0) 0 false) in
          (map (fun i => v_row v (Z.of_nat i)) (seq 2 17), v_col v) = (map (fun r => Char r 0) (s2l "mak inst") ++ repeat Empty 9, 6)
      | _ => False end
  | None => False end.
Proof.
  intros torn other V. split; [exact single_vtcnt|]. split; [exact (proj1 single_vtcnt)|]. split; [now apply single_eventb_ok|]. split; [vm_compute; auto|].
  split; [apply calm_scroll_read_ok; vm_compute; reflexivity|]. split; [apply vt_counts|]. split; [now apply quiet_ready|]. split; [now apply quiet_ready|].
  split; [exact (sgr_attribute V (s2l "3;22;34") eq_refl)|]. split; [exact (sgr_attribute V (s2l "23;39") eq_refl)|]. split; [discriminate|]. split; [exact quoted_tab|].
  vm_compute. repeat split; discriminate.
Qed.

(** END_OF_LINE takes the prediction off the screen although the cursor is at the end and
    FORWARD_CHAR would still take it over (gommand.go:92-117 puts what is after the cursor and erases the rest of the row). *)
Theorem C78_end_refuted : exists s sc, readline S_pred [] 0 80 (Some []) (keys "ma" ++ [key 5]) = Some (Running MNormal s) /\
  cursor s = zlen (line s) /\ predictor (base S_pred) (written (line s)) (cursor s) = s2l "ke install" /\
  predicted s = split E_off (s2l "ke install") /\ ~ shows_prediction (base S_pred) s (display E_off still (out s) sc).
Proof.
  set (o := readline S_pred [] 0 80 (Some []) (keys "ma" ++ [key 5])).
  assert (H : match o with Some (Running MNormal s) => cursor s = 2 /\ line s = [MRaw 109; MRaw 97] /\ view s = 0 /\ topc s = 2 /\ termw s = 80 /\
    predicted s = split E_off (s2l "ke install") /\
    row (display E_off still (out s) (mkScreen 0 (fun _ => Blank))) 4 = Blank | _ => False end) by (vm_compute; repeat split).
  destruct o as [[[| |ss] s|s t r]|]; try destruct H. destruct H0 as (H1 & H2 & H3 & H4 & H5 & H6). exists s, (mkScreen 0 (fun _ => Blank)).
  split; [reflexivity|]. rewrite H, H1. split; [reflexivity|]. split; [vm_compute; reflexivity|]. split; [exact H5|].
  intros (pred & rest & Hp & (_ & _ & Hr & _) & Hm). rewrite H, H1 in *. rewrite H2, H3 in *. unfold ViewWidth in Hm. rewrite H3, H4 in Hm.
  destruct pred as [|m pred].
  - destruct Hm as [->|(m & rest' & -> & Hm)]; [vm_compute in Hp; discriminate|]. vm_compute in Hp. injection Hp as <- _. vm_compute in Hm. now apply Hm.
  - vm_compute in Hp. injection Hp as <- _. specialize (Hr 4 ltac:(lia)). rewrite H6 in Hr. vm_compute in Hr. discriminate.
Qed.
Print Assumptions C78_end_refuted.
