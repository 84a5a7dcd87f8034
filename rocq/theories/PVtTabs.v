(** C58 for lines with tabs. *)
From Verif Require Import Base Utf8 Moji Color Prompt Buffer Commands KeyMap Session Spec SpecLib SpecTerm SpecScreen SpecVt SpecTabScreen SpecVtTabs Sample
  TabScreenCheck VtSample VtTabsSample SpecTabScroll SpecVtScroll TabScrollCheck.
From Verif Require VtTabs VtScroll.

(** C58 with tabs, when the line fits the row: the bytes written so far, read by an ordinary
    terminal in any state between sequences, show the whole line after the prompt, each tab as
    spaces up to the next multiple of four columns, and nothing else; the cursor is visible and
    stands before the unit at the editor's cursor.  Missing for the full claim: joined
    characters, predictions and lines with tabs that scroll (below), and what [steady_tabs] leaves out (C37). *)
Theorem C58_tabs_partial : forall V S default cur w cl es x,
  single_editor S -> pcolor0 (base S) = [] -> single_text (cE (base S)) default -> single_clip (cE (base S)) cl -> Forall (single_event S) es ->
  prompt_width (base S) + 3 < w < 9223372036854775808 ->
  (forall x0, start S default cur w cl = Some x0 -> calm_tabs S es x0) ->
  counts_like V (cE (base S)) ->
  ready_after V (fst (callPromptWriter (cE (base S)) (prompt (base S)))) -> ready_after V (last_line_prompt (prompt (base S))) ->
  readline S default cur w cl es = Some x ->
  forall lf v0, v_state v0 = Ground -> 0 <= v_col v0 ->
  vt_tabs_right V (cE (base S)) x (vbytes V (out_bytes (cE (base S)) lf (out (buf_of x))) v0).
Proof. exact VtTabs.vt_tabs_session. Qed.
Print Assumptions C58_tabs_partial.

(** A session that meets the conditions on every terminal of this kind: tabs typed, pasted and
    taken out again, from history and in a search; a wide character and a control character. *)
Definition C58_tab_events : list event :=
  keys "xy" ++ [key 17; key 9] ++ keys "z" ++ [key 1; key 6; key 4; key 26; key 5; key 23; key 25; key 127; EKey (encode [12354]); key 16; key 16; key 14; EResize 60; key 18]
  ++ keys "ma" ++ [key 13; key 21; key 25; key 17; key 3; key 2; key 20; key 2].
Example C58_tabs_case : forall torn other, let V := V_with torn other in
  single_editor S_vtt /\ single_text E_vt (s2l "a" ++ [9] ++ s2l "b") /\ Forall (single_event S_vtt) C58_tab_events /\ prompt_width (base S_vtt) + 3 < 80 /\
  (forall x0, start S_vtt (s2l "a" ++ [9] ++ s2l "b") 3 80 (Some []) = Some x0 -> calm_tabs S_vtt C58_tab_events x0) /\
  counts_like V E_vt /\ ready_after V (fst (callPromptWriter E_vt (prompt (base S_vtt)))) /\ ready_after V (last_line_prompt (prompt (base S_vtt))) /\
  readline S_vtt (s2l "a" ++ [9] ++ s2l "b") 3 80 (Some []) C58_tab_events <> None.
Proof.
  intros torn other V. split; [exact single_vtt|]. split; [now apply single_textb_ok|]. split; [now apply single_eventb_ok|]. split; [vm_compute; reflexivity|].
  split; [apply calm_tabs_read_ok; vm_compute; reflexivity|]. split; [apply vt_counts|]. split; [now apply quiet_ready|]. split; [now apply quiet_ready|]. vm_compute. discriminate.
Qed.
(** What one of them shows at the end, and where its cursor is. *)
Definition shown_tab_cells (es : list event) (n : nat) : option (list vcell * Z) :=
  match readline S_vtt (s2l "a" ++ [9] ++ s2l "b") 3 80 (Some []) es with
  | Some x => let v := vbytes V_vt (out_bytes E_vt (fun _ => [10]) (out (buf_of x))) (mkVt Ground 5 (fun _ => Char 120 0) 0 false) in
      Some (map (fun i => v_row v (Z.of_nat i)) (seq 0 n), v_col v)
  | None => None
  end.
Example C58_tabs_shown : shown_tab_cells C58_tab_events 24%nat =
  Some (map (fun r => Char r 0) (s2l "$ make    al^Cl") ++ repeat Empty 9, 14).
Proof. vm_compute. reflexivity. Qed.

(** When the line may be longer than the row, taken to be as long as need be (that it is long
    enough is false, C38), with and without predictions: the units from ViewStart on up to a point
    at or after the cursor, each tab as wide as in the whole line, perhaps the beginning of the
    prediction, and nothing else; the cursor is visible, at its place. *)
Theorem C58_tabs_scroll_partial : forall V S default cur w cl es x,
  single_editor S -> single_text (cE (base S)) default -> single_clip (cE (base S)) cl -> Forall (single_event S) es ->
  prompt_width (base S) + 3 < w < 9223372036854775808 ->
  (forall x0, start S default cur w cl = Some x0 -> calm_scroll S es x0) ->
  counts_like V (cE (base S)) ->
  ready_after V (fst (callPromptWriter (cE (base S)) (prompt (base S)))) -> ready_after V (last_line_prompt (prompt (base S))) ->
  (pcolor0 (base S) <> [] -> attribute_only V (pcolor0 (base S)) /\ attribute_only V (pcolor1 (base S))) ->
  readline S default cur w cl es = Some x ->
  forall lf v0, v_state v0 = Ground -> 0 <= v_col v0 ->
  vt_scrolled_right V (cE (base S)) x (vbytes V (out_bytes (cE (base S)) lf (out (buf_of x))) v0).
Proof. exact VtScroll.vt_scroll_session. Qed.
Print Assumptions C58_tabs_scroll_partial.
Definition C58_scroll_events : list event :=
  keys "xy" ++ [key 17; key 9] ++ keys "zabcdefghijkl" ++ [key 2; key 20; key 1; key 6; key 6; key 4; key 26; key 5; key 23; key 25; key 127; EKey (encode [12354])]
  ++ [key 16; key 14; EResize 16; key 18] ++ keys "re" ++ [key 7; key 21; key 25; key 12; key 5; key 2; key 2; key 6].
Example C58_tabs_scroll_case : forall torn other, let V := V_with torn other in
  single_editor S_vtt /\ single_text E_vt (s2l "abc" ++ [9] ++ s2l "bcdef") /\ Forall (single_event S_vtt) C58_scroll_events /\ prompt_width (base S_vtt) + 3 < 20 /\
  (forall x0, start S_vtt (s2l "abc" ++ [9] ++ s2l "bcdef") 3 20 (Some []) = Some x0 -> calm_scroll S_vtt C58_scroll_events x0) /\
  counts_like V E_vt /\ ready_after V (fst (callPromptWriter E_vt (prompt (base S_vtt)))) /\ ready_after V (last_line_prompt (prompt (base S_vtt))) /\
  match readline S_vtt (s2l "abc" ++ [9] ++ s2l "bcdef") 3 20 (Some []) C58_scroll_events with
  | Some (Running MNormal s) => 0 < view s /\ ViewWidth s < total_width E_vt (line s)
  | _ => False
  end.
Proof.
  intros torn other V. split; [exact single_vtt|]. split; [now apply single_textb_ok|]. split; [now apply single_eventb_ok|]. split; [vm_compute; reflexivity|].
  split; [apply calm_scroll_read_ok; vm_compute; reflexivity|]. split; [apply vt_counts|]. split; [now apply quiet_ready|]. split; [now apply quiet_ready|]. vm_compute. auto.
Qed.
(** With predictions: "m" predicts the rest of a line with a tab, "make" and a tab the rest after
    the tab; part of it is accepted with FORWARD_CHAR and taken back. *)
Definition C58_pred_events : list event := keys "xy" ++ [key 17; key 9; key 5; key 21] ++ keys "m" ++ [key 2; key 5; key 6; key 26; key 1; EResize 16] ++ keys " " ++ [key 127; key 5] ++ keys "ake" ++ [key 17; key 9].
Example C58_tabs_scroll_pred_case : forall torn other, let V := V_with torn other in
  single_editor S_vttp /\ single_text E_vt (s2l "abc" ++ [9] ++ s2l "bcdef") /\ Forall (single_event S_vttp) C58_pred_events /\ prompt_width (base S_vttp) + 3 < 20 /\
  (forall x0, start S_vttp (s2l "abc" ++ [9] ++ s2l "bcdef") 3 20 (Some []) = Some x0 -> calm_scroll S_vttp C58_pred_events x0) /\
  counts_like V E_vt /\ ready_after V (fst (callPromptWriter E_vt (prompt (base S_vttp)))) /\ ready_after V (last_line_prompt (prompt (base S_vttp))) /\
  (attribute_only V (pcolor0 (base S_vttp)) /\ attribute_only V (pcolor1 (base S_vttp))) /\
  match readline S_vttp (s2l "abc" ++ [9] ++ s2l "bcdef") 3 20 (Some []) C58_pred_events with
  | Some (Running MNormal s) => cursor s = zlen (line s) /\ zlen (line s) = 5 /\ zlen (predicted s) = 3
  | _ => False
  end.
Proof.
  intros torn other V. split; [exact single_vttp|]. split; [now apply single_textb_ok|]. split; [now apply single_eventb_ok|]. split; [vm_compute; reflexivity|].
  split; [apply calm_scroll_read_ok; vm_compute; reflexivity|]. split; [apply vt_counts|]. split; [now apply quiet_ready|]. split; [now apply quiet_ready|].
  split; [split; [exact (sgr_attribute V (s2l "3;22;34") eq_refl)|exact (sgr_attribute V (s2l "23;39") eq_refl)]|]. vm_compute. auto.
Qed.
