(** C69 for lines with tabs that scroll, beside predictions. *)
From Verif Require Import Base Utf8 Moji Color Prompt Buffer Commands KeyMap Session Spec SpecLib SpecTerm SpecScreen SpecPaint SpecInk SpecVt SpecTabScreen SpecVtTabs SpecTabScroll SpecVtInk SpecVtScrollInk Sample
  TabScrollCheck InkSample VtSample VtInkSample VtTabsSample.
From Verif Require VtScrollInk InkProps.

(** C69 with tabs and predictions, whatever the length of the line: the bytes written so far,
    read by an ordinary terminal in any state between sequences whose row is taken to be as long
    as need be, show the line (C58), and every column of every unit, each space of a tab as well,
    was written when the colour codes received last were those of the colour the unit has in the
    line as it is now; every column of the prediction, when the look of predictions was set last.
    Transposing is allowed where the colours after the pair do not depend on its order.  Missing
    for the full claim: joined characters, that the row is long enough (C38), and what
    [steady_scroll] leaves out (C37). *)
Theorem C69_tabs_scroll_partial : forall V worn S default cur w cl es x,
  single_editor S -> single_text (cE (base S)) default -> single_clip (cE (base S)) cl -> Forall (single_event S) es ->
  prompt_width (base S) + 3 < w < 9223372036854775808 ->
  blind (ccol (base S)) -> true_colours (ccol (base S)) ->
  (forall x0, start S default cur w cl = Some x0 -> calm_scroll S es x0 /\ heard_run S es x0) ->
  counts_like V (cE (base S)) ->
  ready_after V (fst (callPromptWriter (cE (base S)) (prompt (base S)))) -> ready_after V (last_line_prompt (prompt (base S))) ->
  (pcolor0 (base S) <> [] -> colours_only V worn (pcolor0 (base S)) /\ colours_only V worn (pcolor1 (base S))) ->
  readline S default cur w cl es = Some x ->
  forall lf c0, v_state (c_vt c0) = Ground -> 0 <= v_col (c_vt c0) ->
  vt_scroll_colours V worn (base S) x (cbytes V worn (out_bytes (cE (base S)) lf (out (buf_of x))) c0).
Proof. exact VtScrollInk.vt_scroll_ink. Qed.
Print Assumptions C69_tabs_scroll_partial.

(** With the colouring that comes with the library, transposing anywhere: the codes of the
    table of C40. *)
Theorem C69_tabs_scroll_vimbatch_partial : forall V worn S default cur w cl es x,
  single_editor S -> single_text (cE (base S)) default -> single_clip (cE (base S)) cl -> Forall (single_event S) es ->
  prompt_width (base S) + 3 < w < 9223372036854775808 ->
  ccol (base S) = VimBatch ->
  (forall x0, start S default cur w cl = Some x0 -> calm_scroll S es x0) ->
  counts_like V (cE (base S)) ->
  ready_after V (fst (callPromptWriter (cE (base S)) (prompt (base S)))) -> ready_after V (last_line_prompt (prompt (base S))) ->
  (pcolor0 (base S) <> [] -> colours_only V worn (pcolor0 (base S)) /\ colours_only V worn (pcolor1 (base S))) ->
  readline S default cur w cl es = Some x ->
  forall lf c0, v_state (c_vt c0) = Ground -> 0 <= v_col (c_vt c0) ->
  vim_scroll_on_screen V worn (base S) x (cbytes V worn (out_bytes (cE (base S)) lf (out (buf_of x))) c0).
Proof. exact VtScrollInk.vt_scroll_vim. Qed.
Print Assumptions C69_tabs_scroll_vimbatch_partial.

(** A session that meets the conditions on every terminal of this kind: the line scrolls, a
    prediction follows a tab. *)
Definition C69_scroll_events : list event :=
  keys "xyzabcdefghijkl" ++ [key 2; key 2; key 20; key 1] ++ keys """" ++ [key 6; key 4; key 26; key 5; key 23; key 25; key 127; EKey (encode [12354])]
  ++ [key 16; key 14; EResize 16; key 18] ++ keys "ma" ++ [key 7; key 5; key 2; key 2; key 6; key 21; key 11] ++ keys "make" ++ [key 17; key 9].
Example C69_tabs_scroll_case : forall torn other worn, let V := V_with torn other in
  single_editor S_vttp /\ single_text E_vt (s2l "a" ++ [9] ++ s2l "b") /\ Forall (single_event S_vttp) C69_scroll_events /\ prompt_width (base S_vttp) + 3 < 20 /\
  ccol (base S_vttp) = VimBatch /\ blind VimBatch /\ true_colours VimBatch /\ orderless VimBatch /\
  (forall x0, start S_vttp (s2l "a" ++ [9] ++ s2l "b") 3 20 (Some []) = Some x0 -> calm_scroll S_vttp C69_scroll_events x0) /\
  counts_like V E_vt /\ ready_after V (fst (callPromptWriter E_vt (prompt (base S_vttp)))) /\ ready_after V (last_line_prompt (prompt (base S_vttp))) /\
  (colours_only V worn (pcolor0 (base S_vttp)) /\ colours_only V worn (pcolor1 (base S_vttp))) /\
  readline S_vttp (s2l "a" ++ [9] ++ s2l "b") 3 20 (Some []) C69_scroll_events <> None.
Proof.
  intros torn other worn V. split; [exact single_vttp|]. split; [now apply single_textb_ok|]. split; [now apply single_eventb_ok|]. split; [vm_compute; reflexivity|].
  split; [reflexivity|]. split; [exact InkProps.vim_blind|]. split; [exact InkProps.vim_true|]. split; [exact InkProps.vim_orderless|].
  split; [apply calm_scroll_read_ok; vm_compute; reflexivity|]. split; [apply vt_counts|]. split; [now apply quiet_ready|]. split; [now apply quiet_ready|].
  split; [split; [exact (sgr_colours V worn (s2l "3;22;34") eq_refl)|exact (sgr_colours V worn (s2l "23;39") eq_refl)]|]. vm_compute. discriminate.
Qed.
(** What one of them shows at the end: the line in its colour, the spaces of the tab too, and
    as much of the prediction as there is room for in the look of predictions. *)
Example C69_tabs_scroll_shown :
  ink_seen S_vttp V_vt (readline S_vttp (s2l "a" ++ [9] ++ s2l "b") 3 20 (Some []) C69_scroll_events) 2 11 3 =
    [(Char 109 0, [39; 49; 1]); (Char 97 0, [39; 49; 1]); (Char 107 0, [39; 49; 1]); (Char 101 0, [39; 49; 1]);
     (Char 32 0, [39; 49; 1]); (Char 32 0, [39; 49; 1]); (Char 32 0, [39; 49; 1]); (Char 32 0, [39; 49; 1]); (Char 97 0, [3; 22; 34]); (Char 108 0, [3; 22; 34]); (Empty, [])].
Proof. vm_compute. reflexivity. Qed.
