(** C69 for lines with tabs. *)
From Verif Require Import Base Utf8 Moji Color Prompt Buffer Commands KeyMap Session Spec SpecLib SpecTerm SpecScreen SpecPaint SpecInk SpecVt SpecTabScreen SpecVtTabs SpecVtInk SpecVtTabInk Sample
  TabScreenCheck InkSample VtSample VtInkSample VtTabsSample.
From Verif Require VtTabInk InkProps.

(** C69 with tabs, when the line fits the row: the bytes written so far, read by an ordinary
    terminal in any state between sequences, show the line (C58), and every column of every
    unit, each space of a tab as well, was written when the colour codes received last were
    those of the colour the unit has in the line as it is now.  Transposing is allowed where
    the colours after the pair do not depend on its order.  Missing for the full claim:
    joined characters, and what [steady_tabs] leaves out (C37); for predictions and lines longer
    than the row see C69_tabs_scroll_partial. *)
Theorem C69_tabs_partial : forall V worn S default cur w cl es x,
  single_editor S -> pcolor0 (base S) = [] -> single_text (cE (base S)) default -> single_clip (cE (base S)) cl -> Forall (single_event S) es ->
  prompt_width (base S) + 3 < w < 9223372036854775808 ->
  blind (ccol (base S)) -> true_colours (ccol (base S)) ->
  (forall x0, start S default cur w cl = Some x0 -> calm_tabs S es x0 /\ heard_run S es x0) ->
  counts_like V (cE (base S)) ->
  ready_after V (fst (callPromptWriter (cE (base S)) (prompt (base S)))) -> ready_after V (last_line_prompt (prompt (base S))) ->
  readline S default cur w cl es = Some x ->
  forall lf c0, v_state (c_vt c0) = Ground -> 0 <= v_col (c_vt c0) ->
  vt_tab_colours V worn (base S) x (cbytes V worn (out_bytes (cE (base S)) lf (out (buf_of x))) c0).
Proof. exact VtTabInk.vt_tab_ink. Qed.
Print Assumptions C69_tabs_partial.

(** With the colouring that comes with the library, transposing anywhere: the codes of the
    table of C40. *)
Theorem C69_tabs_vimbatch_partial : forall V S default cur w cl es x,
  single_editor S -> pcolor0 (base S) = [] -> single_text (cE (base S)) default -> single_clip (cE (base S)) cl -> Forall (single_event S) es ->
  prompt_width (base S) + 3 < w < 9223372036854775808 ->
  ccol (base S) = VimBatch ->
  (forall x0, start S default cur w cl = Some x0 -> calm_tabs S es x0) ->
  counts_like V (cE (base S)) ->
  ready_after V (fst (callPromptWriter (cE (base S)) (prompt (base S)))) -> ready_after V (last_line_prompt (prompt (base S))) ->
  readline S default cur w cl es = Some x ->
  forall worn lf c0, v_state (c_vt c0) = Ground -> 0 <= v_col (c_vt c0) ->
  vim_tabs_on_screen V x (cbytes V worn (out_bytes (cE (base S)) lf (out (buf_of x))) c0).
Proof. exact VtTabInk.vt_tab_vim. Qed.
Print Assumptions C69_tabs_vimbatch_partial.

(** A session that meets the conditions on every terminal of this kind: quotes opened before
    tabs already on the screen, a transposition in the middle, history, search, undo, resize. *)
Definition C69_tab_events : list event :=
  keys "xy" ++ [key 17; key 9] ++ keys "z" ++ [key 2; key 2; key 2; key 20; key 1] ++ keys """" ++ [key 6; key 4; key 26; key 5; key 23; key 25; key 127; EKey (encode [12354])]
  ++ [key 16; key 14; EResize 60; key 18] ++ keys "re" ++ [key 7; key 21; key 25; key 12; key 5; key 21] ++ keys "a" ++ [key 17; key 9] ++ keys """b" ++ [key 1] ++ keys """".
Example C69_tabs_case : forall torn other, let V := V_with torn other in
  single_editor S_vtt /\ single_text E_vt (s2l "a" ++ [9] ++ s2l "b") /\ Forall (single_event S_vtt) C69_tab_events /\ prompt_width (base S_vtt) + 3 < 80 /\
  ccol (base S_vtt) = VimBatch /\ blind VimBatch /\ true_colours VimBatch /\ orderless VimBatch /\
  (forall x0, start S_vtt (s2l "a" ++ [9] ++ s2l "b") 3 80 (Some []) = Some x0 -> calm_tabs S_vtt C69_tab_events x0) /\
  counts_like V E_vt /\ ready_after V (fst (callPromptWriter E_vt (prompt (base S_vtt)))) /\ ready_after V (last_line_prompt (prompt (base S_vtt))) /\
  readline S_vtt (s2l "a" ++ [9] ++ s2l "b") 3 80 (Some []) C69_tab_events <> None.
Proof.
  intros torn other V. split; [exact single_vtt|]. split; [now apply single_textb_ok|]. split; [now apply single_eventb_ok|]. split; [vm_compute; reflexivity|].
  split; [reflexivity|]. split; [exact InkProps.vim_blind|]. split; [exact InkProps.vim_true|]. split; [exact InkProps.vim_orderless|].
  split; [apply calm_tabs_read_ok; vm_compute; reflexivity|]. split; [apply vt_counts|]. split; [now apply quiet_ready|]. split; [now apply quiet_ready|]. vm_compute. discriminate.
Qed.
(** What one of them shows at the end: the quote typed first in front of a tab that was
    already there, both spaces of it now in the colour of quoted text; b after the second
    quote is not. *)
Example C69_tabs_shown :
  ink_seen S_vtt V_vt (readline S_vtt (s2l "a" ++ [9] ++ s2l "b") 3 80 (Some []) C69_tab_events) 2 6 3 =
    [(Char 34 0, [35; 49; 1]); (Char 97 0, [35; 49; 1]); (Char 32 0, [35; 49; 1]); (Char 32 0, [35; 49; 1]); (Char 34 0, [35; 49; 1]); (Char 98 0, [39; 49; 1])].
Proof. vm_compute. reflexivity. Qed.
