(** C69: the colours of the bytes. *)
From Verif Require Import Base Utf8 Moji Color Prompt Buffer Commands KeyMap Session Spec SpecLib SpecTerm SpecScreen SpecPaint SpecInk SpecVt SpecVtInk Sample
  ScreenCheck VtSample VtInkSample.
From Verif Require VtInk InkProps.

(** C69: the bytes written so far, read by an ordinary terminal in any state between
    sequences, show the line (C58), and every column of every visible unit was written when
    the colour codes received last were those of the colour the unit has in the line as it is
    now; predictions after their look was set.  Whatever the terminal does with half
    characters, other sequences and the prompt, and whatever colours were set before.
    Missing for the full claim: colourings that use the marker of the cursor (refuted below),
    joined characters, and what [steady] leaves out (C37); tabs and SWAPCHAR are in
    PVtTabInk.v. *)
Theorem C69_bytes_partial : forall V worn S default cur w cl es x,
  simple_editor S -> simple_text (cE (base S)) default -> simple_clip (cE (base S)) cl ->
  Forall (simple_event S) es -> 0 <= cur -> prompt_width (base S) + 11 < w < 9223372036854775808 ->
  (forall r, 0 <= r < 128 -> joins (cE (base S)) r = false) ->
  blind (ccol (base S)) -> true_colours (ccol (base S)) ->
  (forall x0, start S default cur w cl = Some x0 -> steady_run S es x0) ->
  counts_like V (cE (base S)) ->
  ready_after V (fst (callPromptWriter (cE (base S)) (prompt (base S)))) -> ready_after V (last_line_prompt (prompt (base S))) ->
  (pcolor0 (base S) <> [] -> colours_only V worn (pcolor0 (base S)) /\ colours_only V worn (pcolor1 (base S))) ->
  readline S default cur w cl es = Some x ->
  forall lf c0, v_state (c_vt c0) = Ground -> 0 <= v_col (c_vt c0) ->
  vt_colours V worn (base S) x (cbytes V worn (out_bytes (cE (base S)) lf (out (buf_of x))) c0).
Proof. exact VtInk.vt_ink_session. Qed.
Print Assumptions C69_bytes_partial.

(** With the colouring that comes with the library: the codes of the table of C40. *)
Theorem C69_vimbatch_partial : forall V worn S default cur w cl es x,
  simple_editor S -> simple_text (cE (base S)) default -> simple_clip (cE (base S)) cl ->
  Forall (simple_event S) es -> 0 <= cur -> prompt_width (base S) + 11 < w < 9223372036854775808 ->
  (forall r, 0 <= r < 128 -> joins (cE (base S)) r = false) ->
  ccol (base S) = VimBatch ->
  (forall x0, start S default cur w cl = Some x0 -> steady_run S es x0) ->
  counts_like V (cE (base S)) ->
  ready_after V (fst (callPromptWriter (cE (base S)) (prompt (base S)))) -> ready_after V (last_line_prompt (prompt (base S))) ->
  (pcolor0 (base S) <> [] -> colours_only V worn (pcolor0 (base S)) /\ colours_only V worn (pcolor1 (base S))) ->
  readline S default cur w cl es = Some x ->
  forall lf c0, v_state (c_vt c0) = Ground -> 0 <= v_col (c_vt c0) ->
  vim_on_screen V (base S) x (cbytes V worn (out_bytes (cE (base S)) lf (out (buf_of x))) c0).
Proof. exact VtInk.vt_vim_session. Qed.
Print Assumptions C69_vimbatch_partial.

(** A session that meets the conditions on every terminal of this kind: quotes opened and
    closed before text already on the screen, wide characters, scrolling, search, a prediction. *)
Definition C69_events : list event :=
  keys "echo hello world" ++ [key 1; key 6] ++ keys """" ++ [key 5; key 2; key 2; key 11; key 25; key 26; key 16; key 14; EResize 24; key 18]
  ++ keys "re" ++ [key 18; key 13; EKey (encode [12354]); EKey (encode [9472]); key 1] ++ keys """a%" ++ [key 127; key 21; key 11] ++ keys "a""b""&" ++ [key 1; key 11] ++ keys "ca".
Example C69_case : forall torn other worn, let V := V_with torn other in
  simple_editor S_vt /\ simple_text E_vt (s2l "abc") /\ Forall (simple_event S_vt) C69_events /\ prompt_width (base S_vt) + 11 < 20 /\
  (forall r, 0 <= r < 128 -> joins E_vt r = false) /\ ccol (base S_vt) = VimBatch /\ blind VimBatch /\ true_colours VimBatch /\
  (forall x0, start S_vt (s2l "abc") 3 20 (Some []) = Some x0 -> steady_run S_vt C69_events x0) /\
  counts_like V E_vt /\ ready_after V (fst (callPromptWriter E_vt (prompt (base S_vt)))) /\ ready_after V (last_line_prompt (prompt (base S_vt))) /\
  (colours_only V worn (pcolor0 (base S_vt)) /\ colours_only V worn (pcolor1 (base S_vt))) /\
  readline S_vt (s2l "abc") 3 20 (Some []) C69_events <> None.
Proof.
  intros torn other worn V. split; [exact simple_vt|]. split; [now apply simple_textb_ok|]. split; [now apply simple_eventb_ok|]. split; [vm_compute; reflexivity|].
  split; [exact low_vt|]. split; [reflexivity|]. split; [exact InkProps.vim_blind|]. split; [exact InkProps.vim_true|]. split.
  { intros x0 Hx. apply calm_steady. revert x0 Hx. apply calm_read_ok. vm_compute. reflexivity. }
  split; [apply vt_counts|]. split; [now apply quiet_ready|]. split; [now apply quiet_ready|]. split; [|vm_compute; discriminate].
  split; [exact (sgr_colours V worn (s2l "3;22;34") eq_refl)|exact (sgr_colours V worn (s2l "23;39") eq_refl)].
Qed.
(** What one of them shows: a"b"& after two quotes were typed in front of b (codes of the
    last colour: default, magenta, magenta, magenta, dark yellow), and a prediction in blue. *)
Example C69_shown :
  ink_seen S_vt V_vt (readline S_vt [] 0 30 (Some []) (keys "ab&" ++ [key 1; key 6] ++ keys """" ++ [key 6] ++ keys """")) 2 5 3 =
    [(Char 97 0, [39; 49; 1]); (Char 34 0, [35; 49; 1]); (Char 98 0, [35; 49; 1]); (Char 34 0, [35; 49; 1]); (Char 38 0, [33; 22; 49])] /\
  ink_seen S_vt V_vt (readline S_vt [] 0 30 (Some []) (keys "ca")) 2 4 3 =
    [(Char 99 0, [39; 49; 1]); (Char 97 0, [39; 49; 1]); (Char 116 0, [3; 22; 34]); (Char 32 0, [3; 22; 34])].
Proof. vm_compute. auto. Qed.

(** A colouring that uses the marker: after FORWARD_CHAR the character before the cursor
    still stands in the colour it had after the cursor (gommand.go:133-147). *)
Theorem C69_marker_refuted : counts_like V_vt E_vt /\ only_builtin S_by /\ true_colours (ccol (base S_by)) /\
  exists s, readline S_by [] 0 80 (Some []) (keys "ab" ++ [key 1; key 6]) = Some (Running MNormal s) /\
  ~ vt_colours V_vt (fun _ _ _ => []) (base S_by) (Running MNormal s) (cbytes V_vt (fun _ _ _ => []) (out_bytes E_vt (fun _ => [10]) (out s)) c_blank).
Proof. exact (conj (vt_counts _ _) (conj by_builtin (conj by_true by_stale))). Qed.
Print Assumptions C69_marker_refuted.
