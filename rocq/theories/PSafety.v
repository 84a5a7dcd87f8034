(** C04, C17: no crash, history bounds. *)
From Verif Require Import Base Utf8 Moji Color Prompt Buffer Commands KeyMap Session Spec Sample Script SpecScript ScriptSample.
From Verif Require SafetyFacts Reach SafeSess AbsSess Safe.

(** C04 for every sequence of keys, resizes and clipboard changes, under conditions on
    the events alone.  Missing for the full claim: tabs and joining code points (the
    next theorem has them, with its condition on the lines of the run), SWAPCHAR (at the
    end of the line it breaks a later UNDO, see the refutation). *)
Theorem C04_no_crash_simple_partial : forall S default cur w cl es,
  simple_editor S -> simple_text (cE (base S)) default -> simple_clip (cE (base S)) cl ->
  Forall (simple_event S) es -> 0 <= cur -> prompt_width (base S) + 11 < w ->
  exists x, readline S default cur w cl es = Some x /\ in_bounds (buf_of x).
Proof. exact SafetyFacts.simple_safe. Qed.
Print Assumptions C04_no_crash_simple_partial.

(** C04 with tabs, joined characters and characters of any width.  [guarded] follows the
    text of the line through the events (in the display-free editor AbsSess, which has
    no widths and no painting) and asks at each step that every unit is narrower than
    the visible width, that a line with tabs is at most 32767 columns wide, that no unit
    begins with a joining code point, and that SWAPCHAR is not used at the end of the
    line. *)
Theorem C04_no_crash_guarded_partial : forall S,
  sane_widths (cE (base S)) -> Safe.pred_ok (base S) -> AbsSess.builtin_keys S ->
  forall default cur w cl es, 0 <= cur ->
  SafeSess.guarded S w (AbsSess.ARunning MNormal (AbsSess.astart S default cur cl)) es ->
  exists x, readline S default cur w cl es = Some x /\ in_bounds (buf_of x).
Proof. exact SafetyFacts.guarded_safe. Qed.
Print Assumptions C04_no_crash_guarded_partial.

(** A session meeting the conditions: typing, cursor keys, kill, yank, word rubout, undo,
    history, search, quoted insert, resizes. *)
Definition C04_events : list event :=
  keys "echo hello" ++ [key 1; key 11; key 25; key 23; key 26; key 16; key 14; key 2; key 4; EResize 30; key 18]
  ++ keys "re" ++ [key 18; key 13; key 17; key 3; EClip (Some (encode [128104; 32; 12354])); key 25; EResize 15; key 13].
Example C04_case : simple_editor S_off /\ simple_text E_off (s2l "abc") /\ Forall (simple_event S_off) C04_events /\
  prompt_width (base S_off) + 11 < 80 /\
  text_of (readline S_off (s2l "abc") 3 80 (Some []) C04_events)
  = Some (s2l "cat readme" ++ [3] ++ encode [128104; 32; 12354]).
Proof.
  split; [exact simple_off|]. split; [now apply simple_textb_ok|]. split; [now apply simple_eventb_ok|].
  split; vm_compute; reflexivity.
Qed.

(** Outside the conditions the editor does crash:
    a terminal as narrow as one wide character; *)
Theorem C04_narrow_refuted : exists S default cur w cl es, simple_editor S /\ Forall (simple_event S) es /\
  w = 7 /\ readline S default cur w cl es = None.
Proof.
  exists S_off, [], 0, 7, (Some []), [EKey (encode [12354]); key 1; EKey (encode [12356]); key 26].
  split; [exact simple_off|]. split; [now apply simple_eventb_ok|]. split; [reflexivity|]. vm_compute. reflexivity.
Qed.
Print Assumptions C04_narrow_refuted.

(** SWAPCHAR at the end of the line followed by UNDO, on a terminal of 80 columns. *)
Theorem C04_swap_undo_refuted : readline S_off [] 0 80 (Some []) (keys "ab" ++ [key 20; key 26]) = None.
Proof. vm_compute. reflexivity. Qed.
Print Assumptions C04_swap_undo_refuted.

(** Two units that belong together, typed in the wrong order, killed and brought back as one
    unit: the records of the two insertions no longer fit the line. *)
Theorem C04_joiner_undo_refuted :
  readline S_on [] 0 80 (Some []) (EKey (encode [127995]) :: key 1 :: keys "a" ++ [key 1; key 11; key 26; key 26; key 26]) = None.
Proof. vm_compute. reflexivity. Qed.
Print Assumptions C04_joiner_undo_refuted.

(** A tab after 32769 columns of text: its position is kept in 16 bits and becomes negative.
    The same line with a letter instead of the tab is fine. *)
Definition S_mono : scfg := mkScfg (mkCfg E_off [] false [] [] (fun _ _ => []) (Some (s2l "$ ")) monoChrome ascii_upper) [] GlobalKeyMap.
Definition long_line (last : Z) : str := repeat 97 (Z.to_nat 32769) ++ [last].
Theorem C04_tab_refuted : readline S_mono (long_line 9) 32770 80 (Some []) [] = None /\
  match readline S_mono (long_line 98) 32770 80 (Some []) [key 13] with Some (Finished _ t RNil) => str_eqb t (long_line 98) = true | _ => False end.
Proof. split; vm_compute; reflexivity. Qed.
Print Assumptions C04_tab_refuted.

(** Editor.Cursor negative: ReadLine panics before the first key, even for an empty line. *)
Theorem C04_cursor_refuted : forall S default cur w cl es, cur < 0 -> readline S default cur w cl es = None.
Proof. exact SafetyFacts.negative_cursor. Qed.
Print Assumptions C04_cursor_refuted.

(** C17: the history pointer stays inside 0..Len(), also when user commands written against
    the public API are bound to keys (SpecScript.scripted); *)
Theorem C17_pointer : forall S x, scripted S -> reached S x ->
  0 <= hptr (buf_of x) <= zlen (hist (base S)).
Proof. exact Reach.pointer_in_bounds. Qed.
Print Assumptions C17_pointer.

(** leaving an entry reads it inside the bounds (the model's At panics outside); *)
Theorem C17_save : forall S x, scripted S -> reached S x ->
  exists s', saveModifiedHistory (base S) (buf_of x) = Some s'.
Proof. exact Reach.save_reads_ok. Qed.
Print Assumptions C17_save.

(** showing an entry reads inside the bounds, in any state; *)
Theorem C17_get : forall S s, exists t, getHistory (base S) s = Some t.
Proof. exact Reach.get_reads_ok. Qed.
Print Assumptions C17_get.

(** and so does every key pressed during incremental search. *)
Theorem C17_search : forall S ss s k, scripted S -> reached S (Running (MSearch ss) s) ->
  exists a, search_key S k ss = Some a.
Proof. exact Reach.search_reads_ok. Qed.
Print Assumptions C17_search.

Example C17_case : exists s ss, readline S_off [] 0 80 (Some []) ([key 16; key 16; key 14] ++ key 18 :: keys "l")
  = Some (Running (MSearch ss) s) /\ hptr s = 2 /\ ss_pos ss = 2.
Proof. vm_compute. do 2 eexists. split; [reflexivity|]. auto. Qed.
(** Ctrl-X goes two entries back and takes the first character away there. *)
Definition two_back : script := SDo (KRun CPreviousHistory) (SDo (KRun CPreviousHistory) (SDo (KCursor 0) (SDo (KRun CDeleteChar) (SReturn CONTINUE)))).
Example C17_script_case : scripted (S_script two_back) /\ exists s ss,
  readline (S_script two_back) [] 0 80 (Some []) ([key 24; key 24; key 14] ++ key 18 :: keys "l") = Some (Running (MSearch ss) s) /\ hptr s = 1 /\ ss_pos ss = 2.
Proof. split; [apply script_scripted|]. vm_compute. do 2 eexists. split; [reflexivity|]. auto. Qed.
