(** C04 for text with tabs. *)
From Verif Require Import Base Utf8 Moji Color Prompt Buffer Commands KeyMap Session Spec Sample SpecTabs TabsFacts TabsSample.

(** C04 for every built-in command (SWAPCHAR but at the end of the line) and text with
    tabs, as long as no line grows beyond 800 characters (the crash that a very long
    line with a tab gives is C04_tab_refuted). *)
Theorem C04_no_crash_tabs_partial : forall S default cur w cl es,
  ordinary_editor S -> ordinary_text (cE (base S)) default -> ordinary_clip (cE (base S)) cl ->
  Forall (ordinary_event S) es -> 0 <= cur -> prompt_width (base S) + 11 < w ->
  (forall es1 e es2 x, es = es1 ++ e :: es2 -> readline S default cur w cl es1 = Some x -> short_line x /\ no_swap_at_end S e x) ->
  exists x, readline S default cur w cl es = Some x /\ in_bounds (buf_of x).
Proof. exact ordinary_safe. Qed.
Print Assumptions C04_no_crash_tabs_partial.

(** A session meeting the conditions: tabs typed and pasted, SWAPCHAR inside the line. *)
Definition C04_tab_events : list event :=
  keys "ab" ++ [key 9] ++ keys "cd" ++ [key 9; key 2; key 2; key 20; EClip (Some (s2l "x" ++ [9; 9])); key 25; EResize 15; key 1; key 26; key 16; key 14; key 13].
Example C04_tabs_case : ordinary_editor S_off /\ Forall (ordinary_event S_off) C04_tab_events /\ prompt_width (base S_off) + 11 < 40 /\
  (forall es1 e es2 x, C04_tab_events = es1 ++ e :: es2 -> readline S_off [9] 1 40 (Some []) es1 = Some x -> short_line x /\ no_swap_at_end S_off e x) /\
  text_of (readline S_off [9] 1 40 (Some []) C04_tab_events) = Some ([9] ++ s2l "ab" ++ [9] ++ s2l "dc" ++ [9]).
Proof.
  split; [exact ordinary_off|]. split; [now apply ordinary_eventb_ok|]. split; [vm_compute; reflexivity|]. split; [|vm_compute; reflexivity].
  apply along_read_ok. vm_compute. reflexivity.
Qed.
