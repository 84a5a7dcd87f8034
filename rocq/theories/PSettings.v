(** C60: settings that change during ReadLine. *)
From Verif Require Import Base Utf8 Moji Color Prompt Buffer Commands KeyMap Session Spec Sample SpecComp Script SpecScript
  SpecIndep Settings SpecSettings SettingsFacts SettingsSample
  SpecTabs TabsSample SpecTabScript SettingsTabs ChangeTabsSample.

(** Key bindings, colours, predictions, the widths of characters may change from key to key and
    the history may grow: nothing crashes, for text without tabs and joiners. *)
Theorem C60_no_crash_partial : forall S default cur w cl ses,
  careful_editor S -> Forall (fun p => careful_editor (fst p)) ses -> each_follows S ses ->
  simple_text (cE (base S)) default -> simple_clip (cE (base S)) cl ->
  (forall ses1 T e ses2 x, ses = ses1 ++ (T, e) :: ses2 -> readline_settings S default cur w cl ses1 = Some x -> simple_or_command T e x) ->
  0 <= cur -> prompt_width (base S) + 11 < w ->
  exists x, readline_settings S default cur w cl ses = Some x /\ in_bounds (buf_of x).
Proof. exact settings_safe. Qed.
Print Assumptions C60_no_crash_partial.
Example C60_case :
  careful_editor at_first /\ Forall (fun p => careful_editor (fst p)) x_events /\ each_follows at_first x_events /\
  (forall ses1 T e ses2 x, x_events = ses1 ++ (T, e) :: ses2 -> readline_settings at_first [] 0 25 None ses1 = Some x -> simple_or_command T e x) /\
  prompt_width (base at_first) + 11 < 25 /\
  (exists s, readline_settings at_first [] 0 25 None x_events = Some (Finished s (s2l "make install") RNil)).
Proof.
  destruct x_careful as (A & B & D). split; [exact A|]. split; [exact B|]. split; [exact D|]. split.
  - intros ses1 T e ses2 x He _. left. apply (settingsb_ok x_events ltac:(vm_compute; reflexivity)). rewrite He. apply in_elt.
  - split; [vm_compute; reflexivity|]. eexists. vm_compute. reflexivity.
Qed.
(** Nor in lines with tabs, of at most 800 characters, unless SWAPCHAR is used at the end of the line. *)
Theorem C60_no_crash_tabs_partial : forall S default cur w cl ses,
  ordinary_sources S -> Forall (fun p => ordinary_sources (fst p)) ses -> each_follows S ses ->
  ordinary_text (cE (base S)) default -> ordinary_clip (cE (base S)) cl ->
  (forall ses1 T e ses2 x, ses = ses1 ++ (T, e) :: ses2 -> readline_settings S default cur w cl ses1 = Some x ->
     ordinary_event T e /\ short_line x /\ no_swap_at_end T e x /\ careful_there T e x) ->
  0 <= cur -> prompt_width (base S) + 11 < w ->
  exists x, readline_settings S default cur w cl ses = Some x /\ in_bounds (buf_of x).
Proof. exact tab_settings_safe. Qed.
Print Assumptions C60_no_crash_tabs_partial.
Example C60_tabs_case :
  ordinary_sources at_first /\ Forall (fun p => ordinary_sources (fst p)) xt_events /\ each_follows at_first xt_events /\
  (forall ses1 T e ses2 x, xt_events = ses1 ++ (T, e) :: ses2 -> readline_settings at_first [9] 1 25 None ses1 = Some x ->
     ordinary_event T e /\ short_line x /\ no_swap_at_end T e x /\ careful_there T e x) /\
  prompt_width (base at_first) + 11 < 25 /\
  text_of (readline_settings at_first [9] 1 25 None xt_events) = Some (s2l "make install" ++ [9]) /\
  text_of (readline_settings at_first [9] 1 25 None xt_typed) = Some ([9] ++ s2l "xx" ++ [9; 9] ++ s2l "xy" ++ [9] ++ s2l "x").
Proof.
  destruct xt_ok as (A & B & D & F). split; [exact A|]. split; [exact B|]. split; [exact D|].
  split; [exact (settings_tabsb_ok at_first [9] 1 25 None xt_events F ltac:(vm_compute; reflexivity))|].
  split; [vm_compute; reflexivity|]. split; vm_compute; reflexivity.
Qed.
(** Without predictions, changes of the display (widths, colours, prompt, characters shown in
    escaped form) do not change the outcome, compared with settings that never change. *)
Theorem C60_same : forall S S2 default cur cl w w2 ses es x1 x2, only_builtin S2 -> same_but_display S S2 ->
  Forall (fun p => same_but_display (fst p) S2) ses -> without_resizes (map snd ses) = without_resizes es ->
  readline_settings S default cur w cl ses = Some x1 -> readline S2 default cur w2 cl es = Some x2 -> told x1 = told x2.
Proof. exact settings_told. Qed.
Print Assumptions C60_same.
Definition C60_shown : list (scfg * event) :=
  map (fun e => (show 2 false VimBatch "# ", e)) (keys "xx" ++ [EKey (encode [128512])]) ++ map (fun e => (show 7 true VimBatch "", e)) [key 2; EResize 30; key 8; key 13].
Example C60_same_case : only_builtin (show 1 true VimBatch "$ ") /\ same_but_display (show 3 true VimBatch "> ") (show 1 true VimBatch "$ ") /\
  Forall (fun p => same_but_display (fst p) (show 1 true VimBatch "$ ")) C60_shown /\
  (exists s s', readline_settings (show 3 true VimBatch "> ") [] 0 40 None C60_shown = Some (Finished s (s2l "x" ++ encode [128512]) RNil) /\
    readline (show 1 true VimBatch "$ ") [] 0 80 None (without_resizes (map snd C60_shown)) = Some (Finished s' (s2l "x" ++ encode [128512]) RNil)).
Proof.
  split; [intros k f; apply global_builtin; discriminate|]. split; [apply same_show|].
  split; [unfold C60_shown; rewrite Forall_app, !Forall_map; split; apply Forall_forall; intros e _; apply same_show|].
  eexists _, _. split; vm_compute; reflexivity.
Qed.
(** A line added to the history while ReadLine waits is not found by PREVIOUS_HISTORY, and
    on the way back the line being typed takes its place; after it comes an empty line. *)
Theorem C60_history_refuted :
  let typed := map (fun e => (S_hist [s2l "one"], e)) (keys "abc") in
  let added := fun es => readline_settings (S_hist [s2l "one"]) [] 0 80 None (typed ++ map (fun e => (S_hist [s2l "one"; s2l "two"], e)) es) in
  text_of (added [key 16]) = Some (s2l "one") /\ text_of (added [key 16; key 14]) = Some (s2l "abc") /\
  text_of (added [key 16; key 14; key 14]) = Some [].
Proof. vm_compute. auto. Qed.
Print Assumptions C60_history_refuted.
(** A search that began with an empty history: after a line is added, Ctrl-R goes on for
    ever, however many steps it is given, if the line does not match. *)
Theorem C60_search_refuted :
  (exists s, readline_settings (S_hist []) [] 0 80 None [(S_hist [], key 18); (S_hist [s2l "ab"], EKey (s2l "z"))] =
     Some (Running (MSearch (mkSearch (s2l "z") [] (-1))) s)) /\
  forall steps, search_older (S_hist [s2l "ab"]) steps (-1 - 1) (mkSearch (s2l "z") [] (-1)) = None.
Proof. split; [eexists; vm_compute; reflexivity|]. intros steps. apply (never_found _ (s2l "ab")); [reflexivity|vm_compute; reflexivity|lia]. Qed.
Print Assumptions C60_search_refuted.
