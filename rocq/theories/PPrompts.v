(** C57: prompts that change or cannot be written. *)
From Verif Require Import Base Utf8 Moji Color Prompt Buffer Commands KeyMap Session Spec SpecIndep Prompts SpecPrompts Sample SpecTabs TabsSample ChangeTabsSample.
From Verif Require PromptsFacts PromptsTabs.

(** Whatever the prompt writer writes each time it is called, and also when writing fails:
    without predictions, what can be told apart from the picture is the same as for a prompt
    that never changes, on any terminal on which that one runs. *)
Theorem C57_same : forall S f default cur cl w w' pes es x x', only_builtin S -> pcolor0 (base S) = [] ->
  without_resizes (map snd pes) = without_resizes es ->
  readline_prompts S f default cur w cl pes = Some x -> readline S default cur w' cl es = Some x' -> told x = told x'.
Proof. intros S f default cur cl w w' pes es x x' HB Hp. apply (PromptsFacts.prompts_told S S); [exact HB|constructor; auto]. Qed.
Print Assumptions C57_same.

(** Nothing crashes, under the conditions of C04_no_crash_simple_partial for the widest of the
    prompts.  Missing: as there. *)
Theorem C57_no_crash_partial : forall S f default cur w cl pes,
  simple_editor S -> simple_text (cE (base S)) default -> simple_clip (cE (base S)) cl ->
  Forall (fun pe => simple_event S (snd pe) /\ not_wider S (fst pe)) pes -> first_not_wider S f ->
  0 <= cur -> prompt_width (base S) + 11 < w ->
  exists x, readline_prompts S f default cur w cl pes = Some x /\ in_bounds (buf_of x).
Proof. exact PromptsFacts.simple_prompts_safe. Qed.
Print Assumptions C57_no_crash_partial.

(** What is on the screen first: the prompt, then a new line if it leaves no room; after a
    failed one the error's text on a line of its own and the prompt [$ ]. *)
Theorem C57_first : forall S f default cur w cl x, start_prompt S f default cur w cl = Some x -> exists s rest, x = Running MNormal s /\
  match f with
  | Shown p => let '(t, pw) := callPromptWriter (cE (base S)) p in
      (pw < w - 3 -> out s = TPrompt t :: rest /\ topc s = pw) /\ (w - 3 <= pw -> out s = TPrompt t :: TNewline :: rest /\ topc s = 0)
  | Failed p msg => out s = TPrompt (fst (callPromptWriter (cE (base S)) p)) :: TPrompt (msg ++ [10] ++ s2l "$ ") :: rest /\ topc s = 2
  end.
Proof. exact PromptsFacts.first_shown. Qed.
Print Assumptions C57_first.

(** The first prompt cannot be written; later ones show a clock, then nothing. *)
Definition clock (e : event) : option str * event := (Some (s2l "12:00:01> "), e).
Definition C57_events : list (option str * event) :=
  map clock (keys "abc" ++ [key 12; key 2; EResize 60]) ++ map (fun e => (Some [], e)) ([key 12; key 8] ++ keys "x" ++ [key 13]).
Definition S_clock : scfg := with_prompt S_off (Some (s2l "12:00:00> ")).
Lemma C57_case_premises : simple_editor S_clock /\ Forall (fun pe => simple_event S_clock (snd pe) /\ not_wider S_clock (fst pe)) C57_events /\
  first_not_wider S_clock (Failed None (s2l "broken pipe")) /\ prompt_width (base S_clock) + 11 < 80.
Proof.
  split; [exact simple_off|]. split; [|now vm_compute]. apply Forall_forall. intros pe Hi. split.
  - assert (K : Forall (simple_event S_clock) (map snd C57_events)) by now apply simple_eventb_ok.
    rewrite Forall_forall in K. apply K. now apply in_map.
  - assert (K : forallb (fun pe => prompt_width (base (with_prompt S_clock (fst pe))) <=? prompt_width (base S_clock)) C57_events = true) by (vm_compute; reflexivity).
    rewrite forallb_forall in K. apply K in Hi. unfold not_wider. lia.
Qed.
Example C57_case : exists s s', readline_prompts S_clock (Failed None (s2l "broken pipe")) [] 0 80 (Some []) C57_events = Some (Finished s (s2l "axc") RNil) /\
  readline S_clock [] 0 80 (Some []) (map snd C57_events) = Some (Finished s' (s2l "axc") RNil) /\ topc s = 0 /\ topc s' = 10.
Proof. vm_compute. do 2 eexists. repeat split. Qed.

(** Nothing crashes in lines with tabs either, under the conditions of C04_no_crash_tabs_partial. *)
Theorem C57_no_crash_tabs_partial : forall S f default cur w cl pes,
  ordinary_editor S -> ordinary_text (cE (base S)) default -> ordinary_clip (cE (base S)) cl ->
  Forall (fun pe => ordinary_event S (snd pe) /\ not_wider S (fst pe)) pes -> first_not_wider S f ->
  0 <= cur -> prompt_width (base S) + 11 < w ->
  (forall pes1 p e pes2 x, pes = pes1 ++ (p, e) :: pes2 -> readline_prompts S f default cur w cl pes1 = Some x -> short_line x /\ no_swap_at_end S e x) ->
  exists x, readline_prompts S f default cur w cl pes = Some x /\ in_bounds (buf_of x).
Proof. exact PromptsTabs.tab_prompts_safe. Qed.
Print Assumptions C57_no_crash_tabs_partial.
Definition C57_tab_events : list (option str * event) :=
  map clock (keys "ab" ++ [key 9] ++ keys "c" ++ [key 12; key 2; key 20; EResize 30]) ++ map (fun e => (Some [], e)) ([key 9; key 12; key 8] ++ keys "x" ++ [key 9; key 12; key 13]).
Example C57_tabs_case : ordinary_editor S_clock /\
  Forall (fun pe => ordinary_event S_clock (snd pe) /\ not_wider S_clock (fst pe)) C57_tab_events /\
  first_not_wider S_clock (Failed None (s2l "broken pipe")) /\ prompt_width (base S_clock) + 11 < 80 /\
  (forall pes1 p e pes2 x, C57_tab_events = pes1 ++ (p, e) :: pes2 ->
     readline_prompts S_clock (Failed None (s2l "broken pipe")) [9] 1 80 (Some []) pes1 = Some x -> short_line x /\ no_swap_at_end S_clock e x) /\
  text_of (readline_prompts S_clock (Failed None (s2l "broken pipe")) [9] 1 80 (Some []) C57_tab_events) = Some ([9] ++ s2l "abc" ++ [9] ++ s2l "x" ++ [9]).
Proof.
  destruct (prompts_tabsb_ok S_clock (Failed None (s2l "broken pipe")) [9] 1 80 (Some []) C57_tab_events) as [H1 H2]; [vm_compute; reflexivity|].
  split; [exact ordinary_off|]. split; [exact H1|]. split; [now vm_compute|]. split; [now vm_compute|]. split; [exact H2|]. vm_compute. reflexivity.
Qed.

(** A prompt wider than the terminal is put on a line of its own at the start, but not when
    CLEAR_SCREEN writes it again: then END_OF_LINE crashes on an empty line. *)
Definition S_long : scfg := with_prompt S_off (Some (s2l "user@machine:/home/user/projects/editor/src$ ")).
Theorem C57_wide_refuted : only_builtin S_long /\
  (exists s, readline S_long [] 0 40 (Some []) [key 5] = Some (Running MNormal s)) /\
  readline S_long [] 0 40 (Some []) [key 12; key 5] = None.
Proof.
  split; [exact builtin_off|]. split; [|vm_compute; reflexivity]. vm_compute. eexists. reflexivity.
Qed.
Print Assumptions C57_wide_refuted.
