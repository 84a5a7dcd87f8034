(** C59: user commands that read keys. *)
From Verif Require Import Base Utf8 Moji Color Prompt Buffer Commands KeyMap Session Spec Sample SpecComp Script SpecScript
  Interact SpecInteract InteractFacts InteractSample SpecTabs SpecTabScript SpecTabInteract TabsSample TabInteract TabInteractSample.

(** Sessions with careful commands that read keys do not crash, for text without tabs and
    joiners, whatever the commands read and however often; and whenever no command waits,
    cursor and view are in place. *)
Theorem C59_no_crash_partial : forall S Q (U : programs Q) default cur w cl es, careful_editor S -> careful_programs S U ->
  simple_text (cE (base S)) default -> simple_clip (cE (base S)) cl ->
  (forall es1 e es2 y, es = es1 ++ e :: es2 -> ireadline S U default cur w cl es1 = Some y -> simple_there S U e y) ->
  0 <= cur -> prompt_width (base S) + 11 < w ->
  exists y, ireadline S U default cur w cl es = Some y /\ match y with ISess x => in_bounds (buf_of x) | IUser _ _ => True end.
Proof. exact interactive_safe. Qed.
Print Assumptions C59_no_crash_partial.
(** With tabs, in lines of at most 800 characters, when the commands are careful where they
    are run and wherever they go on ([I] is what is known of the line while they wait), and
    SWAPCHAR is not used at the line's end. *)
Theorem C59_no_crash_tabs_partial : forall S Q (U : programs Q) (I : Q -> bool -> list moji -> Z -> Prop) default cur w cl es, ordinary_sources S ->
  ordinary_text (cE (base S)) default -> ordinary_clip (cE (base S)) cl ->
  (forall es1 e es2 y, es = es1 ++ e :: es2 -> ireadline S U default cur w cl es1 = Some y -> ordinary_there S U I e y) ->
  0 <= cur -> prompt_width (base S) + 11 < w ->
  exists y, ireadline S U default cur w cl es = Some y /\ match y with ISess x => in_bounds (buf_of x) | IUser _ _ => True end.
Proof. exact interactive_tabs_safe. Qed.
Print Assumptions C59_no_crash_tabs_partial.
(** The full claim is false: careful commands do not keep SWAPCHAR and UNDO from crashing (C04). *)
Theorem C59_swap_undo_refuted : careful_editor S_int /\ careful_programs S_int replace_char /\
  run_int replace_char 80 ([key 24] ++ keys "ab" ++ [key 5] ++ keys "c" ++ [key 20; key 26]) = None.
Proof. split; [exact int_careful|]. split; [apply replace_careful|]. vm_compute. reflexivity. Qed.
Print Assumptions C59_swap_undo_refuted.
(** Whatever such commands do, every unit of the line is what its own text splits into. *)
Theorem C59_units : forall S Q (U : programs Q) y m, scripted S -> ireached S U y -> In m (line (ibuf y)) ->
  split (cE (base S)) (write m) = [m].
Proof. exact unit_interactive. Qed.
Print Assumptions C59_units.
(** Everything written is flushed while a command waits for a key. *)
Theorem C59_flushed : forall S Q (U : programs Q) q s, ireached S U (IUser q s) -> exists ts, out s = ts ++ [TFlush].
Proof. exact interactive_flushed. Qed.
Print Assumptions C59_flushed.
(** The built-in QUOTED_INSERT is the user command that shows the cursor, reads a key,
    inserts it and hides the cursor: every session is the same, to the last byte written. *)
Theorem C59_quoted : forall S default cur w cl es,
  ireadline S (quoted_insert S) default cur w cl es = option_map as_user (readline S default cur w cl es).
Proof. exact quoted_is_user. Qed.
Print Assumptions C59_quoted.
(** A command that reads no key is the script (C53) it consists of. *)
Theorem C59_scripts : forall S Q (U : programs Q) T default cur w cl es, base T = base S ->
  (forall k, match bound U k with
             | Some g => exists p, g = of_script p /\ LookupCommand (kmap T) (gmap T) k = CUser (run_script (base S) p)
             | None => LookupCommand (kmap T) (gmap T) k = LookupCommand (kmap S) (gmap S) k
             end) ->
  ireadline S U default cur w cl es = option_map ISess (readline T default cur w cl es).
Proof. exact scripts_are. Qed.
Print Assumptions C59_scripts.

(** Careful commands: QUOTED_INSERT, one that replaces a character, one that reads a count
    of any length, one that moves the cursor while it waits. *)
Example C59_careful : forall S, careful_programs S (quoted_insert S) /\ careful_programs S replace_char /\
  careful_programs S count /\ careful_programs S peek.
Proof. intros S. exact (conj (quoted_careful S) (conj (replace_careful S) (conj (count_careful S) (peek_careful S)))). Qed.
Definition C59_keys : list event :=
  keys "ab" ++ [key 2; key 24; EResize 5; EClip (Some (s2l "q"))] ++ keys "12x" ++ [EResize 30; key 2; key 24] ++ keys "0" ++ [EKeyErr].
Example C59_case : careful_editor S_int /\
  (forall es1 e es2 y, C59_keys = es1 ++ e :: es2 -> run_int count 20 es1 = Some y -> simple_there S_int count e y) /\
  prompt_width (base S_int) + 11 < 20 /\
  (exists s, run_int count 20 C59_keys = Some (ISess (Finished s (s2l "axxxxxxxxxxxxb") RNil))) /\
  itext (run_int replace_char 20 (keys "abc" ++ [key 2; key 2; key 24] ++ keys "xy")) = Some (s2l "ayxc") /\
  (exists s, run_int peek 20 (keys "a long line of text" ++ [key 1; key 24]) = Some (IUser 0 s) /\ cursor s = 19 /\ view s = 0) /\
  itext (run_int peek 20 (keys "a long line of text" ++ [key 1; key 24; key 3] ++ keys "z")) = Some (s2l "za long line of text").
Proof.
  split; [exact int_careful|]. split; [apply int_events_ok; vm_compute; reflexivity|]. split; [vm_compute; reflexivity|].
  split; [eexists; vm_compute; reflexivity|]. split; [vm_compute; reflexivity|]. split; [|vm_compute; reflexivity].
  eexists. split; [vm_compute; reflexivity|]. split; vm_compute; reflexivity.
Qed.
Example C59_scripts_case : exists T, base T = base S_int /\
  (forall k, match bound (mkPrograms (with_key [24] (of_script ScriptSample.twice)) (fun (q : unit) _ => GPanic)) k with
             | Some g => exists p, g = of_script p /\ LookupCommand (kmap T) (gmap T) k = CUser (run_script (base S_int) p)
             | None => LookupCommand (kmap T) (gmap T) k = LookupCommand (kmap S_int) (gmap S_int) k
             end).
Proof.
  exists (ScriptSample.S_script ScriptSample.twice). split; [reflexivity|]. intros k. cbn [bound]. unfold with_key.
  destruct (str_eqb k [24]) eqn:Hk.
  - exists ScriptSample.twice. split; [reflexivity|]. unfold LookupCommand, Lookup, ScriptSample.S_script, kmap, aget. now rewrite Hk.
  - unfold LookupCommand, Lookup, ScriptSample.S_script, S_int, kmap, aget. now rewrite Hk.
Qed.
Definition C59_tab_keys : list event :=
  keys "ab" ++ [key 2; key 24; EResize 5; EClip (Some [9])] ++ keys "12" ++ [key 9; EResize 30; key 25; key 24] ++ keys "2x" ++ [key 2; key 20; key 26; key 24; EKeyErr].
Example C59_tabs_case : ordinary_sources S_int /\ ordinary_text E_off [9] /\
  (forall es1 e es2 y, C59_tab_keys = es1 ++ e :: es2 -> ireadline S_int count [9] 1 40 (Some []) es1 = Some y -> ordinary_there S_int count always_shown e y) /\
  prompt_width (base S_int) + 11 < 40 /\
  (exists s, ireadline S_int count [9] 1 40 (Some []) C59_tab_keys = Some (ISess (Finished s ([9; 97] ++ repeat 9 13 ++ s2l "xxb") RNil))).
Proof.
  split; [exact int_sources|]. split; [now apply ordinary_textb_ok|]. split; [apply tab_interact_ok; vm_compute; reflexivity|].
  split; [vm_compute; reflexivity|]. eexists. vm_compute. reflexivity.
Qed.
