(** C52, C53: user commands. *)
From Verif Require Import Base Utf8 Moji Color Prompt Buffer Commands KeyMap Session Spec Sample
  Completion SpecComp CompSample CompCases Script SpecScript ScriptFacts CompUndo ScriptSample SpecTabs TabsSample SpecTabScript TabScript TabScriptSample.

(** * C52: one UNDO takes back a replacement or a completion *)
(** ReplaceAndRepaint over a word that is not empty: one UNDO brings back the line, the
    cursor and the older undo records. *)
Theorem C52_replace : forall S m s p w r t s1 s2 r2, scripted S -> reached S (Running m s) ->
  at_split s (p ++ w) r -> w <> [] -> Forall (clean (cE (base S))) w ->
  ReplaceAndRepaint (base S) s (zlen p) t = Some s1 -> exec (base S) CUndo s1 = Some (s2, r2) ->
  at_split s2 (p ++ w) r /\ undoes s2 = undoes s /\ clip s2 = clip s /\ rest_kept s s2.
Proof. exact undo_replace. Qed.
Print Assumptions C52_replace.
(** The two completion commands, whenever they change the line. *)
Theorem C52_completion : forall up fold S P postfix m s p q s1 r1 s2 r2, scripted S -> reached S (Running m s) ->
  at_split s p q -> Forall (clean (cE (base S))) p ->
  exec (base S) (CmdCompletion up fold (base S) P postfix) s = Some (s1, r1) -> line s1 <> line s ->
  exec (base S) CUndo s1 = Some (s2, r2) -> at_split s2 p q /\ undoes s2 = undoes s /\ clip s2 = clip s /\ rest_kept s s2.
Proof. exact undo_completion. Qed.
Print Assumptions C52_completion.
Theorem C52_list : forall up fold S box P postfix m s p q s1 r1 s2 r2, scripted S -> reached S (Running m s) ->
  at_split s p q -> Forall (clean (cE (base S))) p ->
  exec (base S) (CmdCompletionOrList up fold (base S) box P postfix) s = Some (s1, r1) -> line s1 <> line s ->
  exec (base S) CUndo s1 = Some (s2, r2) -> at_split s2 p q /\ undoes s2 = undoes s /\ clip s2 = clip s /\ rest_kept s s2.
Proof. exact undo_completion_list. Qed.
Print Assumptions C52_list.
(** Editors with completion commands meet the hypothesis. *)
Theorem C52_scripted : forall S up fold box, completing_editor S up fold box -> scripted S.
Proof. exact completing_scripted. Qed.
Print Assumptions C52_scripted.
Example C52_case : exists s s1 s2, run_comp fruit (keys "echo ""apx" ++ [key 2]) = Some (Running MNormal s) /\ scripted (S_comp fruit) /\
  at_split s (raws "echo ""ap") (raws "x") /\ Forall (clean E_off) (raws "echo ""ap") /\
  exec (cfg_of E_off) (CmdCompletion up0 fold0 (cfg_of E_off) fruit [32]) s = Some (s1, CONTINUE) /\
  line s1 = raws "echo ""applex" /\ exec (cfg_of E_off) CUndo s1 = Some (s2, CONTINUE) /\ at_split s2 (raws "echo ""ap") (raws "x").
Proof.
  eexists _, _, _. split; [vm_compute; reflexivity|]. split; [exact (completing_scripted _ _ _ _ comp_editor)|].
  split; [split; vm_compute; reflexivity|]. split; [repeat (apply Forall_cons; [vm_compute; reflexivity|]); apply Forall_nil|].
  split; [vm_compute; reflexivity|]. split; [vm_compute; reflexivity|]. split; [vm_compute; reflexivity|]. split; vm_compute; reflexivity.
Qed.
(** With nothing to replace the record may be merged with an older one: the text a user
    command inserts where a kill has just happened goes together with the kill. *)
Theorem C52_nothing_refuted :
  text_of (run_user (SDo (KPut (s2l "x")) (SReturn CONTINUE)) 80 (keys "ab" ++ [key 1; key 11])) = Some [] /\
  text_of (run_user (SDo (KPut (s2l "x")) (SReturn CONTINUE)) 80 (keys "ab" ++ [key 1; key 11; key 24])) = Some (s2l "x") /\
  text_of (run_user (SDo (KPut (s2l "x")) (SReturn CONTINUE)) 80 (keys "ab" ++ [key 1; key 11; key 24; key 26])) = Some (s2l "ab").
Proof. split; [|split]; vm_compute; reflexivity. Qed.
Print Assumptions C52_nothing_refuted.

(** * C53: user commands made of the public methods *)
(** Sessions with careful user commands do not crash, for text without tabs and joiners. *)
Theorem C53_no_crash_partial : forall S default cur w cl es, careful_editor S ->
  simple_text (cE (base S)) default -> simple_clip (cE (base S)) cl ->
  (forall es1 e es2 x, es = es1 ++ e :: es2 -> readline S default cur w cl es1 = Some x -> simple_or_command S e x) ->
  0 <= cur -> prompt_width (base S) + 11 < w ->
  exists x, readline S default cur w cl es = Some x /\ in_bounds (buf_of x).
Proof. exact careful_safe. Qed.
Print Assumptions C53_no_crash_partial.
(** Nor do they with tabs and SWAPCHAR, while lines have at most 800 characters (as C04 with
    tabs); a command has to be careful where it is called. *)
Theorem C53_no_crash_tabs_partial : forall S default cur w cl es, ordinary_sources S ->
  ordinary_text (cE (base S)) default -> ordinary_clip (cE (base S)) cl -> Forall (ordinary_event S) es ->
  (forall es1 e es2 x, es = es1 ++ e :: es2 -> readline S default cur w cl es1 = Some x ->
     short_line x /\ no_swap_at_end S e x /\ careful_there S e x) ->
  0 <= cur -> prompt_width (base S) + 11 < w ->
  exists x, readline S default cur w cl es = Some x /\ in_bounds (buf_of x).
Proof. exact scripts_safe. Qed.
Print Assumptions C53_no_crash_tabs_partial.
(** Whatever user commands do, every unit of the line is what its own text splits into. *)
Theorem C53_units : forall S x m, scripted S -> reached S x -> In m (line (buf_of x)) ->
  split (cE (base S)) (write m) = [m].
Proof. exact unit_scripted. Qed.
Print Assumptions C53_units.
Definition C53_keys : list event := keys "a long line of text" ++ [key 2; key 2; key 24; key 26; EResize 30; key 24; key 4; key 13].
Example C53_case : careful_editor (S_script twice) /\ careful_editor (S_script brackets) /\
  (forall es1 e es2 x, C53_keys = es1 ++ e :: es2 -> run_user twice 20 es1 = Some x -> simple_or_command (S_script twice) e x) /\
  prompt_width (base (S_script twice)) + 11 < 20 /\
  text_of (run_user twice 20 C53_keys) = Some (s2l "twicxt") /\
  (exists s, run_user brackets 20 (keys "a long line of text" ++ [key 2; key 2; key 24]) = Some (Finished s (s2l "[a long line of text]") RNil)).
Proof.
  split; [exact (careful_sample twice twice_careful)|]. split; [exact (careful_sample brackets brackets_careful)|].
  split; [apply script_events_ok; vm_compute; reflexivity|]. split; [vm_compute; reflexivity|].
  split; [vm_compute; reflexivity|]. eexists. vm_compute. reflexivity.
Qed.
Definition C53_tab_keys : list event := keys "abc" ++ [key 9; key 24; key 24; EResize 15; key 26; key 24; key 20; key 13].
Example C53_tabs_case : ordinary_sources (S_script tabbed) /\ ordinary_text E_off [9] /\ Forall (ordinary_event (S_script tabbed)) C53_tab_keys /\
  (forall es1 e es2 x, C53_tab_keys = es1 ++ e :: es2 -> readline (S_script tabbed) [9] 1 40 (Some []) es1 = Some x ->
     short_line x /\ no_swap_at_end (S_script tabbed) e x /\ careful_there (S_script tabbed) e x) /\
  prompt_width (base (S_script tabbed)) + 11 < 40 /\
  text_of (readline (S_script tabbed) [9] 1 40 (Some []) C53_tab_keys) =
    Some [9; 98; 9; 9; 9; 9; 97; 99; 9; 93; 9; 93; 9; 93; 9].
Proof.
  split; [apply script_sources|]. split; [now apply ordinary_textb_ok|]. split; [now apply ordinary_eventb_ok|].
  split; [apply tab_script_ok; vm_compute; reflexivity|]. split; vm_compute; reflexivity.
Qed.
(** A command that only sets the cursor makes the next command crash when the line is
    longer than the screen: the view is not where the cursor is. *)
Theorem C53_cursor_refuted :
  (exists s, run_user home 20 (keys "a long line of text" ++ [key 24]) = Some (Running MNormal s) /\ cursor s < view s) /\
  run_user home 20 (keys "a long line of text" ++ [key 24; key 6]) = None.
Proof. split; [eexists; split; [vm_compute; reflexivity|vm_compute; reflexivity]|vm_compute; reflexivity]. Qed.
Print Assumptions C53_cursor_refuted.
(** The user command the project publishes as an example (an external editor for the line)
    crashes when it shortens a line longer than the screen, and when a later UNDO reaches
    back before it. *)
Theorem C53_example4_refuted :
  run_user (cmdStartEditor (fun _ => Some (s2l "x"))) 20 (keys "a long line of text" ++ [key 24]) = None /\
  text_of (run_user (cmdStartEditor (fun _ => Some [])) 80 (keys "abc" ++ [key 24; key 26])) = Some [] /\
  run_user (cmdStartEditor (fun _ => Some [])) 80 (keys "abc" ++ [key 24; key 26; key 26]) = None.
Proof. split; [|split]; vm_compute; reflexivity. Qed.
Print Assumptions C53_example4_refuted.
(** What it does when it does not crash: the line is replaced by the text that the external
    editor makes of it, the cursor is behind it; when the editor fails nothing changes. *)
Theorem C53_example4_partial : forall C edit s s' r, run_script C (cmdStartEditor edit) s = Some (s', r) ->
  r = CONTINUE /\
  match edit (written (line s)) with
  | None => s' = s
  | Some t => line s' = split (cE C) t /\ cursor s' = zlen (line s') /\ clip s' = clip s /\ rest_kept s s'
  end.
Proof. exact example4_does. Qed.
Print Assumptions C53_example4_partial.
Example C53_example4_case : exists s s' r,
  run_user (cmdStartEditor (fun t => Some (t ++ s2l "!"))) 80 (keys "abc" ++ [key 1]) = Some (Running MNormal s) /\
  run_script (cfg_of E_off) (cmdStartEditor (fun t => Some (t ++ s2l "!"))) s = Some (s', r) /\
  text_of (run_user (cmdStartEditor (fun t => Some (t ++ s2l "!"))) 80 (keys "abc" ++ [key 1; key 24] ++ keys "?")) = Some (s2l "abc!?") /\
  text_of (run_user (cmdStartEditor (fun _ => None)) 80 (keys "abc" ++ [key 2; key 24] ++ keys "?")) = Some (s2l "ab?c").
Proof. do 3 eexists. split; [vm_compute; reflexivity|]. split; [vm_compute; reflexivity|]. split; vm_compute; reflexivity. Qed.
