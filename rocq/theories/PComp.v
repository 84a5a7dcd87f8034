(** C32, C33, C34: completion. *)
From Verif Require Import SpecScript.
From Verif Require Import Base Utf8 Moji Color Prompt Buffer Commands KeyMap Session Spec Sample Reach SafetyFacts
  Completion SpecComp CompFacts CompSafe CompFiles CompProps CompSample CompCases
  SpecTabs TabsSample SpecCompTabs CompTabs CompTabsSample.

(** C32: completing changes nothing but the word before the cursor, in one of the ways
    SpecComp.completed lists: nothing (no candidate begins with the word), the bell (it is
    complete), the only candidate, or the beginning several candidates have in common. *)
Theorem C32_effect : forall up fold C P postfix s s' res p w r fs,
  exec C (CmdCompletion up fold C P postfix) s = Some (s', res) ->
  chars_ok (Enclosures P) white (Delimiters P) ->
  at_split s (p ++ w) r -> Forall unit_text (map write (p ++ w)) ->
  between_words (Enclosures P) white (Delimiters P) (map write p) fs ->
  in_word (Enclosures P) white (Delimiters P) (map write w) -> w <> [] ->
  let word := without (Enclosures P) (written w) in
  res = CONTINUE /\ exists names bases hits pre show,
    List_ P (fs ++ [word]) = Some (names, bases) /\ selected (begins fold word) names hits /\
    (2 <= zlen hits -> exists m rest, In m hits /\ (forall x, In x hits -> zlen m <= zlen x) /\ m = pre ++ rest) /\
    completed (cE C) fold (Enclosures P) white (Delimiters P) postfix word p r s hits pre s' show.
Proof. exact cmd_effect. Qed.
Print Assumptions C32_effect.
(** The command that lists does the same; where there is a list to be shown it writes the
    candidates below the line and the line again, with the same text and cursor. *)
Theorem C32_list_effect : forall up fold C box P postfix s s' res p w r fs,
  exec C (CmdCompletionOrList up fold C box P postfix) s = Some (s', res) ->
  chars_ok (Enclosures P) white (Delimiters P) ->
  at_split s (p ++ w) r -> Forall unit_text (map write (p ++ w)) ->
  between_words (Enclosures P) white (Delimiters P) (map write p) fs ->
  in_word (Enclosures P) white (Delimiters P) (map write w) -> w <> [] ->
  let word := without (Enclosures P) (written w) in
  res = CONTINUE /\ exists names bases hits pre show s1,
    List_ P (fs ++ [word]) = Some (names, bases) /\ selected (begins fold word) names hits /\
    (2 <= zlen hits -> exists m rest, In m hits /\ (forall x, In x hits -> zlen m <= zlen x) /\ m = pre ++ rest) /\
    completed (cE C) fold (Enclosures P) white (Delimiters P) postfix word p r s hits pre s1 show /\
    (show = false -> s' = s1) /\
    (show = true -> at_split s' (p ++ w) r /\ same_content s s' /\ exists shown more,
       zlen shown = zlen hits /\
       selected (fun e => begins fold word (fst e)) (combine names (match bases with [] => names | _ => bases end)) (combine hits shown) /\
       out s' = out s ++ [TBell; TNewline; TAttr (box shown)] ++ more).
Proof. intros up fold C box P postfix. exact (list_effect up fold C P postfix box). Qed.
Print Assumptions C32_list_effect.
(** The units of a line that was typed are what the two theorems ask for: one ASCII
    character or something that is not ASCII. *)
Theorem C32_units : forall S x, scripted S -> (forall r, vsme (cE (base S)) r = true -> 128 <= r) -> reached S x ->
  Forall unit_text (map write (line (buf_of x))).
Proof. exact reached_units. Qed.
Print Assumptions C32_units.
(** Sessions with completion commands do not crash, for completions that always answer and
    text without tabs and joiners. *)
Theorem C32_no_crash_partial : forall S up fold box default cur w cl es, completing_editor S up fold box ->
  simple_text (cE (base S)) default -> simple_clip (cE (base S)) cl ->
  (forall es1 e es2 x, es = es1 ++ e :: es2 -> readline S default cur w cl es1 = Some x -> simple_or_command S e x) ->
  0 <= cur -> prompt_width (base S) + 11 < w ->
  exists x, readline S default cur w cl es = Some x /\ in_bounds (buf_of x).
Proof. exact completing_safe. Qed.
Print Assumptions C32_no_crash_partial.
(** With tabs in the line and in the candidates, in lines of at most 800 characters, when
    SWAPCHAR is not used at the line's end. *)
Theorem C32_no_crash_tabs_partial : forall S up fold box default cur w cl es, completing_tabs S up fold box ->
  ordinary_text (cE (base S)) default -> ordinary_clip (cE (base S)) cl -> Forall (ordinary_event S) es ->
  (forall es1 e es2 x, es = es1 ++ e :: es2 -> readline S default cur w cl es1 = Some x -> short_line x /\ no_swap_at_end S e x) ->
  0 <= cur -> prompt_width (base S) + 11 < w ->
  exists x, readline S default cur w cl es = Some x /\ in_bounds (buf_of x).
Proof. exact completing_tabs_safe. Qed.
Print Assumptions C32_no_crash_tabs_partial.
(** In general they do: fewer short names than names, or a quoted empty file name. *)
Theorem C32_no_crash_refuted :
  run_comp (fixed [s2l "ab"; s2l "ac"] [s2l "b"]) (keys "a" ++ [key 9]) = None /\
  (forall fuel, run_comp (File fold0 tree fuel) (keys """""" ++ [key 9]) = None).
Proof. split; [vm_compute; reflexivity|intros fuel; vm_compute; reflexivity]. Qed.
Print Assumptions C32_no_crash_refuted.
(** After a blank the word before the blank is completed, and the blank is lost; after a
    delimiter the delimiter itself is taken for the word. *)
Theorem C32_between_words_refuted :
  text_of (run_comp (fixed [s2l "lsof"] []) (keys "ls ")) = Some (s2l "ls ") /\
  text_of (run_comp (fixed [s2l "lsof"] []) (keys "ls " ++ [key 9])) = Some (s2l "lsof ") /\
  text_of (run_comp (fixed [s2l ">file"] []) (keys "ls>" ++ [key 9])) = Some (s2l "ls"">file"" ").
Proof. split; [|split]; vm_compute; reflexivity. Qed.
Print Assumptions C32_between_words_refuted.
(** A session that meets the hypotheses of C32_no_crash_partial ... *)
Definition C32_keys : list event := keys "echo ""ap" ++ [key 9; key 15] ++ keys "x" ++ [key 9; key 8; key 15; key 2; key 13].
Example C32_case_safe : completing_editor (S_comp fruit) up0 fold0 box0 /\ simple_text E_off [] /\ simple_clip E_off None /\
  (forall es1 e es2 x, C32_keys = es1 ++ e :: es2 -> run_comp fruit es1 = Some x -> simple_or_command (S_comp fruit) e x) /\ prompt_width (base (S_comp fruit)) + 11 < 80 /\
  text_of (run_comp fruit C32_keys) = Some (s2l "echo ""apple").
Proof.
  split; [exact comp_editor|]. split; [apply simple_textb_ok; vm_compute; reflexivity|]. split; [discriminate|].
  split; [apply comp_events_ok; vm_compute; reflexivity|]. split; vm_compute; reflexivity.
Qed.
Definition C32_tab_keys : list event := keys "x" ++ [key 17; key 9] ++ keys "a" ++ [key 9; key 15; key 17; key 9; key 15; key 2; key 20; key 13].
Example C32_tabs_case : completing_tabs (S_comp tab_fruit) up0 fold0 box0 /\ ordinary_text E_off [9] /\ Forall (ordinary_event (S_comp tab_fruit)) C32_tab_keys /\
  (forall es1 e es2 x, C32_tab_keys = es1 ++ e :: es2 -> readline (S_comp tab_fruit) [9] 1 40 (Some []) es1 = Some x ->
     short_line x /\ no_swap_at_end (S_comp tab_fruit) e x) /\
  prompt_width (base (S_comp tab_fruit)) + 11 < 40 /\
  text_of (readline (S_comp tab_fruit) [9] 1 40 (Some []) C32_tab_keys) = Some ([9; 120; 9] ++ s2l """ap" ++ [9] ++ s2l "ple " ++ [34]).
Proof.
  split; [exact comp_tabs_editor|]. split; [now apply ordinary_textb_ok|]. split; [now apply ordinary_eventb_ok|].
  split; [apply along_read_ok; vm_compute; reflexivity|]. split; vm_compute; reflexivity.
Qed.
(** ... and a line that meets those of C32_effect: a finished word, a quoted one with the
    closing quote still missing, and text after the cursor. *)
Definition C32_line : option sess := run_comp fruit (keys "echo ""apx" ++ [key 2]).
Definition C32_p : list moji := raws "echo ".
Definition C32_w : list moji := raws """ap".
Example C32_case : exists s s', C32_line = Some (Running MNormal s) /\
  exec (cfg_of E_off) (CmdCompletion up0 fold0 (cfg_of E_off) fruit [32]) s = Some (s', CONTINUE) /\
  at_split s (C32_p ++ C32_w) (raws "x") /\ Forall unit_text (map write (C32_p ++ C32_w)) /\
  chars_ok (Enclosures fruit) white (Delimiters fruit) /\
  between_words (Enclosures fruit) white (Delimiters fruit) (map write C32_p) [s2l "echo"] /\
  in_word (Enclosures fruit) white (Delimiters fruit) (map write C32_w) /\
  at_split s' (C32_p ++ raws """apple") (raws "x").
Proof. exact C32_case_facts. Qed.

(** C33: what goes in for several candidates is, ignoring case, the longest beginning they
    have in common; and it extends what was typed.  [up] and [fold] are the two notions of
    case the program uses; on the characters that occur they have to agree. *)
Theorem C33_common_partial : forall up fold C P postfix s s' res p w r fs names bases hits,
  exec C (CmdCompletion up fold C P postfix) s = Some (s', res) ->
  chars_ok (Enclosures P) white (Delimiters P) ->
  at_split s (p ++ w) r -> Forall unit_text (map write (p ++ w)) ->
  between_words (Enclosures P) white (Delimiters P) (map write p) fs ->
  in_word (Enclosures P) white (Delimiters P) (map write w) -> w <> [] ->
  let word := without (Enclosures P) (written w) in
  List_ P (fs ++ [word]) = Some (names, bases) -> selected (begins fold word) names hits -> 2 <= zlen hits -> even_case up hits ->
  exists pre show, longest_common up hits pre /\
    completed (cE C) fold (Enclosures P) white (Delimiters P) postfix word p r s hits pre s' show /\
    (~ In RuneError (runes word) -> (forall c, fold c = fold RuneError -> c = RuneError) ->
     (forall a b, In a (runes word) -> In b (flat_map runes hits) -> fold a = fold b -> up a = up b) -> begins fold word pre).
Proof. exact cmd_common. Qed.
Print Assumptions C33_common_partial.
(** Candidates in which case changes the number of bytes make the program crash, or what
    goes in is no beginning of them all. *)
Theorem C33_refuted :
  run_comp (fixed [[196; 177]; s2l "i"] []) (keys """" ++ [key 9]) = None /\
  text_of (run_comp (fixed [encode [305; 120; 49; 97; 97]; encode [105; 120; 50; 97]] []) (keys """" ++ [key 9])) = Some (encode [105; 120; 50]).
Proof. split; vm_compute; reflexivity. Qed.
Print Assumptions C33_refuted.
(** Candidates are chosen with one notion of case and compared with another: where the two
    differ, completing a word erases it. *)
Theorem C33_erases_refuted :
  text_of (readline (S_theta thetas) [] 0 80 None [EKey (encode [952])]) = Some (encode [952]) /\
  selected (begins fold_theta (encode [952])) [encode [952; 97]; encode [1012; 98]] [encode [952; 97]; encode [1012; 98]] /\
  text_of (readline (S_theta thetas) [] 0 80 None [EKey (encode [952]); key 9]) = Some [].
Proof. exact theta_facts. Qed.
Print Assumptions C33_erases_refuted.
Example C33_case : selected (begins fold0 (s2l "ap")) [s2l "Apple pie"; s2l "apples"; s2l "banana"] [s2l "Apple pie"; s2l "apples"] /\
  even_case up0 [s2l "Apple pie"; s2l "apples"] /\ ~ In RuneError (runes (s2l "ap")) /\ (forall c, fold0 c = fold0 RuneError -> c = RuneError).
Proof. exact C33_case_facts. Qed.

(** C34: file names.  A directory that cannot be read has no candidates. *)
Theorem C34_unreadable : forall fold read_dir fuel fs target dir base,
  path_of target dir base -> target <> [] -> read_dir (place dir) = None ->
  File_List fold read_dir (S fuel) (fs ++ [target]) = LNames [] [].
Proof. exact file_unreadable. Qed.
Print Assumptions C34_unreadable.
(** Otherwise they are the entries that begin with the typed name, directories with a
    slash, unless there is exactly one and it is a directory. *)
Theorem C34_list : forall fold read_dir fuel fs target dir base es hits,
  path_of target dir base -> target <> [] ->
  read_dir (place dir) = Some es -> good_names es -> selected (wanted fold base) es hits ->
  (forall n, hits <> [(n, true)]) ->
  File_List fold read_dir (S fuel) (fs ++ [target]) = LNames (map (full_name dir) hits) (map short_name hits).
Proof. exact file_list. Qed.
Print Assumptions C34_list.
(** If the only entry is a directory, its own entries are candidates, too. *)
Theorem C34_in_dir : forall fold read_dir fuel fs target dir base es n sub hits,
  path_of target dir base -> target <> [] ->
  read_dir (place dir) = Some es -> good_names es -> selected (wanted fold base) es [(n, true)] ->
  sub = dir ++ n ++ [47] -> read_dir sub = None /\ hits = [] \/
    (exists es', read_dir sub = Some es' /\ selected (wanted fold []) es' hits /\ hits <> []) ->
  File_List fold read_dir (S (S fuel)) (fs ++ [target]) =
    LNames (sub :: map (full_name sub) hits) ((n ++ [47]) :: map short_name hits).
Proof. exact file_in_dir. Qed.
Print Assumptions C34_in_dir.
(** Together, for the command with completion.File: a word ends at a blank and at each of
    & | > < ; unless it is inside one of the two kinds of quotes, and the candidates for the
    word before the cursor are the entries of the directory it names. *)
Theorem C34_command : forall up fold read_dir fuel C postfix s s' res p w r fs dir base es hits,
  exec C (CmdCompletion up fold C (File fold read_dir (S fuel)) postfix) s = Some (s', res) ->
  at_split s (p ++ w) r -> Forall unit_text (map write (p ++ w)) ->
  between_words (s2l """'") white (s2l "&|><;") (map write p) fs -> in_word (s2l """'") white (s2l "&|><;") (map write w) ->
  let word := without (s2l """'") (written w) in
  word <> [] -> path_of word dir base -> read_dir (place dir) = Some es -> good_names es ->
  selected (wanted fold base) es hits -> (forall n, hits <> [(n, true)]) ->
  exists names pre show, selected (begins fold word) (map (full_name dir) hits) names /\
    completed (cE C) fold (s2l """'") white (s2l "&|><;") postfix word p r s names pre s' show.
Proof. exact file_command. Qed.
Print Assumptions C34_command.
Example C34_command_case : exists s s', run_comp (File fold0 tree 2) (keys "ls;cat 'ma") = Some (Running MNormal s) /\
  exec (cfg_of E_off) (CmdCompletion up0 fold0 (cfg_of E_off) (File fold0 tree 2) [32]) s = Some (s', CONTINUE) /\
  at_split s (raws "ls;cat " ++ raws "'ma") [] /\ Forall unit_text (map write (raws "ls;cat " ++ raws "'ma")) /\
  between_words (s2l """'") white (s2l "&|><;") (map write (raws "ls;cat ")) [s2l "ls"; s2l ";"; s2l "cat"] /\
  in_word (s2l """'") white (s2l "&|><;") (map write (raws "'ma")) /\
  without (s2l """'") (written (raws "'ma")) = s2l "ma" /\ path_of (s2l "ma") [] (s2l "ma").
Proof. exact C34_command_facts. Qed.
(** If that directory is empty, the call never returns: no amount of steps is enough. *)
Theorem C34_empty_dir_refuted : forall fold read_dir fs target dir base es n sub es',
  path_of target dir base -> target <> [] ->
  read_dir (place dir) = Some es -> good_names es -> selected (wanted fold base) es [(n, true)] ->
  sub = dir ++ n ++ [47] -> read_dir sub = Some es' -> selected (wanted fold []) es' [] ->
  forall fuel, File_List fold read_dir fuel (fs ++ [target]) = LMore.
Proof. exact file_empty_dir. Qed.
Print Assumptions C34_empty_dir_refuted.
(** For an empty word it panics. *)
Theorem C34_empty_word_refuted : forall fold read_dir fuel fs, File_List fold read_dir fuel (fs ++ [[]]) = LPanic.
Proof. exact file_empty_word. Qed.
Print Assumptions C34_empty_word_refuted.
Example C34_case :
  File_List fold0 tree 2 [s2l "ls"; s2l "MA"] = LNames [s2l "Makefile"; s2l "mail/"] [s2l "Makefile"; s2l "mail/"] /\
  File_List fold0 tree 2 [s2l "sr"] = LNames [s2l "src/"; s2l "src/a.go"; s2l "src/b.go"; s2l "src/lib/"] [s2l "src/"; s2l "a.go"; s2l "b.go"; s2l "lib/"] /\
  File_List fold0 tree 1000 [s2l "n"] = LMore /\ File_List fold0 tree 2 [s2l "no/such"] = LNames [] [].
Proof. split; [|split; [|split]]; vm_compute; reflexivity. Qed.
Example C34_case_hyps : path_of (s2l "src/a") (s2l "src/") (s2l "a") /\ path_of (s2l "MA") [] (s2l "MA") /\
  exists es, tree (place []) = Some es /\ good_names es /\ selected (wanted fold0 (s2l "MA")) es [(s2l "Makefile", false); (s2l "mail", true)] /\
    selected (wanted fold0 (s2l "n")) es [(s2l "new", true)] /\ tree (s2l "new/") = Some [].
Proof. exact C34_case_facts. Qed.
