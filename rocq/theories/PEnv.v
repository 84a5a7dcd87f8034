(** C64: the settings found out from the environment. *)
From Verif Require Import Base Utf8 Moji Color Prompt Buffer Commands KeyMap Session Spec SpecTabs SpecTerm SpecEnv TermCheck Sample TabsSample EnvSample.
From Verif Require EnvFacts.

(** Which terminals get sequences of joined characters, characters beyond U+FFFF as they are,
    skin tones, and narrow ambiguous characters. *)
Theorem C64_switches : forall g wf vs, let E := detected g wf vs in
  (sur_ok E = true <-> windows_terminal g \/ wezterm g \/ contour g) /\ zwj_ok E = sur_ok E /\ vs_ok E = sur_ok E /\
  (mod_ok E = true <-> windows_terminal g \/ wezterm g) /\ (amb_wide E = false <-> windows_terminal g).
Proof. exact EnvFacts.switches. Qed.
Print Assumptions C64_switches.
(** The width function of the package (build tag orgxwidth) gives 0, 1 or 2 columns, whatever
    the tables say: 0 to what cannot be printed, 2 to wide and fullwidth characters and, but in
    Windows Terminal, to ambiguous ones, and 1 to all others. *)
Theorem C64_widths : forall g IsPrint Kind vs r, let E := detected g (newRuneWidth IsPrint Kind) vs in
  0 <= rw E r <= 2 /\ (IsPrint r = false -> rw E r = 0) /\
  (IsPrint r = true -> 1 <= rw E r /\
    (rw E r = 2 <-> Kind r = EastAsianWide \/ Kind r = EastAsianFullwidth \/ Kind r = EastAsianAmbiguous /\ ~ windows_terminal g)).
Proof. exact EnvFacts.orgx_widths_are. Qed.
Print Assumptions C64_widths.
(** On a terminal that is not known every code point is a unit of its own, and one beyond
    U+FFFF shows as its number. *)
Theorem C64_units : forall g wf vs t, other_terminal g -> map write (split (detected g wf vs) t) = map encode_rune (runes t).
Proof. exact EnvFacts.one_each. Qed.
Print Assumptions C64_units.
(** On a terminal that is known two emoji with a joiner between them are one unit, which takes
    the columns of both and one for the joiner. *)
Theorem C64_joined : forall g wf vs a b, let E := detected g wf vs in
  windows_terminal g \/ wezterm g \/ contour g -> 128000 <= a <= 129999 -> rw E a <> 0 -> vs a = false -> valid_rune b = true ->
  exists u, split E (encode [a; 8205; b]) = [u] /\ write u = encode [a; 8205; b] /\ width E u = rw E a + 1 + rw E b.
Proof. exact EnvFacts.joined_pair. Qed.
Print Assumptions C64_joined.
Theorem C64_escaped : forall g wf vs r pos, other_terminal g -> 65536 <= r -> valid_rune r = true -> let E := detected g wf vs in
  exists h, print E (rune2moji E r pos) = Some ([60] ++ h ++ [62]) /\ hex_value h = r /\ Forall hex_char h /\ zlen h + 2 = width E (rune2moji E r pos).
Proof. exact EnvFacts.escaped_off. Qed.
Print Assumptions C64_escaped.
(** On such a terminal no session crashes, whatever the text: any bytes may be typed, pasted,
    in the history, given as the default or predicted.  Missing: lines and texts of more than
    800 characters, SWAPCHAR at the end of the line, terminals hardly wider than the prompt,
    and user commands. *)
Theorem C64_no_crash_partial : forall S g wf vs default cur w cl es,
  only_builtin S -> cE (base S) = detected g wf vs -> other_terminal g -> terminal_widths wf ->
  (pcolor0 (base S) = [] \/ forall t c, short_text (predictor (base S) t c)) -> Forall short_text (hist (base S)) ->
  short_text default -> (forall t, cl = Some t -> short_text t) -> Forall (any_event S) es -> 0 <= cur -> prompt_width (base S) + 11 < w ->
  (forall es1 e es2 x, es = es1 ++ e :: es2 -> readline S default cur w cl es1 = Some x -> short_line x /\ no_swap_at_end S e x) ->
  exists x, readline S default cur w cl es = Some x /\ in_bounds (buf_of x).
Proof. exact EnvFacts.other_safe. Qed.
Print Assumptions C64_no_crash_partial.

(** A joined pair of persons, a skin tone, an accent without a letter, a byte that is no
    text, a tab. *)
Definition C64_events : list event :=
  [EKey (encode [128104; 8205; 128105]); EKey (encode [127995]); key 1; EKey (encode [768]); EKey [200]; key 9; key 5; key 23; EClip (Some (encode [8205; 9; 65039])); key 25; EResize 20; key 26; key 13].
Example C64_case : only_builtin (S_of xterm) /\ other_terminal xterm /\ other_terminal code_in_wt /\ terminal_widths (newRuneWidth sample_print sample_kind) /\
  Forall short_text (hist (base (S_of xterm))) /\ Forall (any_event (S_of xterm)) C64_events /\ prompt_width (base (S_of xterm)) + 11 < 80 /\
  (forall es1 e es2 x, C64_events = es1 ++ e :: es2 -> readline (S_of xterm) [] 0 80 (Some []) es1 = Some x -> short_line x /\ no_swap_at_end (S_of xterm) e x) /\
  text_of (readline (S_of xterm) [] 0 80 (Some []) C64_events) = Some (encode [768; 65533; 9; 128104; 8205; 128105; 127995]).
Proof.
  split; [apply builtin_of|]. split; [exact other_xterm|]. split; [exact other_code|]. split; [apply EnvFacts.orgx_widths|].
  split; [repeat (apply Forall_cons; [vm_compute; discriminate|]); constructor|].
  split; [apply EnvFacts.any_eventb_ok; vm_compute; reflexivity|]. split; [vm_compute; reflexivity|]. split; [apply along_read_ok; vm_compute; reflexivity|].
  vm_compute. reflexivity.
Qed.
(** The pair is one unit in Windows Terminal and three elsewhere. *)
Example C64_pair : windows_terminal wt /\ zlen (split (E_of wt) (encode [128104; 8205; 128105])) = 1 /\
  zlen (split (E_of xterm) (encode [128104; 8205; 128105])) = 3 /\ rw (E_of wt) 913 = 1 /\ rw (E_of xterm) 913 = 2.
Proof. split; [split; [|split]; vm_compute; congruence|]. repeat split; vm_compute; reflexivity. Qed.
Example C64_joined_case : rw (E_of wt) 128104 <> 0 /\ vsme (E_of wt) 128104 = false /\ valid_rune 128105 = true /\
  map (width (E_of wt)) (split (E_of wt) (encode [128104; 8205; 128105])) = [rw (E_of wt) 128104 + 1 + rw (E_of wt) 128105].
Proof. repeat split; vm_compute; congruence. Qed.
(** In Windows Terminal the same claim is false: a session of two typed characters and a
    kill brought back crashes. *)
Theorem C64_joiner_refuted : windows_terminal wt /\ only_builtin (S_of wt) /\
  readline (S_of wt) [] 0 80 (Some []) (EKey (encode [127995]) :: key 1 :: keys "a" ++ [key 1; key 11; key 26; key 26; key 26]) = None.
Proof. split; [split; [|split]; vm_compute; congruence|]. split; [apply builtin_of|]. vm_compute. reflexivity. Qed.
Print Assumptions C64_joiner_refuted.
