(** C68 for lines with tabs. *)
From Verif Require Import Base Utf8 Moji Color Prompt Buffer Commands KeyMap Session Spec Sample SpecScreen SpecTabScreen TabScreenCheck SpecPaint SpecInk InkSample SpecTabInk.
From Verif Require TabInkSess InkProps.

(** For every colouring that does not use the marker of the cursor and never answers -1, and
    every session without predictions whose lines, tabs and all, fit the row: whatever was on
    the screen before and whatever the terminal makes of the prompt, of line feeds, of clearing
    and of characters overwritten in part, the row shows the whole line, every tab up to its
    tab stop, each unit in the colour it has in the line as it is now.  A tab is heard by the
    colouring as the character it is.  Missing for the full claim: what C68_colours_partial
    and C37_tabs_partial leave out; predictions beside tabs are in C68_tabs_scroll_partial. *)
Theorem C68_tabs_partial : forall S default cur w cl es x,
  sane_widths (cE (base S)) -> only_builtin S -> pcolor0 (base S) = [] ->
  blind (ccol (base S)) -> true_colours (ccol (base S)) ->
  (forall x0, start S default cur w cl = Some x0 -> calm_tabs S es x0 /\ heard_run S es x0) ->
  readline S default cur w cl es = Some x ->
  forall other sc, tab_inks_right (base S) x (idisplay (cE (base S)) other (inkify Before (out (buf_of x))) sc).
Proof. exact TabInkSess.screen_ink_tabs. Qed.
Print Assumptions C68_tabs_partial.

(** A session with VimBatch: quotes opened and closed before tabs that are already on the
    screen; a wide character; transpositions, history, search, undo, resize.  The last of the
    expected columns show it: a tab of two columns in quotes, painted before the
    opening quote was typed. *)
Definition C68_tab_events : list event :=
  keys "xy" ++ [key 17; key 9] ++ keys "z" ++ [key 2; key 2; key 2; key 20; key 1; key 6; key 4; key 26; key 5; key 23; key 25; key 127; EKey (encode [12354])]
  ++ [key 16; key 14; EResize 60; key 18] ++ keys "re" ++ [key 7; key 21; key 25; key 12; key 5; key 21] ++ keys "a" ++ [key 17; key 9] ++ keys """b" ++ [key 1] ++ keys """".
Definition tabs_calm_heard (ol : bool) (S : scfg) default cur w cl es : bool :=
  match start S default cur w cl with Some x => calm_tabsb S es x && heardb ol S es x | None => true end.
Lemma tabs_calm_heard_ok ol S default cur w cl es : (ol = true -> orderless (ccol (base S))) -> tabs_calm_heard ol S default cur w cl es = true ->
  forall x0, start S default cur w cl = Some x0 -> calm_tabs S es x0 /\ heard_run S es x0.
Proof. unfold tabs_calm_heard. intros Ho H x0 Hx. rewrite Hx in H. apply andb_true_iff in H as [H1 H2]. split; [now apply calm_tabsb_ok|now apply (heardb_ok ol)]. Qed.
Example C68_tabs_case : sane_widths (cE (base S_off)) /\ only_builtin S_off /\ pcolor0 (base S_off) = [] /\ ccol (base S_off) = VimBatch /\
  (forall x0, start S_off (s2l "a" ++ [9] ++ s2l "b") 3 80 (Some []) = Some x0 -> calm_tabs S_off C68_tab_events x0 /\ heard_run S_off C68_tab_events x0) /\
  match readline S_off (s2l "a" ++ [9] ++ s2l "b") 3 80 (Some []) C68_tab_events with
  | Some (Running MNormal s) => map (at_col (base S_off) s) [2; 3; 4; 5; 6; 7; 8] =
      [IPart (MRaw 34, Colour Magenta) 0; IPart (MRaw 97, Colour Magenta) 0; IPart (MTab 2, Colour Magenta) 0; IPart (MTab 2, Colour Magenta) 1;
       IPart (MRaw 34, Colour Magenta) 0; IPart (MRaw 98, Colour DefaultForeGroundColor) 0; IBlank]
  | _ => False
  end.
Proof.
  split; [exact sane_off|]. split; [exact builtin_off|]. split; [reflexivity|]. split; [reflexivity|]. split.
  - apply (tabs_calm_heard_ok true); [intros _; exact InkProps.vim_orderless|]. vm_compute. reflexivity.
  - vm_compute. reflexivity.
Qed.
