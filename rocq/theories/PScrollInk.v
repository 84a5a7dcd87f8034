(** C68 for lines with tabs that scroll, beside predictions. *)
From Verif Require Import Base Utf8 Moji Color Prompt Buffer Commands KeyMap Session Spec Sample SpecScreen SpecTabScreen SpecTabScroll TabScrollCheck SpecPaint SpecInk InkSample SpecScrollInk.
From Verif Require ScrollInkSess InkProps.

(** For every colouring that does not use the marker of the cursor and never answers -1, every
    predictor, and every session of lines with tabs, joined and wide characters, however long the
    line and the prompt: whatever was on the screen before and whatever the terminal makes of the
    prompt, of line feeds, of clearing and of characters overwritten in part, the row, taken to be
    as long as need be, shows the units from ViewStart on, each tab as wide as in the whole line
    and each unit in the colour it has in the line as it is now, perhaps the beginning of the
    prediction in the look of predictions, and nothing else.  Missing for the full claim: what
    C68_colours_partial and C37_tabs_scroll_partial leave out. *)
Theorem C68_tabs_scroll_partial : forall S default cur w cl es x,
  sane_widths (cE (base S)) -> only_builtin S ->
  blind (ccol (base S)) -> true_colours (ccol (base S)) ->
  (forall x0, start S default cur w cl = Some x0 -> calm_scroll S es x0 /\ heard_run S es x0) ->
  readline S default cur w cl es = Some x ->
  forall other sc, scroll_inks_right (base S) x (idisplay (cE (base S)) other (inkify Before (out (buf_of x))) sc).
Proof. exact ScrollInkSess.screen_ink_scroll. Qed.
Print Assumptions C68_tabs_scroll_partial.

(** A session with VimBatch and predictions on a narrow terminal: the line scrolls, quotes are
    opened before tabs already on the screen, and at the end a prediction follows a tab. *)
Definition ink_hist : list str := [s2l "make" ++ [9] ++ s2l "all"; s2l "a" ++ [9] ++ s2l "bc" ++ [9] ++ s2l "d"; s2l """a" ++ [9] ++ s2l "bc" ++ [9] ++ s2l "d"].
Definition S_inkpred : scfg := mkScfg (mkCfg E_off ink_hist false (s2l "<") (s2l ">") (predictByHistory ink_hist) (Some (s2l "$ ")) VimBatch ascii_upper) [] GlobalKeyMap.
Definition C68_scroll_events : list event :=
  keys "xy" ++ [key 17; key 9] ++ keys "zabcdefghijkl" ++ [key 2; key 20; key 1] ++ keys """" ++ [key 6; key 6; key 4; key 26; key 5; key 23; key 25; key 127; EKey (encode [12354])]
  ++ [key 16; key 14; EResize 16; key 18] ++ keys "ma" ++ [key 7; key 21; key 25; key 12; key 5; key 2; key 2; key 6; key 11; key 5; key 21] ++ keys "a" ++ [key 17; key 9; key 1] ++ keys """" ++ [key 5] ++ keys "b".
Definition scroll_calm_heard (ol : bool) (S : scfg) default cur w cl es : bool :=
  match start S default cur w cl with Some x => calm_scrollb S es x && heardb ol S es x | None => true end.
Lemma scroll_calm_heard_ok ol S default cur w cl es : (ol = true -> orderless (ccol (base S))) -> scroll_calm_heard ol S default cur w cl es = true ->
  forall x0, start S default cur w cl = Some x0 -> calm_scroll S es x0 /\ heard_run S es x0.
Proof. unfold scroll_calm_heard. intros Ho H x0 Hx. rewrite Hx in H. apply andb_true_iff in H as [H1 H2]. split; [now apply calm_scrollb_ok|now apply (heardb_ok ol)]. Qed.
Example C68_tabs_scroll_case : sane_widths (cE (base S_inkpred)) /\ only_builtin S_inkpred /\ blind (ccol (base S_inkpred)) /\ true_colours (ccol (base S_inkpred)) /\
  (forall x0, start S_inkpred (s2l "abc" ++ [9] ++ s2l "bcdef") 3 20 (Some []) = Some x0 -> calm_scroll S_inkpred C68_scroll_events x0 /\ heard_run S_inkpred C68_scroll_events x0) /\
  match readline S_inkpred (s2l "abc" ++ [9] ++ s2l "bcdef") 3 20 (Some []) C68_scroll_events with
  | Some (Running MNormal s) => map (at_col (base S_inkpred) s) [2; 3; 4; 5; 6; 7; 8; 9; 10; 11; 12] =
      [IPart (MRaw 34, Colour Magenta) 0; IPart (MRaw 97, Colour Magenta) 0; IPart (MTab 2, Colour Magenta) 0; IPart (MTab 2, Colour Magenta) 1; IPart (MRaw 98, Colour Magenta) 0;
       IPart (MRaw 99, Look (s2l "<")) 0; IPart (MTab 1, Look (s2l "<")) 0; IPart (MTab 1, Look (s2l "<")) 1; IPart (MTab 1, Look (s2l "<")) 2; IPart (MRaw 100, Look (s2l "<")) 0; IBlank]
  | _ => False
  end.
Proof.
  split; [exact sane_off|]. split; [intros k f; apply global_builtin; discriminate|]. split; [exact InkProps.vim_blind|]. split; [exact InkProps.vim_true|]. split.
  - apply (scroll_calm_heard_ok true); [intros _; exact InkProps.vim_orderless|]. vm_compute. reflexivity.
  - vm_compute. reflexivity.
Qed.
