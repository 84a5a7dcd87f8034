(** C37 for lines with tabs that scroll. *)
From Verif Require Import Base Utf8 Moji Color Prompt Buffer Commands KeyMap Session Spec Sample SpecScreen ScreenCheck SpecTabScreen SpecTabScroll TabScrollCheck.
From Verif Require TabScrollProps.

(** C37 with tabs, joined characters and wide characters, with and without predictions, whatever
    the predictor, whatever the lengths of the prompt and the line: the row, taken to be as long
    as need be, shows the units from ViewStart on up to a point at or after the cursor, each tab
    as wide as in the whole line, perhaps the beginning of the prediction when the cursor is at
    the end of the line, and nothing else; and the cursor stands at its place.  Missing for the
    full claim: that the row is long enough (it is not, see below), how much of a prediction is
    shown, and what [steady_scroll] leaves out. *)
Theorem C37_tabs_scroll_partial : forall S default cur w cl es x,
  sane_widths (cE (base S)) -> only_builtin S ->
  (forall x0, start S default cur w cl = Some x0 -> calm_scroll S es x0) ->
  readline S default cur w cl es = Some x ->
  forall other sc, scrolled_right (cE (base S)) x (display (cE (base S)) other (out (buf_of x)) sc).
Proof. exact TabScrollProps.screen_scroll. Qed.
Print Assumptions C37_tabs_scroll_partial.

(** A session on a narrow terminal that meets the conditions, and in which the line scrolls. *)
Definition C37_scroll_events : list event :=
  keys "xy" ++ [key 17; key 9] ++ keys "zabcdefghijkl" ++ [key 2; key 20; key 1; key 6; key 6; key 4; key 26; key 5; key 23; key 25; key 127; EKey (encode [12354])]
  ++ [key 16; key 14; EResize 16; key 18] ++ keys "re" ++ [key 7; key 21; key 25; key 12; key 5; key 2; key 2; key 6; key 11].
Example C37_tabs_scroll_case : sane_widths (cE (base S_off)) /\ only_builtin S_off /\
  (forall x0, start S_off (s2l "abc" ++ [9] ++ s2l "bcdef") 3 20 (Some []) = Some x0 -> calm_scroll S_off C37_scroll_events x0) /\
  match readline S_off (s2l "abc" ++ [9] ++ s2l "bcdef") 3 20 (Some []) C37_scroll_events with
  | Some (Running MNormal s) => 0 < zlen (filter (fun m => negb (tabfree m)) (line s)) /\ 0 < view s /\ ViewWidth s < total_width E_off (line s)
  | _ => False
  end.
Proof.
  split; [exact sane_off|]. split; [exact builtin_off|]. split.
  - apply calm_scroll_read_ok. vm_compute. reflexivity.
  - vm_compute. auto.
Qed.

(** A prediction stands beside a tab: the history has a line with a tab, of which the first two
    units have been typed. *)
Definition tab_hist : list str := [s2l "make" ++ [9] ++ s2l "install"; s2l "a" ++ [9] ++ s2l "bc" ++ [9] ++ s2l "d"].
Definition S_tabpred : scfg := mkScfg (mkCfg E_off tab_hist false (s2l "<") (s2l ">") (predictByHistory tab_hist) (Some (s2l "$ ")) VimBatch ascii_upper) [] GlobalKeyMap.
Definition C37_tabpred_events : list event := [key 16; key 1; key 6; key 5; key 21] ++ keys "a" ++ [key 17; key 9].
Example C37_tabs_scroll_pred_case : sane_widths (cE (base S_tabpred)) /\ only_builtin S_tabpred /\
  (forall x0, start S_tabpred (s2l "abc" ++ [9] ++ s2l "bcdef") 3 20 (Some []) = Some x0 -> calm_scroll S_tabpred C37_tabpred_events x0) /\
  match readline S_tabpred (s2l "abc" ++ [9] ++ s2l "bcdef") 3 20 (Some []) C37_tabpred_events with
  | Some (Running MNormal s) => zlen (line s) = 2 /\ 0 < zlen (filter (fun m => negb (tabfree m)) (line s)) /\ zlen (predicted s) = 4 /\ cursor s = zlen (line s)
  | _ => False
  end.
Proof.
  split; [exact sane_off|]. split; [intros k f; apply global_builtin; discriminate|]. split.
  - apply calm_scroll_read_ok. vm_compute. reflexivity.
  - vm_compute. auto.
Qed.

(** C38 is false of lines with tabs.  When FORWARD_CHAR reaches the right edge it drops one
    character on the left, or two when the first one is narrower than the one that comes in; but
    a tab may be four columns wide.  With every tab passed the row grows, until the terminal's
    cursor is beyond the last column. *)
Theorem C38_tabs_scroll_refuted : exists default es s,
  readline S_off default 0 20 (Some []) es = Some (Running MNormal s) /\ termw s = 20 /\
  forall other sc, termw s + 3 < col (display E_off other (out s) sc).
Proof. exact TabScrollProps.past_edge. Qed.
Print Assumptions C38_tabs_scroll_refuted.
