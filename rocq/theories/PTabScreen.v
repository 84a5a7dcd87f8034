(** C37, C38 for lines with tabs. *)
From Verif Require Import Base Utf8 Moji Color Prompt Buffer Commands KeyMap Session Spec Sample SpecScreen ScreenCheck SpecTabScreen TabScreenCheck.
From Verif Require TabScreenProps.

(** C37 with tabs, joined characters and wide characters, as long as the line fits the row:
    the row shows the whole line, each tab filling up to the next multiple of four columns of
    the line, and the cursor stands at its place.  Missing for the full claim: lines with tabs
    that scroll, predictions beside tabs, and what [steady_tabs] leaves out. *)
Theorem C37_tabs_partial : forall S default cur w cl es x,
  sane_widths (cE (base S)) -> only_builtin S -> pcolor0 (base S) = [] ->
  (forall x0, start S default cur w cl = Some x0 -> calm_tabs S es x0) ->
  readline S default cur w cl es = Some x ->
  forall other sc, tab_screen_right (cE (base S)) x (display (cE (base S)) other (out (buf_of x)) sc).
Proof. exact TabScreenProps.screen_tabs. Qed.
Print Assumptions C37_tabs_partial.

(** Enter leaves the line as it stands. *)
Theorem C37_tabs_enter_partial : forall S default cur w cl es s k x',
  sane_widths (cE (base S)) -> only_builtin S -> pcolor0 (base S) = [] ->
  (forall x0, start S default cur w cl = Some x0 -> calm_tabs S es x0) ->
  readline S default cur w cl es = Some (Running MNormal s) ->
  LookupCommand (kmap S) (gmap S) k = CAcceptLine -> step S (EKey k) (Running MNormal s) = Some x' ->
  forall other sc, exists ts tl, out (buf_of x') = out s ++ ts ++ TLineFeed 1 :: tl /\ line (buf_of x') = line s /\
    shows_tabs (cE (base S)) (buf_of x') (display (cE (base S)) other (out s ++ ts) sc).
Proof. exact TabScreenProps.screen_tabs_enter. Qed.
Print Assumptions C37_tabs_enter_partial.

(** C38 with tabs. *)
Theorem C38_tabs_partial : forall S default cur w cl es e x x',
  sane_widths (cE (base S)) -> only_builtin S -> pcolor0 (base S) = [] ->
  (forall x0, start S default cur w cl = Some x0 -> calm_tabs S (es ++ [e]) x0) ->
  readline S default cur w cl es = Some x -> step S e x = Some x' ->
  forall other sc, exists ts, out (buf_of x') = out (buf_of x) ++ ts /\
    inside (cE (base S)) other (termw (buf_of x') - 3) (display (cE (base S)) other (out (buf_of x)) sc) ts.
Proof. exact TabScreenProps.inside_tabs. Qed.
Print Assumptions C38_tabs_partial.
Theorem C38_tabs_start_partial : forall S default cur w cl x,
  sane_widths (cE (base S)) -> pcolor0 (base S) = [] ->
  start S default cur w cl = Some x -> fits_tabs S x ->
  forall other sc, inside (cE (base S)) other (w - 3) sc (out (buf_of x)).
Proof. exact TabScreenProps.inside_tabs_start. Qed.
Print Assumptions C38_tabs_start_partial.

(** A session that meets the conditions: tabs in the first text, typed, pasted and taken out
    again; a wide character; a transposition; history, search, undo, resize. *)
Definition C37_tab_events : list event :=
  keys "xy" ++ [key 17; key 9] ++ keys "z" ++ [key 2; key 2; key 2; key 20; key 1; key 6; key 4; key 26; key 5; key 23; key 25; key 127; EKey (encode [12354])]
  ++ [key 16; key 14; EResize 60; key 18] ++ keys "re" ++ [key 7; key 21; key 25; key 12].
Example C37_tabs_case : sane_widths (cE (base S_off)) /\ only_builtin S_off /\ pcolor0 (base S_off) = [] /\
  (forall x0, start S_off (s2l "a" ++ [9] ++ s2l "b") 3 80 (Some []) = Some x0 -> calm_tabs S_off C37_tab_events x0) /\
  match readline S_off (s2l "a" ++ [9] ++ s2l "b") 3 80 (Some []) C37_tab_events with
  | Some (Running MNormal s) => 1 < zlen (filter (fun m => negb (tabfree m)) (line s))
  | _ => False
  end.
Proof.
  split; [exact sane_off|]. split; [exact builtin_off|]. split; [reflexivity|]. split.
  - apply calm_tabs_read_ok. vm_compute. reflexivity.
  - vm_compute. reflexivity.
Qed.

(** Transposing with a tab: only the part up to the cursor is painted again, though the tab's
    width changes and what follows it moves.  Of the line a TAB b with the cursor after the
    first letter, SWAPCHAR leaves TAB a on the screen and no b. *)
Theorem C37_tab_swap_refuted : exists default es, exists s sc,
  readline S_off default 1 80 (Some []) es = Some (Running MNormal s) /\ fits_tabs S_off (Running MNormal s) /\
  ~ shows_tabs E_off s (display E_off still (out s) sc).
Proof.
  exists (s2l "a" ++ [9] ++ s2l "b"), [key 20]. set (o := readline _ _ _ _ _ _).
  assert (H : match o with Some (Running MNormal s) => fits_tabsb S_off (Running MNormal s) = true /\ topc s = 2 /\ 
     row (display E_off still (out s) (mkScreen 0 (fun _ => Blank))) 7 = Blank /\ image E_off 2 (laid E_off 0 (line s)) 7 = Part (MRaw 98) 0 | _ => False end) by (vm_compute; auto).
  destruct o as [[[| |ss] s|s t r]|]; try destruct H. destruct H0 as (H1 & H2 & H3). exists s, (mkScreen 0 (fun _ => Blank)). split; [reflexivity|]. split; [now apply fits_tabsb_ok|].
  intros [Hr _]. specialize (Hr 7). rewrite H1, H2, H3 in Hr. specialize (Hr ltac:(discriminate)). discriminate.
Qed.
Print Assumptions C37_tab_swap_refuted.
