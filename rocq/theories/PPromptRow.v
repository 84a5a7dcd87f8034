(** C73: the property theorems. *)
From Verif Require Import Base Utf8 Moji Color Prompt Buffer Commands KeyMap Session Spec SpecLib SpecTerm SpecScreen SpecVt SpecVtTabs SpecPromptRow Sample
  ScreenCheck TabScreenCheck VtSample VtTabsSample.
From Verif Require PromptRow.

(** C73: while ReadLine waits, the row of an ordinary terminal begins with the last line of
    the prompt, whatever was edited, searched, predicted, cleared, repainted or resized
    before, and the line begins right after it.  Not only the first prompt: after a resize
    RepaintLastLine writes the lines of the prompt over each other.  Whatever the terminal
    does with half characters and other sequences.  Missing for the full claim: joined
    characters, and SWAPCHAR beside predictions ([simple_event]); narrow terminals (below). *)
Theorem C73_simple_partial : forall V S ps default cur w cl es x,
  simple_editor S -> simple_text (cE (base S)) default -> simple_clip (cE (base S)) cl ->
  Forall (simple_event S) es -> prompt_width (base S) + 11 < w < 9223372036854775808 ->
  (forall r, 0 <= r < 128 -> joins (cE (base S)) r = false) ->
  counts_like V (cE (base S)) -> returns V ->
  prompt_is S ps -> Forall (showable V) ps -> vcolumns V (visible ps) = prompt_width (base S) ->
  (pcolor0 (base S) <> [] -> attribute_only V (pcolor0 (base S)) /\ attribute_only V (pcolor1 (base S))) ->
  readline S default cur w cl es = Some x ->
  forall lf v0, v_state v0 = Ground -> 0 <= v_col v0 -> begins ps v0 ->
  prompt_on_row V ps x (vbytes V (out_bytes (cE (base S)) lf (out (buf_of x))) v0).
Proof. exact PromptRow.row_simple. Qed.
Print Assumptions C73_simple_partial.

(** The same with tabs in the text and SWAPCHAR anywhere. *)
Theorem C73_tabs_partial : forall V S ps default cur w cl es x,
  single_editor S -> single_text (cE (base S)) default -> single_clip (cE (base S)) cl -> Forall (single_event S) es ->
  prompt_width (base S) + 3 < w < 9223372036854775808 ->
  counts_like V (cE (base S)) -> returns V ->
  prompt_is S ps -> Forall (showable V) ps -> vcolumns V (visible ps) = prompt_width (base S) ->
  (pcolor0 (base S) <> [] -> attribute_only V (pcolor0 (base S)) /\ attribute_only V (pcolor1 (base S))) ->
  readline S default cur w cl es = Some x ->
  forall lf v0, v_state v0 = Ground -> 0 <= v_col v0 -> begins ps v0 ->
  prompt_on_row V ps x (vbytes V (out_bytes (cE (base S)) lf (out (buf_of x))) v0).
Proof. exact PromptRow.row_tabs. Qed.
Print Assumptions C73_tabs_partial.

(** A terminal that knows CR, LF, CSI 1;1H and CSI 2J, whatever else it does. *)
Definition lines_then (other : list rune -> vt -> vt) (rs : list rune) (v : vt) : vt :=
  if str_eqb rs [13] then at_col v 0
  else if str_eqb rs [10] || str_eqb rs [27; 91; 49; 59; 49; 72] then at_col (with_row v (fun _ => Empty)) 0
  else if str_eqb rs [27; 91; 50; 74] then with_row v (fun _ => Empty)
  else other rs v.
Lemma lines_return torn other : returns (V_with torn (lines_then other)).
Proof. split; reflexivity. Qed.
(** The prompt of the examples: on a row of its own a coloured "$ ". *)
Definition C73_prompt : list piece := [PBreak 10; PCsi (s2l "36;1") 109; PText 36; PText 32; PCsi [48] 109].
Lemma C73_showable torn other : Forall (showable (V_with torn other)) C73_prompt.
Proof.
  unfold C73_prompt, showable. repeat (apply Forall_cons; [cbn -[Z.le]; repeat split; try reflexivity; try (now auto); try (repeat constructor; unfold letter; cbn; lia); try (vm_compute; discriminate)|]); try apply Forall_nil.
  all: try (intros [|]; cbn in *; lia). all: try (cbn; unfold letter; lia). all: try (intuition lia).
Qed.
Definition C73_events : list event :=
  keys "echo hello world" ++ [key 1; key 6; key 5; key 12; key 2; key 2; key 11; key 25; key 26; key 16; key 14; EResize 24; key 18]
  ++ keys "re" ++ [key 18; key 13; key 17; key 3; EKey (encode [12354]); EKey (encode [9472]); EResize 30; EKey (encode [768]); key 2].
Example C73_case : forall torn other, let V := V_with torn (lines_then other) in
  simple_editor S_vt /\ simple_text E_vt (s2l "abc") /\ Forall (simple_event S_vt) C73_events /\ prompt_width (base S_vt) + 11 < 20 /\
  (forall r, 0 <= r < 128 -> joins E_vt r = false) /\ counts_like V E_vt /\ returns V /\
  prompt_is S_vt C73_prompt /\ Forall (showable V) C73_prompt /\ vcolumns V (visible C73_prompt) = prompt_width (base S_vt) /\
  (attribute_only V (pcolor0 (base S_vt)) /\ attribute_only V (pcolor1 (base S_vt))) /\
  readline S_vt (s2l "abc") 3 20 (Some []) C73_events <> None /\ forall v, begins C73_prompt v.
Proof.
  intros torn other V. split; [exact simple_vt|]. split; [now apply simple_textb_ok|]. split; [now apply simple_eventb_ok|]. split; [vm_compute; reflexivity|].
  split; [exact low_vt|]. split; [apply vt_counts|]. split; [apply lines_return|]. split; [reflexivity|]. split; [apply C73_showable|]. split; [reflexivity|].
  split; [split; [exact (sgr_attribute V (s2l "3;22;34") eq_refl)|exact (sgr_attribute V (s2l "23;39") eq_refl)]|]. split; [vm_compute; discriminate|].
  intros v. right. now exists 10, (tl C73_prompt).
Qed.
Example C73_tabs_case : forall torn other, let V := V_with torn (lines_then other) in
  let es := keys "xy" ++ [key 17; key 9] ++ keys "z" ++ [key 2; key 20; key 12; EResize 60; key 26; key 5; key 18] ++ keys "ma" ++ [key 13] in
  single_editor S_vttp /\ single_text E_vt (s2l "a" ++ [9] ++ s2l "b") /\ Forall (single_event S_vttp) es /\ prompt_width (base S_vttp) + 3 < 80 /\
  counts_like V E_vt /\ returns V /\ prompt_is S_vttp C73_prompt /\ Forall (showable V) C73_prompt /\ vcolumns V (visible C73_prompt) = prompt_width (base S_vttp) /\
  (attribute_only V (pcolor0 (base S_vttp)) /\ attribute_only V (pcolor1 (base S_vttp))) /\
  readline S_vttp (s2l "a" ++ [9] ++ s2l "b") 3 80 (Some []) es <> None.
Proof.
  intros torn other V es. split; [exact single_vttp|]. split; [now apply single_textb_ok|]. split; [now apply single_eventb_ok|]. split; [vm_compute; reflexivity|].
  split; [apply vt_counts|]. split; [apply lines_return|]. split; [reflexivity|]. split; [apply C73_showable|]. split; [reflexivity|].
  split; [split; [exact (sgr_attribute V (s2l "3;22;34") eq_refl)|exact (sgr_attribute V (s2l "23;39") eq_refl)]|]. vm_compute. discriminate.
Qed.

(** The full claim is false: on a terminal too narrow for the prompt the line goes to a row of
    its own (main.go:199-203); when the window is then made wider, the prompt is written onto
    the row of the line, and the line over the prompt, because RepaintLastLine does not say
    where the line begins now (repaints.go:115-130). *)
Definition S_wide : scfg := mkScfg (mkCfg E_vt [] false [] [] (predictByHistory []) (Some (10 :: s2l "password> ")) VimBatch ascii_upper) [] GlobalKeyMap.
Definition V_lines : vterm := V_with (fun _ _ _ => Empty) (lines_then (fun _ v => v)).
Theorem C73_narrow_refuted : counts_like V_lines E_vt /\ returns V_lines /\
  exists s, readline S_wide [] 0 12 (Some []) (EResize 80 :: keys "ab") = Some (Running MNormal s) /\
  (map (fun i => v_row (vbytes V_lines (out_bytes E_vt (fun _ => [10]) (out s)) (mkVt Ground 0 (fun _ => Empty) 0 true)) (Z.of_nat i)) (seq 0 10))
  = map (fun r => Char r 0) (s2l "ab") ++ repeat Empty 8.
Proof.
  split; [apply vt_counts|]. split; [apply lines_return|]. set (x := readline S_wide [] 0 12 (Some []) (EResize 80 :: keys "ab")).
  assert (Hx : match x with Some (Running MNormal s) => map (fun i => v_row (vbytes V_lines (out_bytes E_vt (fun _ => [10]) (out s)) (mkVt Ground 0 (fun _ => Empty) 0 true)) (Z.of_nat i)) (seq 0 10)
    = map (fun r => Char r 0) (s2l "ab") ++ repeat Empty 8 | _ => False end) by (vm_compute; reflexivity).
  destruct x as [[[| |ss] s|s t r]|]; try destruct Hx. now exists s.
Qed.
Print Assumptions C73_narrow_refuted.
