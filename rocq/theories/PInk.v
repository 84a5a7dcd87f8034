(** C68: the colours on the screen. *)
From Verif Require Import Base Utf8 Moji Color Prompt Buffer Commands KeyMap Session Spec Sample SpecScreen ScreenCheck SpecPaint SpecInk InkSample.
From Verif Require InkProps ScreenProps.

(** For every colouring that does not use the marker of the cursor and never answers -1, and
    every session under conditions on the events and on moving: whatever was
    on the screen before and whatever the terminal makes of the prompt, of line feeds, of
    clearing and of characters overwritten in part, each unit on the row stands in the colour
    it has in the line as it is now, predictions in their look.  Missing for the full claim:
    colourings that use the marker, transposing in front of units whose colours depend on the
    order (both refuted below; otherwise the next theorem has SWAPCHAR and joined characters),
    predictions beside tabs (PTabInk.v has tabs), and what C37 leaves out. *)
Theorem C68_simple_partial : forall S default cur w cl es x,
  simple_editor S -> simple_text (cE (base S)) default -> simple_clip (cE (base S)) cl ->
  Forall (simple_event S) es -> 0 <= cur -> prompt_width (base S) + 11 < w ->
  blind (ccol (base S)) -> true_colours (ccol (base S)) ->
  (forall x0, start S default cur w cl = Some x0 -> steady_run S es x0) ->
  readline S default cur w cl es = Some x ->
  forall other sc, inks_right (base S) x (idisplay (cE (base S)) other (inkify Before (out (buf_of x))) sc).
Proof. exact InkProps.screen_ink_simple. Qed.
Print Assumptions C68_simple_partial.

(** With joined characters and SWAPCHAR: [calm] as in C37; [heard_run] asks of every state of
    the run that its units reach the colouring as they are written. *)
Theorem C68_colours_partial : forall S default cur w cl es x,
  sane_widths (cE (base S)) -> only_builtin S ->
  (pcolor0 (base S) = [] \/ forall t c, Forall (fun m => tabfree m = true) (StringToMoji (cE (base S)) (predictor (base S) t c))) ->
  blind (ccol (base S)) -> true_colours (ccol (base S)) ->
  (forall x0, start S default cur w cl = Some x0 -> calm S es x0 /\ heard_run S es x0) ->
  readline S default cur w cl es = Some x ->
  forall other sc, inks_right (base S) x (idisplay (cE (base S)) other (inkify Before (out (buf_of x))) sc).
Proof. exact InkProps.screen_ink. Qed.
Print Assumptions C68_colours_partial.

(** The colouring that comes with the library is such a colouring, and transposing does not
    disturb it. *)
Theorem C68_vimbatch : blind VimBatch /\ true_colours VimBatch /\ orderless VimBatch.
Proof. exact (conj InkProps.vim_blind (conj InkProps.vim_true InkProps.vim_orderless)). Qed.
Print Assumptions C68_vimbatch.

(** A session with VimBatch and predictions: quotes opened and closed before text that is
    already on the screen change its colour; scrolling, history, search, undo, resize.  The
    third column after the prompt shows it. *)
Definition C68_events : list event :=
  keys "say hi" ++ [key 1; key 6] ++ keys """" ++ [key 5] ++ keys "x" ++ [key 26; key 2; key 2; key 16; key 14; EResize 24; key 18]
  ++ keys "re" ++ [key 7; key 1] ++ keys """a%" ++ [key 127].
Example C68_simple_case : simple_editor S_pred /\ Forall (simple_event S_pred) C68_events /\ prompt_width (base S_pred) + 11 < 20 /\
  ccol (base S_pred) = VimBatch /\
  (forall x0, start S_pred [] 0 20 (Some []) = Some x0 -> steady_run S_pred C68_events x0) /\
  match readline S_pred [] 0 20 (Some []) C68_events with
  | Some (Running MNormal s) => map (at_col (base S_pred) s) [2; 3; 4; 5; 6; 7] =
      [IPart (MRaw 34, Colour Magenta) 0; IPart (MRaw 97, Colour Magenta) 0; IPart (MRaw 115, Colour Magenta) 0; IPart (MRaw 34, Colour Magenta) 0;
       IPart (MRaw 97, Colour DefaultForeGroundColor) 0; IPart (MRaw 121, Colour DefaultForeGroundColor) 0]
  | _ => False
  end.
Proof.
  split; [exact simple_pred|]. split; [now apply simple_eventb_ok|]. split; [reflexivity|]. split; [reflexivity|]. split.
  - intros x0 Hx. apply calm_steady. revert x0 Hx. apply calm_read_ok. vm_compute. reflexivity.
  - vm_compute. reflexivity.
Qed.
(** Joined emoji and SWAPCHAR, in the middle with VimBatch and at the end with a colouring
    that depends on the order. *)
Definition C68_joined : list event :=
  keys "ab%cd" ++ [key 2; key 2; key 20; key 1; EKey (encode [128104; 8205; 128105]); key 2; key 127] ++ keys "xyz".
Example C68_colours_case : sane_widths (cE (base S_on)) /\ only_builtin S_on /\ pcolor0 (base S_on) = [] /\ ccol (base S_on) = VimBatch /\
  (forall x0, start S_on [] 0 20 (Some []) = Some x0 -> calm S_on C68_joined x0 /\ heard_run S_on C68_joined x0) /\
  text_of (readline S_on [] 0 20 (Some []) C68_joined) = Some (s2l "xyz" ++ encode [128104; 8205; 128105] ++ s2l "abc%d").
Proof.
  split; [exact sane_on|]. split; [exact builtin_on|]. split; [reflexivity|]. split; [reflexivity|]. split.
  - apply (heard_read_ok true); [intros _; exact InkProps.vim_orderless|]. vm_compute. reflexivity.
  - vm_compute. reflexivity.
Qed.
Definition C68_transposed : list event := keys "abc" ++ [key 20; key 2; key 20] ++ keys "d".
Example C68_order_case : sane_widths (cE (base S_before)) /\ only_builtin S_before /\ pcolor0 (base S_before) = [] /\
  blind (ccol (base S_before)) /\ true_colours (ccol (base S_before)) /\
  (forall x0, start S_before [] 0 20 (Some []) = Some x0 -> calm S_before C68_transposed x0 /\ heard_run S_before C68_transposed x0) /\
  match readline S_before [] 0 20 (Some []) C68_transposed with
  | Some (Running MNormal s) => map (at_col (base S_before) s) [2; 3; 4; 5] =
      [IPart (MRaw 97, Colour 0) 0; IPart (MRaw 98, Colour 97) 0; IPart (MRaw 99, Colour 98) 0; IPart (MRaw 100, Colour 99) 0]
  | _ => False
  end.
Proof.
  split; [exact sane_off|]. split; [exact builtin_before|]. split; [reflexivity|]. split; [exact before_blind|]. split; [exact before_true|]. split.
  - apply (heard_read_ok false); [discriminate|]. vm_compute. reflexivity.
  - vm_compute. reflexivity.
Qed.

(** A colouring that uses the marker: FORWARD_CHAR paints the character it goes over before
    it moves the cursor (gommand.go:133-147), so the character keeps the colour it had after
    the cursor. *)
Theorem C68_marker_refuted : exists S es s, only_builtin S /\ true_colours (ccol (base S)) /\ orderless (ccol (base S)) /\
  readline S [] 0 80 (Some []) es = Some (Running MNormal s) /\
  exists other sc, ~ ishown (base S) s (idisplay (cE (base S)) other (inkify Before (out s)) sc).
Proof. exact marker_stale. Qed.
Print Assumptions C68_marker_refuted.

(** Transposing in front of other units: they are not painted again (gommand.go:384-391), so
    a colouring that depends on the order is wrong about them. *)
Theorem C68_swap_refuted : exists S es s, only_builtin S /\ blind (ccol (base S)) /\ true_colours (ccol (base S)) /\
  readline S [] 0 80 (Some []) es = Some (Running MNormal s) /\
  exists other sc, ~ ishown (base S) s (idisplay (cE (base S)) other (inkify Before (out s)) sc).
Proof. exact swap_stale. Qed.
Print Assumptions C68_swap_refuted.
