(** C04: nothing but UNDO crashes. *)
From Verif Require Import Base Utf8 Moji Color Prompt Buffer Commands KeyMap Session Spec SpecExact SpecUndoOnly Sample.
From Verif Require UndoOnly UndoCheck AbsSess Safe PExact ScreenCheck Reach.

(** With predictions, with SWAPCHAR anywhere: on a wide enough terminal with simple text ReadLine crashes, if at all,
    at a key that runs UNDO.  Missing for the full claim: tabs and joined characters (next theorem), and that crash. *)
Theorem C04_only_undo_partial : forall S default cur w cl es,
  simple_editor S -> simple_text (cE (base S)) default -> simple_clip (cE (base S)) cl ->
  Forall (simple_input S) es -> 0 <= cur -> prompt_width (base S) + 11 < w ->
  readline S default cur w cl es = None -> crashes_in_undo S default cur w cl es.
Proof. exact UndoOnly.only_simple. Qed.
Print Assumptions C04_only_undo_partial.

(** Where UNDO is not used nothing crashes. *)
Theorem C04_without_undo_partial : forall S default cur w cl es,
  simple_editor S -> simple_text (cE (base S)) default -> simple_clip (cE (base S)) cl ->
  Forall (simple_input S) es -> 0 <= cur -> prompt_width (base S) + 11 < w ->
  (forall k, In (EKey k) es -> LookupCommand (kmap S) (gmap S) k <> CUndo) ->
  exists x, readline S default cur w cl es = Some x.
Proof. exact UndoOnly.without_simple. Qed.
Print Assumptions C04_without_undo_partial.

(** With tabs, joined characters and characters of any width.  [roomy] follows the text of the line through the
    events (in the display-free editor AbsSess, which has no widths and no painting) and asks at each step that every
    unit is narrower than the visible width and that a line with tabs is at most 32767 columns wide. *)
Theorem C04_only_undo_room_partial : forall S,
  sane_widths (cE (base S)) -> Safe.pred_ok (base S) -> AbsSess.builtin_keys S ->
  forall default cur w cl es, 0 <= cur ->
  UndoOnly.roomy S w (AbsSess.ARunning MNormal (AbsSess.astart S default cur cl)) es ->
  readline S default cur w cl es = None -> crashes_in_undo S default cur w cl es.
Proof. exact UndoOnly.only_readline. Qed.
Print Assumptions C04_only_undo_room_partial.

(** A session with predictions that meets the conditions and crashes, and one without UNDO. *)
Definition C04_undo_events : list event := keys "mak" ++ [key 6; key 20; key 2; key 20; key 5; key 20] ++ keys "x" ++ [key 26; key 26; key 1].
Example C04_only_undo_case : simple_editor S_pred /\ Forall (simple_input S_pred) C04_undo_events /\ prompt_width (base S_pred) + 11 < 80 /\
  pcolor0 (base S_pred) <> [] /\ readline S_pred [] 0 80 (Some []) C04_undo_events = None /\
  text_of (readline S_pred [] 0 80 (Some []) (firstn 10 C04_undo_events ++ [key 11; key 25; key 23; key 13])) <> None /\
  (forall k, In (EKey k) (firstn 10 C04_undo_events ++ [key 11; key 25; key 23; key 13]) -> LookupCommand (kmap S_pred) (gmap S_pred) k <> CUndo).
Proof.
  split; [exact ScreenCheck.simple_pred|]. split; [apply PExact.simple_inputb_ok; vm_compute; reflexivity|]. split; [vm_compute; reflexivity|].
  split; [discriminate|]. split; [vm_compute; reflexivity|]. split; [vm_compute; discriminate|].
  intros k Hk. cbn in Hk. repeat (destruct Hk as [Hk|Hk]; [injection Hk as <-; vm_compute; discriminate|]). destruct Hk.
Qed.
(** Joined characters and a tab: a flag and a person with a skin colour are typed, swapped and taken back. *)
Definition C04_joined_events : list event :=
  [EKey (encode [128104]); EKey (encode [127997]); key 1; EKey (encode [9]); key 5; EKey (encode [127987]); EKey (encode [8205]); EKey (encode [127752]); key 2; key 20; key 26; key 26; key 13].
Example C04_only_undo_room_case : sane_widths (cE (base S_on)) /\ Safe.pred_ok (base S_on) /\ AbsSess.builtin_keys S_on /\
  UndoOnly.roomy S_on 40 (AbsSess.ARunning MNormal (AbsSess.astart S_on (s2l "ab") 2 (Some []))) C04_joined_events /\
  readline S_on (s2l "ab") 2 40 (Some []) C04_joined_events <> None.
Proof.
  split; [exact sane_on|]. split; [now left|]. split; [exact (Reach.only_builtin_keys S_on builtin_on)|]. split; [apply UndoCheck.roomyb_ok; vm_compute; reflexivity|].
  vm_compute. discriminate.
Qed.
