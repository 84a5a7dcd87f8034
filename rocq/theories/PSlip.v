(** C80: with predictions ReadLine is the editor on paper with a slip beside it; and exactly when it crashes (C04). *)
From Verif Require Import Base Utf8 Moji Color Prompt Buffer Commands KeyMap Session Spec Sample SpecEditor SpecExact SpecSlip IndepSample.
From Verif Require SlipExact PEditor PExact ScreenCheck.

(** With the joining of characters switched off: every text, key, clipboard, history, Predictor and resize.  The text,
    the cursor, the clipboard, the search and what is returned are those on paper, and what FORWARD_CHAR would take over
    is what stands on the slip.  Paper does not know whether a FORWARD_WORD made the line scroll: it is told whether the
    row had room for the place it went to. *)
Theorem C80_paper : forall S default cur w cl es x,
  only_builtin S -> pcolor0 (base S) <> [] -> (forall r, joins (cE (base S)) r = false) -> 0 <= cur ->
  readline S default cur w cl es = Some x ->
  same_desk (cE (base S)) x (fst (slip_of S default cur cl (scrolled S default cur w cl es) es)) /\
  same_slip (cE (base S)) x (snd (slip_of S default cur cl (scrolled S default cur w cl es) es)).
Proof.
  exact (fun S d cur w cl es x HB HP HJ Hc => SlipExact.slip_some S d cur w cl es HB HP (HJ _) (HJ _)
    (proj2 (Forall_forall _ _) (fun t _ r _ => HJ r)) (fun t c r _ => HJ r) Hc (fun r _ => HJ r) (fun t _ r _ => HJ r) (SlipExact.all_unjoined S es HJ) x).
Qed.
Print Assumptions C80_paper.

(** With the joining of characters switched on, as long as no text has a code point that joins its neighbour. *)
Theorem C80_unjoined : forall S default cur w cl es x,
  only_builtin S -> pcolor0 (base S) <> [] -> joins (cE (base S)) 65533 = false -> joins (cE (base S)) 34 = false ->
  Forall (unjoined (cE (base S))) (hist (base S)) -> (forall t c, unjoined (cE (base S)) (predictor (base S) t c)) -> 0 <= cur ->
  unjoined (cE (base S)) default -> (forall t, cl = Some t -> unjoined (cE (base S)) t) -> Forall (unjoined_event S) es ->
  readline S default cur w cl es = Some x ->
  same_desk (cE (base S)) x (fst (slip_of S default cur cl (scrolled S default cur w cl es) es)) /\
  same_slip (cE (base S)) x (snd (slip_of S default cur cl (scrolled S default cur w cl es) es)).
Proof. exact (fun S d cur w cl es x H1 H2 H3 H4 H5 H6 H7 H8 H9 H10 => SlipExact.slip_some S d cur w cl es H1 H2 H3 H4 H5 H6 H7 H8 H9 H10 x). Qed.
Print Assumptions C80_unjoined.

(** Where FORWARD_WORD is not used there is nothing to answer: whatever the terminal, its widths, the prompt and the colours. *)
Theorem C80_without_forward_word : forall S default cur w cl es x again,
  only_builtin S -> pcolor0 (base S) <> [] -> joins (cE (base S)) 65533 = false -> joins (cE (base S)) 34 = false ->
  Forall (unjoined (cE (base S))) (hist (base S)) -> (forall t c, unjoined (cE (base S)) (predictor (base S) t c)) -> 0 <= cur ->
  unjoined (cE (base S)) default -> (forall t, cl = Some t -> unjoined (cE (base S)) t) -> Forall (unjoined_event S) es ->
  (forall k, In (EKey k) es -> LookupCommand (kmap S) (gmap S) k <> CForwardWord) -> List.length again = List.length es ->
  readline S default cur w cl es = Some x ->
  same_desk (cE (base S)) x (fst (slip_of S default cur cl again es)) /\
  same_slip (cE (base S)) x (snd (slip_of S default cur cl again es)).
Proof. exact (fun S d cur w cl es x ag H1 H2 H3 H4 H5 H6 H7 H8 H9 H10 => SlipExact.slip_any S d cur w cl es H1 H2 H3 H4 H5 H6 H7 H8 H9 H10 x ag). Qed.
Print Assumptions C80_without_forward_word.

(** C04: with predictions and simple text ReadLine crashes if and only if UNDO is pressed for a change that does not
    fit.  Missing for the full claim: tabs, joined characters; and the crash itself. *)
Theorem C04_exact_prediction_partial : forall S default cur w cl es,
  simple_editor S -> pcolor0 (base S) <> [] -> simple_text (cE (base S)) default -> simple_clip (cE (base S)) cl -> 0 <= cur ->
  prompt_width (base S) + 11 < w -> Forall (simple_input S) es ->
  (readline S default cur w cl es = None <->
   exists es1 e es2, es = es1 ++ e :: es2 /\ readline S default cur w cl es1 <> None /\
     undo_breaks S (fst (slip_of S default cur cl (scrolled S default cur w cl es1) es1)) e).
Proof. exact (fun S d cur w cl es H1 H2 H3 H4 H5 H6 H7 => SlipExact.crash_iff S d cur w cl H1 H2 H3 H4 H5 H6 es H7). Qed.
Print Assumptions C04_exact_prediction_partial.

(** A session: predictions are taken over, one after KILL_LINE and END_OF_LINE, which do not ask the Predictor again:
    what is taken over was meant for another line. *)
Definition C80_keys : list event :=
  keys "mak" ++ [key 6; key 6] ++ keys " x" ++ [key 21] ++ keys "ca" ++ [key 2; key 11; key 5; key 6; key 2; key 20; key 26; EResize 17; key 18] ++ keys "L" ++ [key 13; key 23; key 6; key 13].
Example C80_case :
  only_builtin S_pred /\ pcolor0 (base S_pred) <> [] /\ (forall r, joins (cE (base S_pred)) r = false) /\
  (forall k, In (EKey k) C80_keys -> LookupCommand (kmap S_pred) (gmap S_pred) k <> CForwardWord) /\
  exists t, fst (slip_of S_pred (s2l "ma") 2 (Some []) (map (fun _ => false) C80_keys) C80_keys) = Returned t RNil /\
  text_of (readline S_pred (s2l "ma") 2 40 (Some []) C80_keys) = Some t /\ (3 < List.length t)%nat.
Proof.
  split; [exact builtin_pred|]. split; [discriminate|]. split; [intros r; vm_compute; reflexivity|].
  split; [intros k Hk; cbn in Hk; repeat (destruct Hk as [Hk|Hk]; [first [discriminate Hk|injection Hk as <-; vm_compute; discriminate]|]); destruct Hk|].
  eexists. split; [vm_compute; reflexivity|]. split; [vm_compute; reflexivity|]. vm_compute. repeat constructor.
Qed.
(** The slip after "ca", BACKWARD_CHAR, KILL_LINE and END_OF_LINE: the line is "c", and FORWARD_CHAR gives "ct readme". *)
Example C80_stale : let es := keys "ca" ++ [key 2; key 11; key 5] in
  snd (slip_of S_pred [] 0 (Some []) (map (fun _ => false) es) es) = s2l "t readme" /\
  text_of (readline S_pred [] 0 40 (Some []) (es ++ [key 6; key 13])) = Some (s2l "ct readme").
Proof. split; vm_compute; reflexivity. Qed.
(** UNDO that crashes after a prediction was taken over and its last characters swapped, and one that does not. *)
Definition C04_pred_events : list event := keys "mak" ++ [key 6; key 20; key 8; key 26; key 26].
Example C04_exact_prediction_case :
  simple_editor S_pred /\ Forall (simple_input S_pred) C04_pred_events /\ prompt_width (base S_pred) + 11 < 40 /\
  readline S_pred [] 0 40 (Some []) C04_pred_events = None /\ readline S_pred [] 0 40 (Some []) (keys "mak" ++ [key 6; key 2; key 20; key 26; key 26]) <> None.
Proof.
  split; [exact ScreenCheck.simple_pred|]. split; [apply PExact.simple_inputb_ok; vm_compute; reflexivity|]. split; [vm_compute; reflexivity|].
  split; [vm_compute; reflexivity|]. vm_compute. discriminate.
Qed.
(** FORWARD_WORD at two widths: on the narrow terminal it scrolls and asks, on the wide one it does not, and the slips differ. *)
Example C80_forward_word_case : let es := [key 1; EKey [27; 102]] in let d := s2l "aaaaaaaaaa" in
  only_builtin S_cur /\ pcolor0 (base S_cur) <> [] /\ (forall r, joins (cE (base S_cur)) r = false) /\
  scrolled S_cur d 10 80 (Some []) es = [false; false] /\ scrolled S_cur d 10 12 (Some []) es = [false; true] /\
  snd (slip_of S_cur d 10 (Some []) [false; false] es) <> snd (slip_of S_cur d 10 (Some []) [false; true] es).
Proof.
  cbv zeta. split; [intros k f; apply global_builtin; discriminate|]. split; [discriminate|]. split; [intros r; vm_compute; reflexivity|].
  split; [vm_compute; reflexivity|]. split; [vm_compute; reflexivity|]. vm_compute. discriminate.
Qed.
