(** C03, C10, C15, C16, C18, C19, C20, C42, C43, C47: what happens in the course of a ReadLine.
    Theorems with a premise [step ... = Some x] or [run ... = Some x] say what holds when
    the painting code does not crash; C04 says when it does not. *)
From Verif Require Import SpecScript.
From Verif Require Import Base Utf8 Moji Color Prompt Buffer Commands KeyMap Session Spec Sample.
From Verif Require Reach SessFacts HistFacts SearchFacts PredictFacts SessProps JoinFacts.

(** * C03: what is typed is what is returned *)
(** The line after typing [ks]: the default text, cut at the cursor, with the units of the
    keys in between. *)
Theorem C03_typed_partial : forall S d cur w cl ks x, 0 <= cur -> Forall (typable S) ks ->
  readline S d cur w cl (map EKey ks) = Some x ->
  exists s n, x = Running MNormal s /\ n = Z.to_nat (Z.min cur (zlen (split (cE (base S)) d))) /\
    line s = firstn n (split (cE (base S)) d) ++ flat_map (split (cE (base S))) ks ++ skipn n (split (cE (base S)) d) /\
    cursor s = zlen (firstn n (split (cE (base S)) d) ++ flat_map (split (cE (base S))) ks) /\
    pending s = [] /\ clip s = cl.
Proof. exact SessProps.typed_line. Qed.
Print Assumptions C03_typed_partial.
(** The text returned, for every configuration whatever. *)
Theorem C03_returned_partial : forall S d cur w cl ks kr x, 0 <= cur -> Forall (typable S) ks -> bound S kr CAcceptLine ->
  readline S d cur w cl (map EKey ks ++ [EKey kr]) = Some x ->
  exists s n, x = Finished s (written (firstn n (split (cE (base S)) d)) ++ List.concat ks
                              ++ written (skipn n (split (cE (base S)) d))) RNil /\
    n = Z.to_nat (Z.min cur (zlen (split (cE (base S)) d))).
Proof. exact SessProps.typed_returned. Qed.
Print Assumptions C03_returned_partial.
Theorem C03_no_default_partial : forall S cur w cl ks kr x, 0 <= cur -> Forall (typable S) ks -> bound S kr CAcceptLine ->
  readline S [] cur w cl (map EKey ks ++ [EKey kr]) = Some x -> exists s, x = Finished s (List.concat ks) RNil.
Proof. exact SessProps.typed_empty. Qed.
Print Assumptions C03_no_default_partial.
(** On a wide enough terminal ReadLine does return it: nothing can crash on simple text. *)
Theorem C03_returns_partial : forall S d cur w cl ks kr, simple_editor S ->
  simple_text (cE (base S)) d -> simple_clip (cE (base S)) cl -> 0 <= cur -> prompt_width (base S) + 11 < w ->
  Forall (typable S) ks -> Forall (simple_text (cE (base S))) ks ->
  bound S kr CAcceptLine -> simple_text (cE (base S)) kr ->
  exists s, readline S d cur w cl (map EKey ks ++ [EKey kr])
    = Some (Finished s (written (firstn (Z.to_nat cur) (split (cE (base S)) d)) ++ List.concat ks
                        ++ written (skipn (Z.to_nat cur) (split (cE (base S)) d))) RNil).
Proof. exact SessProps.typed_safe. Qed.
Print Assumptions C03_returns_partial.

Example C03_case :
  let ks := map (fun b => [b]) (s2l "echo ") ++ [encode [26085; 26412]; s2l "abc"; [27; 91; 51; 49; 126]] in
  Forall (typable S_off) ks /\ Forall (simple_text E_off) ks /\ bound S_off [13] CAcceptLine /\
  text_of (readline S_off (s2l "()") 1 40 None (map EKey ks ++ [EKey [13]])) = Some (s2l "(" ++ List.concat ks ++ s2l ")").
Proof.
  split; [apply typableb_ok; vm_compute; reflexivity|]. split.
  - apply Forall_forall. intros k Hk. apply simple_textb_ok. revert k Hk. apply forallb_forall. vm_compute. reflexivity.
  - split; vm_compute; reflexivity.
Qed.
(** The claim is false for keys outside [typable]: a byte that is not UTF-8 comes back as
    U+FFFD (the tty10 terminal can deliver such a key), and ESC + x inserts x. *)
Theorem C03_refuted : exists S w ks s t, Forall (unbound S) ks /\
  readline S [] 0 w None (map EKey ks ++ [EKey [13]]) = Some (Finished s t RNil) /\ t <> List.concat ks.
Proof.
  exists S_off, 80, [[227]; [27; 64]]. do 2 eexists. split; [repeat constructor|]. split; [vm_compute; reflexivity|discriminate].
Qed.
Print Assumptions C03_refuted.

(** * C10: how ReadLine ends *)
Theorem C10_enter : forall S k s x, bound S k CAcceptLine -> step S (EKey k) (Running MNormal s) = Some x ->
  exists s', x = Finished s' (written (line s)) RNil.
Proof. exact SessFacts.key_end. Qed.
Print Assumptions C10_enter.
Theorem C10_ctrl_c : forall S k s x, bound S k CInterrupt -> step S (EKey k) (Running MNormal s) = Some x ->
  exists s', x = Finished s' [] RCtrlC.
Proof. exact SessFacts.key_interrupt. Qed.
Print Assumptions C10_ctrl_c.
Theorem C10_ctrl_d_empty : forall S k s x, bound S k CDeleteOrAbort -> line s = [] ->
  step S (EKey k) (Running MNormal s) = Some x -> exists s', x = Finished s' [] REOF.
Proof. exact SessFacts.key_eof. Qed.
Print Assumptions C10_ctrl_d_empty.
Theorem C10_ctrl_d_text : forall S k s x, bound S k CDeleteOrAbort -> line s <> [] ->
  step S (EKey k) (Running MNormal s) = Some x -> exists s', x = Running MNormal s'.
Proof. exact SessFacts.key_delete. Qed.
Print Assumptions C10_ctrl_d_text.
Theorem C10_key_error : forall S s, exists s', step S EKeyErr (Running MNormal s) = Some (Finished s' [] RKeyError).
Proof. intros S s. eexists. exact (SessFacts.read_error S s). Qed.
Print Assumptions C10_key_error.
(** Nothing else ends it: any key map without user functions ... *)
Theorem C10_nothing_else : forall S e m s s' t err, only_builtin S ->
  step S e (Running m s) = Some (Finished s' t err) ->
  m = MNormal /\
  ((e = EKeyErr /\ t = [] /\ err = RKeyError) \/
   exists k, e = EKey k /\
     ((bound S k CAcceptLine /\ t = written (line s) /\ err = RNil) \/
      (bound S k CInterrupt /\ t = [] /\ err = RCtrlC) \/
      (bound S k CDeleteOrAbort /\ line s = [] /\ t = [] /\ err = REOF))).
Proof. exact SessFacts.ends_only. Qed.
Print Assumptions C10_nothing_else.
(** ... and the default keys: only CR, Ctrl-C and Ctrl-D. *)
Theorem C10_default : forall S e m s s' t err, default_keys S -> step S e (Running m s) = Some (Finished s' t err) ->
  m = MNormal /\
  ((e = EKeyErr /\ t = [] /\ err = RKeyError) \/ (e = EKey [13] /\ t = written (line s) /\ err = RNil) \/
   (e = EKey [3] /\ t = [] /\ err = RCtrlC) \/ (e = EKey [4] /\ line s = [] /\ t = [] /\ err = REOF)).
Proof. exact SessProps.default_end_only. Qed.
Print Assumptions C10_default.
Theorem C10_default_keys : forall S k, default_keys S ->
  (bound S k CAcceptLine <-> k = [13]) /\ (bound S k CInterrupt <-> k = [3]) /\ (bound S k CDeleteOrAbort <-> k = [4]).
Proof. exact SessProps.default_ends. Qed.
Print Assumptions C10_default_keys.
Definition ended (x : option sess) : option (str * rerr) :=
  match x with Some (Finished _ t e) => Some (t, e) | _ => None end.
Example C10_case : default_keys S_off /\
  ended (readline S_off (s2l "make") 2 80 None [key 13]) = Some (s2l "make", RNil) /\
  ended (readline S_off (s2l "make") 2 80 None [key 3]) = Some ([], RCtrlC) /\
  ended (readline S_off [] 0 80 None [key 4]) = Some ([], REOF) /\
  ended (readline S_off (s2l "make") 2 80 None [EKeyErr]) = Some ([], RKeyError) /\
  ended (readline S_off (s2l "make") 2 80 None [key 4]) = None /\
  text_of (readline S_off (s2l "make") 2 80 None [key 4]) = Some (s2l "mae").
Proof. vm_compute. repeat split. Qed.

(** * C42: a new ReadLine starts fresh *)
Theorem C42_start : forall S default cur w cl x, start S default cur w cl = Some x ->
  exists s, x = Running MNormal s /\ line s = split (cE (base S)) default /\
    cursor s = Z.min cur (zlen (split (cE (base S)) default)) /\
    undoes s = [mkUndo 0 (zlen (split (cE (base S)) default)) []] /\
    pending s = [] /\ modh s = [] /\ hptr s = zlen (hist (base S)) /\ clip s = cl.
Proof. exact SessFacts.start_state. Qed.
Print Assumptions C42_start.
Example C42_case : exists s, start S_off (s2l "make") 9 80 None = Some (Running MNormal s) /\
  at_split s (raws "make") [] /\ hptr s = 3.
Proof. eexists. split; [vm_compute; reflexivity|]. split; [split|]; vm_compute; reflexivity. Qed.

(** * C47: quoted insert *)
Theorem C47_quoted : forall S kq k s x p q, bound S kq CQuotedInsert -> at_split s p q ->
  joins (cE (base S)) (first_rune (key_text k)) = false ->
  run S [EKey kq; EKey k] (Running MNormal s) = Some x ->
  exists s', x = Running MNormal s' /\ at_split s' (p ++ split (cE (base S)) (pending s ++ key_text k)) q /\ pending s' = [] /\
    clip s' = clip s /\ history_untouched s s'.
Proof. exact SessProps.quoted_insert. Qed.
Print Assumptions C47_quoted.
Theorem C47_read_error : forall S kq s x, bound S kq CQuotedInsert ->
  run S [EKey kq; EKeyErr] (Running MNormal s) = Some x -> exists s', x = Running MNormal s' /\ nothing_changed s s'.
Proof. exact SessProps.quoted_read_error. Qed.
Print Assumptions C47_read_error.
Example C47_case : bound S_off [22] CQuotedInsert /\
  text_of (readline S_off (s2l "ab") 1 80 None [key 22; key 3]) = Some [97; 3; 98] /\
  text_of (readline S_off (s2l "ab") 1 80 None [key 22; EKey [27; 120]]) = Some (s2l "axb") /\
  text_of (readline S_off (s2l "ab") 1 80 None [key 22; EKeyErr; key 13]) = Some (s2l "ab").
Proof. vm_compute. repeat split. Qed.

(** * C19: cancelling a search *)
Theorem C19_cancel : forall S k0 es e s x, bound S k0 CISearchBackward -> Forall search_event es ->
  (e = EKeyErr \/ exists k, e = EKey k /\ cancel_key k) ->
  run S (EKey k0 :: es ++ [e]) (Running MNormal s) = Some x -> exists s', x = Running MNormal s' /\ nothing_changed s s'.
Proof. exact SessProps.search_then_cancel. Qed.
Print Assumptions C19_cancel.
(** While the search goes on nothing changes either. *)
Theorem C19_during : forall S es ss s x, Forall search_event es -> run S es (Running (MSearch ss) s) = Some x ->
  exists ss' s', x = Running (MSearch ss') s' /\ nothing_changed s s'.
Proof. exact SessProps.search_run. Qed.
Print Assumptions C19_during.
(** Every key pressed in a search is dealt with: the walk through the history comes to an end,
    inside its bounds. *)
Theorem C19_ends : forall S ss s k, scripted S -> reached S (Running (MSearch ss) s) -> exists a, search_key S k ss = Some a.
Proof. exact Reach.search_reads_ok. Qed.
Print Assumptions C19_ends.
Example C19_case : bound S_off [18] CISearchBackward /\
  Forall search_event (keys "re" ++ [key 18; EResize 90; key 19; key 8]) /\
  (exists s s' ss, readline S_off (s2l "ab") 1 80 None [] = Some (Running MNormal s) /\
    run S_off (key 18 :: keys "re") (Running MNormal s) = Some (Running (MSearch ss) s') /\ ss_found ss = s2l "cat readme") /\
  exists s s', readline S_off (s2l "ab") 1 80 None [] = Some (Running MNormal s) /\
    run S_off (key 18 :: (keys "re" ++ [key 18; EResize 90; key 19; key 8]) ++ [key 7]) (Running MNormal s) = Some (Running MNormal s') /\
    line s' = raws "ab" /\ cursor s' = 1 /\ out s' <> out s.
Proof.
  split; [reflexivity|]. split.
  - repeat constructor; try discriminate; intros [H|[H|H]]; discriminate.
  - split; [do 3 eexists; split; [vm_compute; reflexivity|]; split; vm_compute; reflexivity|].
    do 2 eexists. split; [vm_compute; reflexivity|]. split; [vm_compute; reflexivity|]. split; [vm_compute; reflexivity|]. split; [vm_compute; reflexivity|]. vm_compute. discriminate.
Qed.

(** * C18: incremental search *)
(** A character that is not a control character is added to the search text, and the
    newest entry containing the text is shown. *)
Theorem C18_typed : forall S k ss s x, ~ (0 <= first_rune k <= 31 \/ 127 <= first_rune k <= 159) ->
  step S (EKey k) (Running (MSearch ss) s) = Some x ->
  exists ss' s', x = Running (MSearch ss') s' /\ nothing_changed s s' /\
    search_shows (base S) (ss_str ss ++ encode_rune (first_rune k)) ss'.
Proof. exact SearchFacts.search_typed. Qed.
Print Assumptions C18_typed.
Theorem C18_backspace : forall S k ss s x, k = [8] \/ k = [127] ->
  step S (EKey k) (Running (MSearch ss) s) = Some x ->
  exists ss' s', x = Running (MSearch ss') s' /\ nothing_changed s s' /\
    search_shows (base S) (encode (removelast (runes (ss_str ss)))) ss'.
Proof. exact SearchFacts.search_backspace. Qed.
Print Assumptions C18_backspace.
Theorem C18_ctrl_r : forall S ss s x, scripted S -> reached S (Running (MSearch ss) s) ->
  step S (EKey [18]) (Running (MSearch ss) s) = Some x ->
  exists ss' s', x = Running (MSearch ss') s' /\ nothing_changed s s' /\ search_goes_older (base S) ss ss'.
Proof. exact SearchFacts.search_ctrl_r. Qed.
Print Assumptions C18_ctrl_r.
Theorem C18_ctrl_s : forall S ss s x, scripted S -> reached S (Running (MSearch ss) s) ->
  step S (EKey [19]) (Running (MSearch ss) s) = Some x ->
  exists ss' s', x = Running (MSearch ss') s' /\ nothing_changed s s' /\ search_goes_newer (base S) ss ss'.
Proof. exact SearchFacts.search_ctrl_s. Qed.
Print Assumptions C18_ctrl_s.
Theorem C18_enter : forall S ss s x, step S (EKey [13]) (Running (MSearch ss) s) = Some x ->
  exists s', x = Running MNormal s' /\ at_split s' (split (cE (base S)) (ss_found ss)) [] /\
    history_untouched s s' /\ clip s' = clip s /\ pending s' = pending s.
Proof. exact SearchFacts.search_enter. Qed.
Print Assumptions C18_enter.
(** Every other control character is ignored. *)
Theorem C18_ignored : forall S k ss s x, 0 <= first_rune k <= 31 \/ 127 <= first_rune k <= 159 ->
  ~ In k [[8]; [127]; [13]; [3]; [7]; [27]; [18]; [19]] -> step S (EKey k) (Running (MSearch ss) s) = Some x ->
  exists s', x = Running (MSearch ss) s' /\ nothing_changed s s'.
Proof. exact SearchFacts.search_ignored. Qed.
Print Assumptions C18_ignored.
(** A search begins with no text and no entry, before the newest one. *)
Theorem C18_begin : forall S k s x, bound S k CISearchBackward -> step S (EKey k) (Running MNormal s) = Some x ->
  exists s', x = Running (MSearch (mkSearch [] [] (zlen (hist (base S)) - 1))) s' /\ nothing_changed s s'.
Proof. exact SearchFacts.search_begin. Qed.
Print Assumptions C18_begin.
Definition searching (x : option sess) : option (str * str * Z) :=
  match x with Some (Running (MSearch ss) _) => Some (ss_str ss, ss_found ss, ss_pos ss) | _ => None end.
Example C18_case : let go es := searching (readline S_off [] 0 80 None (key 18 :: es)) in
  go (keys "A") = Some (s2l "A", s2l "make install", 2) /\
  go (keys "A" ++ [key 18]) = Some (s2l "A", s2l "cat readme", 1) /\
  go (keys "A" ++ [key 18; key 18]) = Some (s2l "A", s2l "make install", 2) /\
  go (keys "A" ++ [key 18; key 19]) = Some (s2l "A", s2l "make install", 2) /\
  go (keys "A " ++ [key 8]) = Some (s2l "A", s2l "make install", 2) /\
  go (keys "zz") = Some (s2l "zz", [], 2) /\
  text_of (readline S_off (s2l "old") 1 80 None (key 18 :: keys "rea" ++ [key 13])) = Some (s2l "cat readme").
Proof. vm_compute. repeat split. Qed.
(** Ctrl-R as the first key of a search does not show the newest entry but the one before. *)
Theorem C18_first_ctrl_r : exists S x, searching (readline S [] 0 80 None [key 18; key 18]) = Some ([], x, 1) /\
  ~ newest (occurs_in (base S) []) (hist (base S)) x.
Proof.
  exists S_off, (s2l "cat readme"). split; [vm_compute; reflexivity|]. intros (h1 & h2 & Hh & _ & Hf).
  assert (Hin : In (s2l "make install") h2).
  { destruct h1 as [|a [|b [|c [|]]]]; cbn in Hh; injection Hh; intros; subst; try discriminate. now left. }
  rewrite Forall_forall in Hf. apply (Hf _ Hin). exists [], (ascii_upper (s2l "make install")). reflexivity.
Qed.
Print Assumptions C18_first_ctrl_r.

(** * C20: prediction *)
(** The history predictor's answer, appended to the text, is the newest entry that begins
    with it (empty if there is none). *)
Theorem C20_by_history : forall h t cur,
  newest (fun x => exists u, x = t ++ u) h (t ++ predictByHistory h t cur) \/
  (Forall (fun x => ~ (exists u, x = t ++ u)) h /\ predictByHistory h t cur = []).
Proof. exact SearchFacts.predict_by_history. Qed.
Print Assumptions C20_by_history.
(** The prediction held is the predictor's answer for the present line, as long as the
    commands used are those that ask the predictor again. *)
Theorem C20_current_partial : forall S, pcolor0 (base S) <> [] ->
  (forall t i j, predictor (base S) t i = predictor (base S) t j) ->
  forall d cur w cl es m s, only_builtin S -> Forall (refreshing_event S) es ->
  readline S d cur w cl es = Some (Running m s) -> prediction_current (base S) s.
Proof. exact PredictFacts.prediction_kept. Qed.
Print Assumptions C20_current_partial.
(** FORWARD_CHAR at the end of the line then makes the line equal to that entry. *)
Theorem C20_accept_partial : forall S s s' r, exec (base S) CForwardChar s = Some (s', r) ->
  prediction_current (base S) s -> predictor (base S) = predictByHistory (hist (base S)) ->
  cursor s = zlen (line s) -> line s <> [] ->
  (exists e u, newest (fun x => exists v, x = written (line s) ++ v) (hist (base S)) e /\ e = written (line s) ++ u /\
     at_split s' (line s ++ split (cE (base S)) u) [] /\ (survives (cE (base S)) u -> written (line s') = e)) \/
  (Forall (fun x => ~ (exists v, x = written (line s) ++ v)) (hist (base S)) /\ at_split s' (line s) []).
Proof. exact SessProps.accept_prediction. Qed.
Print Assumptions C20_accept_partial.
(** With prediction off there is never anything to accept. *)
Theorem C20_off : forall S, pcolor0 (base S) = [] -> forall s s' r p, scripted S -> reached S (Running MNormal s) ->
  exec (base S) CForwardChar s = Some (s', r) -> at_split s p [] -> s' = s.
Proof. exact PredictFacts.forward_off. Qed.
Print Assumptions C20_off.
Example C20_case :
  pcolor0 (base S_pred) <> [] /\ (forall t i j, predictor (base S_pred) t i = predictor (base S_pred) t j) /\
  Forall (refreshing_event S_pred) (keys "cat" ++ [key 2; key 5]) /\
  (exists s, after_keys S_pred (keys "cat" ++ [key 2; key 5]) = Some s /\ predicted s = raws " readme" /\ line s <> []) /\
  text_of (readline S_pred [] 0 80 None (keys "ca" ++ [key 6])) = Some (s2l "cat readme") /\
  text_of (readline S_off [] 0 80 None (keys "ca" ++ [key 6])) = Some (s2l "ca").
Proof.
  split; [discriminate|]. split; [reflexivity|]. split.
  - repeat constructor; cbn; intros c <-; reflexivity.
  - split; [eexists; split; [vm_compute; reflexivity|]; split; [vm_compute; reflexivity|vm_compute; discriminate]|]. split; vm_compute; reflexivity.
Qed.
(** KILL_WHOLE_LINE leaves the old prediction behind: after ESC the line is empty, yet
    FORWARD_CHAR inserts the rest of an entry that has nothing to do with it. *)
Theorem C20_refuted : exists S es t, only_builtin S /\ predictor (base S) = predictByHistory (hist (base S)) /\
  text_of (readline S [] 0 80 None es) = Some [] /\ text_of (readline S [] 0 80 None (es ++ [key 6])) = Some t /\
  t <> [] /\ ~ In t (hist (base S)).
Proof.
  exists S_pred, (keys "cat" ++ [key 27]), (s2l " readme"). split; [exact builtin_pred|]. split; [reflexivity|].
  split; [vm_compute; reflexivity|]. split; [vm_compute; reflexivity|]. split; [discriminate|].
  intros [H|[H|[H|[]]]]; discriminate.
Qed.
Print Assumptions C20_refuted.

(** * C15: browsing the history *)
Theorem C15_previous : forall C s s' r, exec C CPreviousHistory s = Some (s', r) -> 0 < hptr s -> 0 < zlen (hist C) ->
  browsed C s s' (hptr s - 1).
Proof. exact HistFacts.previous_history. Qed.
Print Assumptions C15_previous.
Theorem C15_next : forall C s s' r, exec C CNextHistory s = Some (s', r) -> 0 <= hptr s < zlen (hist C) ->
  browsed C s s' (hptr s + 1).
Proof. exact HistFacts.next_history. Qed.
Print Assumptions C15_next.
Theorem C15_oldest : forall C s s' r, exec C CPreviousHistory s = Some (s', r) ->
  zlen (hist C) = 0 \/ (hptr s <= 0 /\ cycling C = false) -> s' = s.
Proof. exact HistFacts.previous_stop. Qed.
Print Assumptions C15_oldest.
Theorem C15_newest : forall C s s' r, exec C CNextHistory s = Some (s', r) ->
  zlen (hist C) <= hptr s \/ zlen (hist C) = 0 -> s' = s.
Proof. exact HistFacts.next_stop. Qed.
Print Assumptions C15_newest.
Theorem C15_wrap : forall C s s' r, exec C CPreviousHistory s = Some (s', r) -> hptr s = 0 -> cycling C = true ->
  0 < zlen (hist C) ->
  hptr s' = zlen (hist C) /\ at_split s' (split (cE C) (shown (hist C) s (zlen (hist C)))) [] /\
  clip s' = clip s /\ pending s' = pending s /\
  forall i, 0 <= i <= zlen (hist C) -> shown (hist C) s' i = shown (hist C) s i.
Proof. exact HistFacts.previous_wrap. Qed.
Print Assumptions C15_wrap.
Example C15_case : let at_ S es := match readline S [] 0 80 None es with
    | Some (Running _ s) => Some (buf_string s, cursor s, hptr s) | _ => None end in
  at_ S_off (keys "x" ++ [key 16]) = Some (s2l "make install", 12, 2) /\
  at_ S_off (keys "x" ++ [key 16; key 16]) = Some (s2l "cat readme", 10, 1) /\
  at_ S_off (keys "x" ++ [key 16; key 16; key 16; key 16]) = Some (s2l "ls -l", 5, 0) /\
  at_ S_off (keys "x" ++ [key 16; key 16; key 14]) = Some (s2l "make install", 12, 2) /\
  at_ S_off (keys "x" ++ [key 16; key 14; key 14]) = Some (s2l "x", 1, 3) /\
  at_ S_cyc (keys "x" ++ [key 16; key 16; key 16; key 16]) = Some (s2l "x", 1, 3).
Proof. vm_compute. repeat split. Qed.

(** * C16: edits to entries survive browsing *)
(** Leave a position with a step [e], be away for [es], come back with [e']: the line is
    what it was, cursor at the end.  The guards exclude the two cases where the code
    forgets (see C16_refuted). *)
Theorem C16_come_back_partial : forall S e m s m1 s1 es m2 s2 e' m3 s3, only_builtin S -> reached S (Running m s) ->
  no_stale_edit (hist (base S)) s ->
  ~ (hptr s = 0 /\ cycling (base S) = true /\ (exists k, e = EKey k /\ bound S k CPreviousHistory)) ->
  step S e (Running m s) = Some (Running m1 s1) -> hptr s1 <> hptr s ->
  (forall es1 es2 m0 s0, es = es1 ++ es2 -> run S es1 (Running m1 s1) = Some (Running m0 s0) -> hptr s0 <> hptr s) ->
  run S es (Running m1 s1) = Some (Running m2 s2) ->
  step S e' (Running m2 s2) = Some (Running m3 s3) -> hptr s3 = hptr s ->
  Forall (clean (cE (base S))) (line s) -> at_split s3 (line s) [].
Proof. exact SessProps.come_back_line. Qed.
Print Assumptions C16_come_back_partial.
(** The same without the last guard, as text split anew. *)
Theorem C16_come_back_text_partial : forall S e m s m1 s1 es m2 s2 e' m3 s3, only_builtin S -> reached S (Running m s) ->
  no_stale_edit (hist (base S)) s ->
  ~ (hptr s = 0 /\ cycling (base S) = true /\ (exists k, e = EKey k /\ bound S k CPreviousHistory)) ->
  step S e (Running m s) = Some (Running m1 s1) -> hptr s1 <> hptr s ->
  (forall es1 es2 m0 s0, es = es1 ++ es2 -> run S es1 (Running m1 s1) = Some (Running m0 s0) -> hptr s0 <> hptr s) ->
  run S es (Running m1 s1) = Some (Running m2 s2) ->
  step S e' (Running m2 s2) = Some (Running m3 s3) -> hptr s3 = hptr s ->
  at_split s3 (split (cE (base S)) (written (line s))) [].
Proof. exact HistFacts.come_back. Qed.
Print Assumptions C16_come_back_text_partial.
Example C16_case : let es := [key 1; key 4; key 16; key 120; key 14] in
  exists s s1 s2 s3, readline S_off [] 0 80 None (key 16 :: keys "x") = Some (Running MNormal s) /\
  no_stale_edit (hist (base S_off)) s /\ line s = raws "make installx" /\ Forall (clean E_off) (line s) /\
  step S_off (key 16) (Running MNormal s) = Some (Running MNormal s1) /\ hptr s1 <> hptr s /\
  (forall es1 es2 m0 s0, es = es1 ++ es2 -> run S_off es1 (Running MNormal s1) = Some (Running m0 s0) -> hptr s0 <> hptr s) /\
  run S_off es (Running MNormal s1) = Some (Running MNormal s2) /\ line s2 = raws "at readme" /\
  step S_off (key 14) (Running MNormal s2) = Some (Running MNormal s3) /\ hptr s3 = hptr s.
Proof.
  do 4 eexists. split; [vm_compute; reflexivity|]. split; [left; vm_compute; reflexivity|]. split; [vm_compute; reflexivity|].
  split; [vm_compute; repeat constructor|]. split; [vm_compute; reflexivity|]. split; [vm_compute; discriminate|]. split.
  - intros es1 es2 m0 s0 He Hr.
    assert (Hp : es1 = firstn (List.length es1) [key 1; key 4; key 16; key 120; key 14])
      by (rewrite He, firstn_app, Nat.sub_diag, firstn_all; cbn; now rewrite app_nil_r).
    assert (Hl : (List.length es1 <= 5)%nat) by (apply (f_equal (@List.length event)) in He; rewrite app_length in He; cbn in He; lia).
    rewrite Hp in Hr. clear He Hp. destruct (List.length es1) as [|[|[|[|[|[|n]]]]]]; [..|lia];
      vm_compute in Hr; injection Hr as <- <-; vm_compute; discriminate.
  - split; [vm_compute; reflexivity|]. split; [vm_compute; reflexivity|]. split; vm_compute; reflexivity.
Qed.
(** Changing an edited entry back to its original text does not stick: the older edit
    comes back.  With HistoryCycling an edit to the oldest entry is lost when
    PREVIOUS_HISTORY wraps round. *)
Theorem C16_refuted :
  (exists es, let st es := match readline S_off [] 0 80 None es with Some (Running _ s) => Some (buf_string s, hptr s) | _ => None end in
     st es = Some (s2l "make install", 2) /\ st (es ++ [key 16; key 14]) = Some (s2l "make installx", 2)) /\
  (exists es, let st es := match readline S_cyc [] 0 80 None es with Some (Running _ s) => Some (buf_string s, hptr s) | _ => None end in
     st es = Some (s2l "ls -lx", 0) /\ st (es ++ [key 16; key 16; key 16; key 16]) = Some (s2l "ls -l", 0)).
Proof.
  split; [exists ([key 16] ++ keys "x" ++ [key 16; key 14; key 127])|exists ([key 16; key 16; key 16] ++ keys "x")];
    cbv zeta; split; vm_compute; reflexivity.
Qed.
Print Assumptions C16_refuted.

(** * C43: joined characters typed piece by piece *)
Theorem C43_typed_partial : forall S base0 l s y p q, valid_rune base0 = true -> joins (cE (base S)) base0 = false ->
  Forall (piece_ok (cE (base S))) l -> Forall (unbound S) (map encode_rune (joined_runes base0 l)) ->
  at_split s p q -> pending s = [] ->
  run S (map EKey (map encode_rune (joined_runes base0 l))) (Running MNormal s) = Some y ->
  exists s', y = Running MNormal s' /\
    at_split s' (p ++ split (cE (base S)) (encode (joined_runes base0 l))) q /\
    pending s' = [] /\ clip s' = clip s /\ history_untouched s s' /\
    List.length (split (cE (base S)) (encode (joined_runes base0 l))) = 1%nat.
Proof. exact JoinFacts.typed_joined. Qed.
Print Assumptions C43_typed_partial.
Definition family : list piece := [Attach 65039; Join 8205 128105; Attach 127995; Join 8205 128103].
Example C43_case : let rs := joined_runes 128104 family in
  valid_rune 128104 = true /\ joins E_on 128104 = false /\ Forall (piece_ok E_on) family /\
  Forall (unbound S_on) (map encode_rune rs) /\
  (exists s s', readline S_on (s2l "ab") 1 80 None [] = Some (Running MNormal s) /\ at_split s (raws "a") (raws "b") /\ pending s = [] /\
    run S_on (map EKey (map encode_rune rs)) (Running MNormal s) = Some (Running MNormal s') /\
    zlen (line s') = 3 /\ written (line s') = s2l "a" ++ encode rs ++ s2l "b").
Proof.
  split; [reflexivity|]. split; [reflexivity|]. split.
  - unfold family. repeat constructor; discriminate.
  - split; [repeat constructor|]. do 2 eexists. split; [vm_compute; reflexivity|]. split; [split; vm_compute; reflexivity|].
    split; [vm_compute; reflexivity|]. split; [vm_compute; reflexivity|]. split; vm_compute; reflexivity.
Qed.
(** A sequence that stops at the joiner loses its base character: typing U+1F468, U+200D
    and Enter returns the empty string. *)
Theorem C43_refuted : exists S ks s, Forall (unbound S) ks /\ List.concat ks = encode [128104; 8205] /\
  readline S [] 0 80 None (map EKey ks ++ [EKey [13]]) = Some (Finished s [] RNil).
Proof.
  exists S_on, [encode [128104]; encode [8205]]. eexists. split; [repeat constructor|]. split; [reflexivity|]. vm_compute. reflexivity.
Qed.
Print Assumptions C43_refuted.
