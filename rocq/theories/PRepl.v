(** C54: the lines of earlier calls come back.
    Statements use only Spec.v, SpecRepl.v and the model (Repl.v, Session.v). *)
From Verif Require Import Base Utf8 Moji Buffer Commands KeyMap Session Spec Repl SpecRepl Sample ReplSample ReplFacts.

(** After any editing that does not browse, any sequence of PREVIOUS_HISTORY and
    NEXT_HISTORY keys leads to the position it should, and shows what belongs there: the
    entry of the history, or the line that was being typed. *)
Theorem C54_browse : forall S d cur w cl es s ks ms x, only_builtin S -> no_browsing S es ->
  readline S d cur w cl es = Some (Running MNormal s) ->
  browsing_keys S ks ms -> run S (map EKey ks) (Running MNormal s) = Some x ->
  exists s' p, x = Running MNormal s' /\
    p = walk (cycling (base S)) (List.length (hist (base S))) ms (List.length (hist (base S))) /\
    (p <= List.length (hist (base S)))%nat /\
    ((p < List.length (hist (base S)))%nat -> at_split s' (split (cE (base S)) (nth p (hist (base S)) [])) []) /\
    (p = List.length (hist (base S)) -> line s' = line s \/ at_split s' (split (cE (base S)) (written (line s))) []) /\
    (p = List.length (hist (base S)) -> Forall (clean (cE (base S))) (line s) -> line s' = line s).
Proof. exact ReplFacts.browse_spec. Qed.
Print Assumptions C54_browse.

(** A program calls ReadLine again and again and adds each line to its history.  The line
    entered at turn [t], with [ts] turns after it, is what one more PREVIOUS_HISTORY than
    there are turns in [ts] shows, whatever the turns before and after did. *)
Theorem C54_recall : forall S E t ts h cur s text h' cur' d w cl es sd ks x, over_container S E ->
  readline (S h) (t_default t) cur (t_width t) (t_clip t) (t_events t) = Some (Finished s text RNil) ->
  repl S (t :: ts) h cur = Some (h', cur') ->
  no_browsing (S h') es -> readline (S h') d cur' w cl es = Some (Running MNormal sd) ->
  Forall (fun k => bound (S h') k CPreviousHistory) ks -> List.length ks = Datatypes.S (List.length ts) ->
  run (S h') (map EKey ks) (Running MNormal sd) = Some x ->
  exists s', x = Running MNormal s' /\ at_split s' (split E text) [].
Proof. exact ReplFacts.recall. Qed.
Print Assumptions C54_recall.
(** And Enter returns it again, byte for byte. *)
Theorem C54_reenter : forall S E t ts h cur s text h' cur' d w cl es sd ks kr x, over_container S E ->
  readline (S h) (t_default t) cur (t_width t) (t_clip t) (t_events t) = Some (Finished s text RNil) ->
  repl S (t :: ts) h cur = Some (h', cur') ->
  no_browsing (S h') es -> readline (S h') d cur' w cl es = Some (Running MNormal sd) ->
  Forall (fun k => bound (S h') k CPreviousHistory) ks -> List.length ks = Datatypes.S (List.length ts) ->
  bound (S h') kr CAcceptLine -> Forall (clean E) (line s) ->
  run (S h') (map EKey ks ++ [EKey kr]) (Running MNormal sd) = Some x ->
  exists s', x = Finished s' text RNil.
Proof. exact ReplFacts.reenter. Qed.
Print Assumptions C54_reenter.

(** The program of examples/example3.go, whose browsing keys are Ctrl-E and Ctrl-X. *)
Example C54_case : over_container S_loop E_off /\
  exists h cur s sd, repl S_loop three newContainer 0 = Some (h, cur) /\ h = [s2l "make"; s2l "cat readme"; s2l "ls -l"] /\
  readline (S_loop [s2l "make"]) [] 4 80 None (keys "cat readme" ++ [key 13]) = Some (Finished s (s2l "cat readme") RNil) /\
  Forall (clean E_off) (line s) /\ no_browsing (S_loop h) (keys "x") /\
  readline (S_loop h) [] cur 80 None (keys "x") = Some (Running MNormal sd) /\
  bound (S_loop h) [5] CPreviousHistory /\ bound (S_loop h) [24] CNextHistory /\ bound (S_loop h) [13] CAcceptLine /\
  (exists s', run (S_loop h) [key 5; key 5; key 13] (Running MNormal sd) = Some (Finished s' (s2l "cat readme") RNil)) /\
  (exists s', run (S_loop h) [key 5; key 5; key 24; key 5; key 5; key 5; key 24] (Running MNormal sd) = Some (Running MNormal s') /\
     line s' = raws "cat readme") /\
  (exists s', run (S_loop h) [key 5; key 5; key 24; key 24; key 24] (Running MNormal sd) = Some (Running MNormal s') /\ line s' = raws "x").
Proof.
  split; [exact loop_over|]. do 4 eexists. split; [vm_compute; reflexivity|]. split; [reflexivity|].
  split; [vm_compute; reflexivity|]. split; [vm_compute; repeat constructor|]. split.
  { constructor; [|constructor]. intros k m H. injection H as <-. destruct m; vm_compute; discriminate. }
  split; [vm_compute; reflexivity|]. repeat (split; [reflexivity|]).
  split; [|split]; eexists; [vm_compute; reflexivity|split; vm_compute; reflexivity..].
Qed.

(** One thing does carry over from call to call: Editor.Cursor is where the last call left
    it, so the same Default with the same keys can give another line in a later call. *)
Theorem C54_same_start_refuted : exists S t h cur, over_container S E_off /\
  repl S [t; t] [] 4 = Some (h, cur) /\ h = [s2l "makex"; s2l "mxake"].
Proof.
  exists S_loop, (mkTurn (s2l "make") 80 None (keys "x" ++ [key 19; key 19; key 19; key 19; key 13])). do 2 eexists.
  split; [exact loop_over|]. split; vm_compute; reflexivity.
Qed.
Print Assumptions C54_same_start_refuted.
