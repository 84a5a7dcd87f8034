(** C05, C06: UNDO. *)
From Verif Require Import SpecScript.
From Verif Require Import Base Utf8 Moji Color Prompt Buffer Commands KeyMap Session Spec Sample.
From Verif Require Import SpecTabs SpecUndo.
From Verif Require UndoFacts UndoSess UndoVia TabsSample.

(** * C05: UNDO takes back the last edit *)

(** For each editing command that changed the line, in every state a ReadLine can reach.
    Missing for the full claim: keys that attach to the character before the cursor
    (two edits), SWAPCHAR at the end of the line, a paste that follows a deletion at the
    same place (the two are taken back together), lines with a unit that begins with a
    joining code point; the refutations show that each exception is real. *)
Theorem C05_undo_partial : forall S m s p q c s1 r1 s2 r2, scripted S -> reached S (Running m s) ->
  at_split s p q -> Forall (clean (cE (base S))) (line s) -> undoable (cE (base S)) c s ->
  exec (base S) c s = Some (s1, r1) -> line s1 <> line s -> exec (base S) CUndo s1 = Some (s2, r2) ->
  line s2 = line s /\ undoes s2 = undoes s.
Proof. exact UndoFacts.undo_last. Qed.
Print Assumptions C05_undo_partial.

(** The hypotheses are met: a line with a family emoji, cursor in the middle; each of the
    commands below changes it and one UNDO restores it. *)
Definition C05_start : list event :=
  keys "ls  a" ++ map EKey (map encode_rune [128104; 8205; 128105]) ++ keys "cd" ++ [key 2; EClip (Some (s2l "xy"))].
Definition cleanb (E : env) (m : moji) : bool := negb (joins E (first_rune (write m))).
Definition undo_restores (c : cmd) (s : buf) : bool :=
  match exec (base S_on) c s with
  | Some (s1, _) =>
    negb (str_eqb (buf_string s1) (buf_string s)) &&
    match exec (base S_on) CUndo s1 with Some (s2, _) => str_eqb (buf_string s2) (buf_string s) | None => false end
  | None => false
  end.
Example C05_case : exists s p q, reached S_on (Running MNormal s) /\ at_split s p q /\ zlen p = 7 /\ zlen q = 1 /\
  forallb (cleanb E_on) (line s) = true /\
  undoable E_on CYank s /\ undoable E_on CSwapChar s /\ undoable E_on (CSelfInsert (s2l "z")) s /\
  forallb (fun c => undo_restores c s)
    [CSelfInsert (s2l "z"); CBackwardDeleteChar; CDeleteChar; CDeleteOrAbort; CKillLine; CKillWholeLine;
     CUnixWordRubout; CUnixLineDiscard; CSwapChar; CYank; CYankWithQuote] = true.
Proof.
  destruct (readline S_on [] 0 80 (Some []) C05_start) as [[m s|]|] eqn:H.
  2,3: exfalso; vm_compute in H; discriminate.
  exists s, (firstn 7 (line s)), (skipn 7 (line s)).
  assert (Hs : Some (Running m s) = readline S_on [] 0 80 (Some []) C05_start) by now symmetry.
  vm_compute in Hs. injection Hs as -> ->.
  split; [exists [], 0, 80, (Some []), C05_start; exact H|].
  split; [split; vm_compute; reflexivity|]. split; [vm_compute; reflexivity|]. split; [vm_compute; reflexivity|].
  split; [vm_compute; reflexivity|]. split; [|split; [vm_compute; reflexivity|split; [vm_compute; reflexivity|vm_compute; reflexivity]]].
  vm_compute. intros u rest [= <- <-] [_ H1]. discriminate H1.
Qed.

(** The exceptions: after the keys [es] the line is [t], one more key [k] changes it to
    [t1], and UNDO gives [t2] (or crashes). *)
Definition C05_breaks (S : scfg) (es : list event) (k : event) (t t1 : str) (t2 : option str) : Prop :=
  text_of (readline S [] 0 80 (Some []) es) = Some t /\
  text_of (readline S [] 0 80 (Some []) (es ++ [k])) = Some t1 /\
  text_of (readline S [] 0 80 (Some []) (es ++ [k; key 26])) = t2 /\ t1 <> t /\ t2 <> Some t.
(** a variation selector typed after a character: UNDO takes the character away as well; *)
Theorem C05_joiner_refuted : C05_breaks S_on (keys "ab") (EKey (encode_rune 65039)) (s2l "ab") (s2l "ab" ++ encode_rune 65039) (Some (s2l "a")).
Proof. repeat split; try (vm_compute; reflexivity); discriminate. Qed.
Print Assumptions C05_joiner_refuted.
(** a yank where a kill has just happened: UNDO takes back both; *)
Theorem C05_yank_refuted : C05_breaks S_off (keys "ab" ++ [key 1; key 11; EClip (Some (s2l "x"))]) (key 25) [] (s2l "x") (Some (s2l "ab")).
Proof. repeat split; try (vm_compute; reflexivity); discriminate. Qed.
Print Assumptions C05_yank_refuted.
(** SWAPCHAR at the end of the line: UNDO crashes; *)
Theorem C05_swap_refuted : C05_breaks S_off (keys "ab") (key 20) (s2l "ab") (s2l "ba") None.
Proof. repeat split; try (vm_compute; reflexivity); discriminate. Qed.
Print Assumptions C05_swap_refuted.
(** a line with a unit that begins with a joiner: deleting it together with its neighbour
    and undoing gives the same text as one unit instead of two. *)
Theorem C05_clean_refuted : exists es l l1 l2,
  option_map line (after_keys S_on es) = Some l /\
  option_map line (after_keys S_on (es ++ [key 21])) = Some l1 /\
  option_map line (after_keys S_on (es ++ [key 21; key 26])) = Some l2 /\ l1 <> l /\ l2 <> l /\ written l2 = written l.
Proof.
  exists ([EKey (encode_rune 65039); key 1] ++ keys "a" ++ [key 5]). do 3 eexists.
  split; [vm_compute; reflexivity|]. split; [vm_compute; reflexivity|]. split; [vm_compute; reflexivity|].
  split; [discriminate|]. split; [discriminate|]. vm_compute. reflexivity.
Qed.
Print Assumptions C05_clean_refuted.

(** * C06: UNDO walks back through the session *)

(** Every UNDO restores a line of the same ReadLine, always an earlier one than the UNDO
    before it, and from some point on it gives the empty line: there is a trail of former
    lines (newest first), as long as the undo stack, that UNDO follows.  Missing for the
    full claim: history browsing and keys that attach to the character before the cursor
    (these are edits in two steps; see the next theorem), SWAPCHAR at the end of the line
    (its record is wrong), lines with a unit that begins with a joining code point. *)
Theorem C06_trail_partial : forall S default cur w cl es m s, only_builtin S -> 0 <= cur ->
  Forall (single_piece S) es ->
  (forall es1 e es2 x, es = es1 ++ e :: es2 -> readline S default cur w cl es1 = Some x -> no_swap_at_end S e x) ->
  Forall (Forall (clean (cE (base S)))) (session_lines S default cur w cl es) ->
  readline S default cur w cl es = Some (Running m s) ->
  exists trail, List.length trail = List.length (undoes s) /\
    subseq (line s :: trail) (rev (session_lines S default cur w cl es)) /\
    forall k s', undo_times (base S) k s = Some s' -> line s' = nth k (line s :: trail) [].
Proof. exact UndoVia.undo_trail_swap. Qed.
Print Assumptions C06_trail_partial.

(** With every key: the trail may also stop halfway through an edit in two steps, that is,
    at the empty line of a history browsing and at the line without the unit an attaching
    key was to join. *)
Theorem C06_steps_partial : forall S default cur w cl es m s, only_builtin S -> 0 <= cur ->
  (forall es1 e es2 x, es = es1 ++ e :: es2 -> readline S default cur w cl es1 = Some x -> no_swap_at_end S e x) ->
  Forall (Forall (clean (cE (base S)))) (session_lines S default cur w cl es) ->
  readline S default cur w cl es = Some (Running m s) ->
  exists trail, List.length trail = List.length (undoes s) /\
    subseq (line s :: trail) (rev (session_steps S default cur w cl es)) /\
    forall k s', undo_times (base S) k s = Some s' -> line s' = nth k (line s :: trail) [].
Proof. exact UndoVia.undo_steps. Qed.
Print Assumptions C06_steps_partial.

(** Pressing the UNDO key once for each entry of the stack never fails and leaves the
    empty line and an empty stack, also when the history was browsed. *)
Theorem C06_unwinds_partial : forall S kz default cur w cl es s,
  simple_editor S -> simple_text (cE (base S)) default -> simple_clip (cE (base S)) cl ->
  Forall (simple_event S) es -> 0 <= cur -> prompt_width (base S) + 11 < w ->
  bound S kz CUndo -> simple_text (cE (base S)) kz ->
  readline S default cur w cl es = Some (Running MNormal s) ->
  exists s', readline S default cur w cl (es ++ repeat (EKey kz) (List.length (undoes s))) = Some (Running MNormal s') /\
    line s' = [] /\ undoes s' = [].
Proof. exact UndoSess.unwinds. Qed.
Print Assumptions C06_unwinds_partial.

Definition C06_events : list event :=
  keys "cd b" ++ map EKey (map encode_rune [12354; 128104]) ++ [key 1; key 11; key 25; key 23; key 26; key 25; key 18] ++ keys "re" ++ [key 13; key 17; key 7; key 127; key 21].
Definition single_pieceb (S : scfg) (e : event) : bool :=
  match e with
  | EKey k =>
    match LookupCommand (kmap S) (gmap S) k with
    | CPreviousHistory | CNextHistory => false
    | CSelfInsert k' => negb (joins (cE (base S)) (first_rune (key_text k')))
    | _ => true
    end && negb (joins (cE (base S)) (first_rune (key_text k)))
  | _ => true
  end.
Lemma single_pieceb_ok S es : forallb (single_pieceb S) es = true -> Forall (single_piece S) es.
Proof.
  intros H. apply Forall_forall. intros e He. rewrite forallb_forall in H. specialize (H e He). destruct e as [k| |w|c]; cbn; auto.
  cbn in H. apply andb_true_iff in H as [H1 H2]. apply negb_true_iff in H2. unfold bound.
  destruct (LookupCommand (kmap S) (gmap S) k) eqn:Hk; repeat split; try discriminate; try exact H2.
  intros k' [= ->]. now apply negb_true_iff.
Qed.
Lemma cleanb_ok E ls : forallb (forallb (cleanb E)) ls = true -> Forall (Forall (clean E)) ls.
Proof.
  intros H. apply Forall_forall. intros l Hl. apply Forall_forall. intros m Hm. rewrite forallb_forall in H. specialize (H l Hl).
  rewrite forallb_forall in H. now apply negb_true_iff, H.
Qed.
(** A session with typing, kill, yank, word rubout, UNDO, search, quoted insert and
    SWAPCHAR: UNDOs from its end go through these lines. *)
Definition C06_swapped : list event := C06_events ++ keys "ab" ++ [key 2; key 20].
Example C06_case : exists m s, Forall (single_piece S_on) C06_swapped /\
  (forall es1 e es2 x, C06_swapped = es1 ++ e :: es2 -> readline S_on (s2l "> ") 2 80 (Some []) es1 = Some x -> no_swap_at_end S_on e x) /\
  Forall (Forall (clean E_on)) (session_lines S_on (s2l "> ") 2 80 (Some []) C06_swapped) /\
  readline S_on (s2l "> ") 2 80 (Some []) C06_swapped = Some (Running m s) /\ List.length (undoes s) = 16%nat /\
  option_map buf_string (undo_times (base S_on) 0 s) = Some (s2l "ba") /\
  option_map buf_string (undo_times (base S_on) 1 s) = Some (s2l "ab") /\
  option_map buf_string (undo_times (base S_on) 6 s) = Some (s2l "cat readme") /\
  option_map buf_string (undo_times (base S_on) 9 s) = Some (s2l "> cd b" ++ encode [12354; 128104]) /\
  option_map buf_string (undo_times (base S_on) 16 s) = Some [].
Proof.
  do 2 eexists. split; [apply single_pieceb_ok; vm_compute; reflexivity|].
  split; [intros es1 e es2 x He Hx; eapply (TabsSample.along_read_ok S_on (s2l "> ") 2 80 (Some [])); [|exact He|exact Hx]; vm_compute; reflexivity|].
  split; [apply cleanb_ok; vm_compute; reflexivity|].
  split; [vm_compute; reflexivity|]. split; [vm_compute; reflexivity|]. split; [vm_compute; reflexivity|]. split; [vm_compute; reflexivity|].
  split; [vm_compute; reflexivity|]. split; vm_compute; reflexivity.
Qed.
(** With a skin tone that attaches to the character before it and history browsing: the
    UNDOs take the skin tone back in two steps and the browsing too. *)
Definition C06_browsed : list event := keys "ab" ++ map EKey (map encode_rune [128104; 127995]) ++ [key 16; key 2; key 2; key 20].
Example C06_steps_case : exists m s,
  (forall es1 e es2 x, C06_browsed = es1 ++ e :: es2 -> readline S_on [] 0 80 (Some []) es1 = Some x -> no_swap_at_end S_on e x) /\
  Forall (Forall (clean E_on)) (session_lines S_on [] 0 80 (Some []) C06_browsed) /\
  readline S_on [] 0 80 (Some []) C06_browsed = Some (Running m s) /\
  map (fun k => option_map buf_string (undo_times (base S_on) k s)) (seq 0 10) =
    map Some [s2l "make instlal"; s2l "make install"; []; s2l "ab" ++ encode [128104; 127995]; s2l "ab"; s2l "ab" ++ encode [128104]; s2l "ab"; s2l "a"; []; []].
Proof.
  do 2 eexists.
  split; [intros es1 e es2 x He Hx; eapply (TabsSample.along_read_ok S_on [] 0 80 (Some [])); [|exact He|exact Hx]; vm_compute; reflexivity|].
  split; [apply cleanb_ok; vm_compute; reflexivity|]. split; [vm_compute; reflexivity|]. vm_compute. reflexivity.
Qed.
Example C06_unwinds_case : let es := C06_events ++ [key 16; key 16; key 14] in
  Forall (simple_event S_on) es /\ bound S_on [26] CUndo /\ simple_text E_on [26] /\
  exists s, readline S_on (s2l "> ") 2 80 (Some []) es = Some (Running MNormal s) /\ List.length (undoes s) = 19%nat.
Proof.
  cbv zeta. split; [apply simple_eventb_ok; vm_compute; reflexivity|]. split; [reflexivity|]. split; [now apply simple_textb_ok|].
  eexists. split; [vm_compute; reflexivity|]. vm_compute. reflexivity.
Qed.

(** The exception: PREVIOUS_HISTORY leaves more entries on the undo stack than there were
    lines, so no such trail exists; UNDO gives the empty line, then the former line, then
    the empty line again. *)
Theorem C06_refuted : exists S default es m s, only_builtin S /\
  readline S default 0 80 None es = Some (Running m s) /\
  map (fun k => option_map buf_string (undo_times (base S) k s)) [1; 2; 3]%nat = [Some []; Some default; Some []] /\
  ~ exists trail, List.length trail = List.length (undoes s) /\
      subseq (line s :: trail) (rev (session_lines S default 0 80 None es)).
Proof.
  exists S_off, (s2l "ab"), [key 16]. do 2 eexists. split; [exact builtin_off|]. split; [vm_compute; reflexivity|].
  split; [vm_compute; reflexivity|]. intros (trail & Hl & Hs). apply UndoSess.sub_length in Hs.
  revert Hl Hs. cbn [List.length]. set (n := List.length trail). clearbody n. vm_compute. intros -> H. lia.
Qed.
Print Assumptions C06_refuted.
