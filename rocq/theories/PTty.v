(** C55: lines typed, pasted or typed ahead on a terminal.
    Statements use only Spec.v, SpecRepl.v, SpecTty.v and the model (Terminal.v, KeyInput.v,
    Session.v). *)
From Verif Require Import Base Utf8 Moji Buffer Commands KeyMap Session KeyInput Spec Repl SpecRepl Terminal SpecTty Sample ReplSample.
From Verif Require TtyFacts TtyErrFacts.

(** The default terminal (tty8.go).  The characters of the lines, each with its Enter, are
    there to be read; however Buffered divides them into bursts, as many calls of ReadLine
    as there are lines return exactly these lines, in order, and nothing is left over. *)
Theorem C55_default : forall S E ls bs ps h cur n, simple_over S E -> Forall (Forall (typed_char S E)) ls ->
  Forall (fit_place S E) ps -> List.length ps = List.length ls -> Forall (simple_text E) h -> 0 <= cur ->
  Forall (fun l => (List.length l < n)%nat) ls ->
  exists cur' m', serve next8 S n ps h cur (mkTty8 (mkXtty (map Some (typed_lines ls)) bs) []) = Some (h ++ map encode ls, cur', m') /\
    buf8 m' = [] /\ input (xt m') = [].
Proof. exact TtyFacts.paste8. Qed.
Print Assumptions C55_default.
(** The tty10 terminal, for reads that end between two characters. *)
Theorem C55_tty10_partial : forall S E ls bs ps h cur n, simple_over S E -> Forall (Forall (typed_char S E)) ls ->
  Forall (fit_place S E) ps -> List.length ps = List.length ls -> Forall (simple_text E) h -> 0 <= cur ->
  Forall (fun l => (List.length l < n)%nat) ls -> Forall (fun b => b <> []) bs -> List.concat bs = typed_lines ls ->
  exists cur', serve next10 S n ps h cur (mkTty10 [] (map (fun b => Some (encode b)) bs)) = Some (h ++ map encode ls, cur', mkTty10 [] []).
Proof. exact TtyFacts.paste10. Qed.
Print Assumptions C55_tty10_partial.
(** The pilot for tests, which presses Enter by itself when its text is used up. *)
Theorem C55_pilot : forall S E l p h cur n, simple_over S E -> Forall (typed_char S E) l -> fit_place S E p ->
  Forall (simple_text E) h -> 0 <= cur -> (List.length l < n)%nat ->
  exists cur', serve next_pilot S n [p] h cur (map encode_rune l) = Some (h ++ [encode l], cur', []).
Proof. exact TtyFacts.pilot_served. Qed.
Print Assumptions C55_pilot.
(** Every printable character that does not attach to its neighbour is a typed character,
    when the keys that are bound begin with control characters; those of the default key
    map do. *)
Theorem C55_printable : forall S E r, (forall h, control_keys (kmap (S h)) /\ control_keys (gmap (S h))) ->
  valid_rune r = true -> 32 <= r -> r <> 127 -> joins E r = false -> typed_char S E r.
Proof. exact TtyFacts.printable. Qed.
Print Assumptions C55_printable.
Theorem C55_global : control_keys GlobalKeyMap.
Proof. exact TtyFacts.global_control. Qed.
Print Assumptions C55_global.

Lemma loop_simple : simple_over S_loop E_off.
Proof.
  split; [reflexivity|reflexivity| |reflexivity|reflexivity]. intros h Hh. split; [apply (oc_builtin _ _ loop_over)|].
  split; [apply sane_off|]. split; [apply sample_rw8|]. split; [reflexivity|]. split; [reflexivity|]. split; [now left|exact Hh].
Qed.
Lemma loop_control h : control_keys (kmap (S_loop h)) /\ control_keys (gmap (S_loop h)).
Proof. split; [|exact TtyFacts.global_control]. repeat constructor; do 2 eexists; (split; [reflexivity|lia]). Qed.
Definition C55_lines : list (list rune) := [s2l "make"; []; [12354; 32; 120]].
Example C55_case : simple_over S_loop E_off /\ Forall (Forall (typed_char S_loop E_off)) C55_lines /\
  fit_place S_loop E_off (mkPlace [] 80 None) /\
  exists cur m, serve next8 S_loop 5 (repeat (mkPlace [] 80 None) 3) [s2l "ls"] 0
    (mkTty8 (mkXtty (map Some (typed_lines C55_lines)) [true; false; false; true; true; true; true; false]) [])
  = Some ([s2l "ls"; s2l "make"; []; encode [12354; 32; 120]], cur, m).
Proof.
  split; [exact loop_simple|]. split.
  { assert (G : forallb (forallb (fun r => valid_rune r && (32 <=? r) && negb (r =? 127) && negb (joins E_off r))) C55_lines = true) by reflexivity.
    apply Forall_forall. intros l Hl. apply Forall_forall. intros r Hr. rewrite forallb_forall in G. specialize (G l Hl).
    rewrite forallb_forall in G. specialize (G r Hr). rewrite !andb_true_iff, !negb_true_iff in G. destruct G as [[[G1 G2] G3] G4].
    apply TtyFacts.printable; [apply loop_control|exact G1|lia|lia|exact G4]. }
  split; [split; [reflexivity|]; split; [intros h; vm_compute; reflexivity|discriminate]|].
  do 2 eexists. vm_compute. reflexivity.
Qed.

(** A long line pasted into a tty10 terminal: a read takes at most 1024 bytes, so a
    character is divided, and its pieces come back as replacement characters. *)
Theorem C55_long_paste_refuted : exists l h cur m, Forall (typed_char S_loop E_off) l /\
  serve next10 S_loop 400 [mkPlace [] 80 None] [] 0 (mkTty10 [] (read_1024 2 (encode l ++ [13]))) = Some ([h], cur, m) /\
  reads m = [] /\ h <> encode l.
Proof.
  exists (repeat 12354 342). do 3 eexists. split.
  { apply Forall_forall. intros r Hr. apply repeat_spec in Hr as ->. apply TtyFacts.printable; [apply loop_control|reflexivity|lia|lia|reflexivity]. }
  split; [vm_compute; reflexivity|]. split; [reflexivity|]. vm_compute. discriminate.
Qed.
Print Assumptions C55_long_paste_refuted.

(** A terminal that fails.  Lines, the beginning [l] of another and then an error come from
    a tty10 terminal: all the lines are returned, and the next call of ReadLine returns the
    error, without text.  What comes after the error is left for the calls after that. *)
Theorem C55_tty10_error : forall S E ls l bs rest ps h cur n, simple_over S E -> Forall (Forall (typed_char S E)) ls -> Forall (typed_char S E) l ->
  Forall (fit_place S E) ps -> List.length ps = List.length ls -> Forall (simple_text E) h -> 0 <= cur ->
  Forall (fun l => (List.length l < n)%nat) ls -> (List.length l < n)%nat ->
  Forall (fun b => b <> []) bs -> List.concat bs = typed_lines ls ++ l ->
  exists cur' t1, serve next10 S n ps h cur (mkTty10 [] (map (fun b => Some (encode b)) bs ++ None :: rest)) = Some (h ++ map encode ls, cur', t1) /\
    next_call_fails next10 S E n (h ++ map encode ls) cur' t1 (eq (mkTty10 [] rest)).
Proof. exact TtyErrFacts.error10. Qed.
Print Assumptions C55_tty10_error.
(** The default terminal: the first [k] lines are returned, the call after them returns the
    error.  If nothing is read ahead, these are all the lines. *)
Theorem C55_default_error : forall S E ls l bs rest ps h cur n, simple_over S E -> Forall (Forall (typed_char S E)) ls -> Forall (typed_char S E) l ->
  Forall (fit_place S E) ps -> List.length ps = List.length ls -> Forall (simple_text E) h -> 0 <= cur ->
  Forall (fun l => (List.length l < n)%nat) ls -> (List.length l < n)%nat ->
  exists k cur' t1, (k <= List.length ls)%nat /\ (bs = [] -> k = List.length ls) /\
    serve next8 S n (firstn k ps) h cur (mkTty8 (mkXtty (map Some (typed_lines ls ++ l) ++ None :: rest) bs) []) = Some (h ++ map encode (firstn k ls), cur', t1) /\
    next_call_fails next8 S E n (h ++ map encode (firstn k ls)) cur' t1 (fun t' => buf8 t' = [] /\ input (xt t') = rest).
Proof. exact TtyErrFacts.error8. Qed.
Print Assumptions C55_default_error.
Definition C55_err8 : tty8 := mkTty8 (mkXtty (map Some (typed_lines [s2l "a"; s2l "b"] ++ s2l "c") ++ [None; Some 120]) [true; false]) [].
Definition C55_err10 : tty10 := mkTty10 [] [Some (s2l "a" ++ [13; 98]); Some [13]; Some (s2l "c"); None; Some (s2l "x")].
Definition call_end {T : Type} (x : option (sess * T)) : option (str * rerr * T) :=
  match x with Some (Finished _ t e, m) => Some (t, e, m) | _ => None end.
Definition then_call {T : Type} (next : T -> option (read * T)) (r : option (container * Z * T)) : option (str * rerr * T) :=
  match r with
  | Some (h, cur, t) => match start (S_loop h) [] cur 80 None with Some x0 => call_end (listen next (S_loop h) 9 x0 t) | None => None end
  | None => None
  end.
Example C55_error_case : Forall (Forall (typed_char S_loop E_off)) [s2l "a"; s2l "b"; s2l "c"] /\
  option_map (fun r => fst (fst r)) (serve next10 S_loop 5 (repeat (mkPlace [] 80 None) 2) [] 0 C55_err10) = Some [s2l "a"; s2l "b"] /\
  then_call next10 (serve next10 S_loop 5 (repeat (mkPlace [] 80 None) 2) [] 0 C55_err10) = Some ([], RKeyError, mkTty10 [] [Some (s2l "x")]) /\
  option_map (fun r => fst (fst r)) (serve next8 S_loop 5 (repeat (mkPlace [] 80 None) 2) [] 0 C55_err8) = Some [s2l "a"; s2l "b"] /\
  then_call next8 (serve next8 S_loop 5 (repeat (mkPlace [] 80 None) 2) [] 0 C55_err8) = Some ([], RKeyError, mkTty8 (mkXtty [Some 120] []) []).
Proof.
  split; [|repeat split; vm_compute; reflexivity].
  assert (G : forallb (forallb (fun r => valid_rune r && (32 <=? r) && negb (r =? 127) && negb (joins E_off r))) [s2l "a"; s2l "b"; s2l "c"] = true) by reflexivity.
  apply Forall_forall. intros l Hl. apply Forall_forall. intros r Hr. rewrite forallb_forall in G. specialize (G l Hl).
  rewrite forallb_forall in G. specialize (G r Hr). rewrite !andb_true_iff, !negb_true_iff in G. destruct G as [[[G1 G2] G3] G4].
  apply TtyFacts.printable; [apply loop_control|exact G1|lia|lia|exact G4].
Qed.
(** Keys of the default terminal that come in one burst are lost if the reading fails before
    the burst has ended, even a whole line with its Enter. *)
Theorem C55_burst_error_refuted : exists l bs x0 s m, Forall (typed_char S_loop E_off) l /\ start (S_loop []) [] 0 80 None = Some x0 /\
  listen next8 (S_loop []) 9 x0 (mkTty8 (mkXtty (map Some (typed_lines [l]) ++ [None]) bs) []) = Some (Finished s [] RKeyError, m) /\ l <> [].
Proof.
  exists (s2l "a"), [true; true]. do 3 eexists. split.
  { constructor; [|constructor]. apply TtyFacts.printable; [apply loop_control|reflexivity|vm_compute; discriminate|vm_compute; discriminate|reflexivity]. }
  split; [vm_compute; reflexivity|]. split; [vm_compute; reflexivity|]. discriminate.
Qed.
Print Assumptions C55_burst_error_refuted.
