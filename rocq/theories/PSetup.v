(** C66: fields of Editor that are not set. *)
From Verif Require Import Base Utf8 Moji Color Prompt Buffer Commands KeyMap Session Setup SpecSetup Sample.
From Verif Require SetupFacts.

(** Init keeps every field that is set, gives the others their defaults (no history, standard
    output, the default terminal, one colour, predictions from the history), and makes Out
    lead to Writer unless Out is set. *)
Theorem C66_filled : forall e, let e' := Init e in
  filled [] (e_history e) (e_history e') /\ filled Stdout (e_writer e) (e_writer e') /\
  filled TtyDefault (e_tty e) (e_tty e') /\ filled monoChrome (e_coloring e) (e_coloring e') /\
  filled predictByHistory (e_predictor e) (e_predictor e') /\
  (forall o, e_out e = Some o -> e_out e' = Some o) /\
  (e_out e = None -> exists o w, e_out e' = Some o /\ e_writer e' = Some w /\ leads_to o w) /\
  e_keymap e' = e_keymap e /\ e_prompt e' = e_prompt e /\ e_default e' = e_default e /\ e_cursor e' = e_cursor e /\
  e_cycling e' = e_cycling e /\ e_pcolor e' = e_pcolor e.
Proof. exact SetupFacts.init_filled. Qed.
Print Assumptions C66_filled.
(** Calling it again changes nothing. *)
Theorem C66_again : forall e, Init (Init e) = Init e.
Proof. exact SetupFacts.init_again. Qed.
Print Assumptions C66_again.
(** ReadLine on an editor with fields missing is ReadLine with their defaults, and it never
    meets a nil field. *)
Theorem C66_readline : forall E upper gm e w cl es h col pr x,
  filled [] (e_history e) (Some h) -> filled monoChrome (e_coloring e) (Some col) -> filled predictByHistory (e_predictor e) (Some pr) ->
  readline (mkScfg (mkCfg E h (e_cycling e) (fst (e_pcolor e)) (snd (e_pcolor e)) (pr h) (e_prompt e) col upper) (e_keymap e) gm)
    (e_default e) (e_cursor e) w cl es = Some x ->
  ReadLine E upper gm e w cl es = Some (Init e, x).
Proof. exact SetupFacts.readline_filled. Qed.
Print Assumptions C66_readline.
(** The zero Editor, as in the README's first example. *)
Definition zero_editor : editor := mkEditor [] None None None None [] 0 None None false ([], []) None.
Example C66_case : exists s, ReadLine E_off ascii_upper GlobalKeyMap zero_editor 80 None (keys "hi" ++ [key 16; key 18; key 7; key 13]) = Some (Init zero_editor, Finished s (s2l "hi") RNil).
Proof. vm_compute. eexists. reflexivity. Qed.

(** Where the output goes: if Out is set to nil whenever Writer is set, each ReadLine writes
    to the Writer set last, standard output at first. *)
Theorem C66_output_partial : forall us, sets_both us ->
  exists before o, use_all (us ++ [CallReadLine]) (None, None) = before ++ [Some o] /\ leads_to o (last_writer us Stdout).
Proof. exact SetupFacts.output_latest. Qed.
Print Assumptions C66_output_partial.
Example C66_output_case : sets_both [CallInit; SetWriter (Some (WBufio 1)); SetOut None; CallReadLine; CallReadLine; SetWriter (Some (WOther 2)); SetOut None; CallInit] /\
  use_all [CallInit; SetWriter (Some (WBufio 1)); SetOut None; CallReadLine; CallReadLine; SetWriter (Some (WOther 2)); SetOut None; CallInit; CallReadLine] (None, None) =
    [Some (Theirs 1); Some (Theirs 1); Some (NewWriter (WOther 2))].
Proof.
  split; [|reflexivity]. split.
  - intros us1 w us2 H. do 8 (destruct us1 as [|? us1]; [injection H as H; try discriminate; subst; eexists; reflexivity|injection H as ? H]). destruct us1; discriminate.
  - intros o H. repeat (destruct H as [H|H]; [discriminate|]). exact H.
Qed.
(** Once Out is there, setting Writer alone has no effect for ever. *)
Theorem C66_first : forall us w o, (forall u, In u us -> exists x, u = SetWriter x \/ u = CallInit \/ u = CallReadLine) ->
  forall d, In d (use_all us (w, Some o)) -> d = Some o.
Proof. exact SetupFacts.output_first. Qed.
Print Assumptions C66_first.
(** So the second ReadLine does not write to the Writer set before it. *)
Theorem C66_output_refuted : ~ forall us, exists before o,
  use_all (us ++ [CallReadLine]) (None, None) = before ++ [Some o] /\ leads_to o (last_writer us Stdout).
Proof.
  intros H. destruct (H [CallReadLine; SetWriter (Some (WOther 1))]) as (before & o & H1 & H2). cbn in H1, H2. subst o.
  destruct before as [|a [|b before]]; [discriminate H1|discriminate H1|]. destruct before; discriminate H1.
Qed.
Print Assumptions C66_output_refuted.
