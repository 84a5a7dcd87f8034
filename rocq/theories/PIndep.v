(** C51: the outcome does not depend on the display. *)
From Verif Require Import Base Utf8 Moji Color Prompt Buffer Commands KeyMap Session Spec SpecIndep Sample TermSample IndepSample.
From Verif Require IndepFacts.

(** Two ReadLines with the same keys, texts and history, on terminals of different widths
    that are resized at different moments, with different prompts, colourings and character
    widths: what can be told apart from the picture is the same. *)
Theorem C51_same : forall S1 S2 default cur cl w1 w2 es1 es2 x1 x2, only_builtin S1 -> same_but_display S1 S2 ->
  without_resizes es1 = without_resizes es2 ->
  readline S1 default cur w1 cl es1 = Some x1 -> readline S2 default cur w2 cl es2 = Some x2 -> told x1 = told x2.
Proof. exact IndepFacts.readline_told. Qed.
Print Assumptions C51_same.

Example C51_case : same_but_display S_count S_plain /\ without_resizes indep_keys = without_resizes indep_keys2 /\
  match readline S_count [] 0 80 (Some (s2l "paste")) indep_keys, readline S_plain [] 0 30 (Some (s2l "paste")) indep_keys2 with
  | Some (Finished s1 t1 RNil), Some (Finished s2 t2 RNil) => t1 = s2l "ab pastez" ++ encode [769] /\ t2 = t1 /\ line s1 <> line s2
  | _, _ => False
  end.
Proof. split; [constructor; reflexivity|]. vm_compute. repeat split. discriminate. Qed.

(** With predictions the outcome can depend on the width of the terminal: FORWARD_WORD asks
    the predictor again only when it has to scroll. *)
Theorem C51_prediction_refuted : exists x1 x2, only_builtin S_cur /\
  readline S_cur (s2l "aaaaaaaaaa") 10 80 (Some []) [key 1; EKey [27; 102]; key 6; key 13] = Some x1 /\
  readline S_cur (s2l "aaaaaaaaaa") 10 12 (Some []) [key 1; EKey [27; 102]; key 6; key 13] = Some x2 /\ told x1 <> told x2.
Proof. exact width_matters. Qed.
Print Assumptions C51_prediction_refuted.
