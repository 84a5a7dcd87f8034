(** C56: ReadLine leaves the terminal tidy. *)
From Verif Require Import Base Utf8 Moji Color Prompt Buffer Commands KeyMap Session Spec SpecEtiq Sample.
From Verif Require EtiqFacts.

(** Whenever ReadLine waits for a key, whatever happened before, the text cursor is on, the
    colour is the colouring's default one, the look of predictions is off, and no line feed
    has been asked for. *)
Theorem C56_waiting : forall S m s, only_builtin S -> reached S (Running m s) -> tidy (base S) (out s) /\ line_feeds (out s) = [].
Proof. intros S m s HB. exact (EtiqFacts.tidy_running S HB m s). Qed.
Print Assumptions C56_waiting.

(** When it returns, with a line or with an error, the same holds; the line feed has been
    asked for once, with the result, or not at all after a read error. *)
Theorem C56_returned : forall S s t e, only_builtin S -> reached S (Finished s t e) -> tidy (base S) (out s) /\ line_feeds (out s) = line_feed_for e.
Proof. intros S s t e HB. exact (EtiqFacts.tidy_finished S HB s t e). Qed.
Print Assumptions C56_returned.

(** With colours and a prediction on the screen, then ENTER. *)
Example C56_case : exists s s', readline S_pred [] 0 80 (Some []) (keys "ma") = Some (Running MNormal s) /\
  existsb (fun t => match t with TAttr _ => true | _ => false end) (out s) = true /\
  readline S_pred [] 0 80 (Some []) (keys "ma" ++ [key 13]) = Some (Finished s' (s2l "ma") RNil) /\ line_feeds (out s') = [1].
Proof. vm_compute. do 2 eexists. repeat split. Qed.
