(** Command names (C50). *)
From Verif Require Import Base Utf8 Moji Color Prompt Buffer Commands KeyMap Names Session Spec SpecLib SpecNames Sample.
From Verif Require NameFacts.

(** * C50: a command obtained by name, in any spelling, does what its name says *)
Theorem C50_effect : forall up C name R a, In (name, R) (meaning C) -> ascii a -> same_name a name ->
  exists f, GetFunc up NameToFunc a = Some f /\ forall s s' r, exec C f s = Some (s', r) -> R s s' r.
Proof. exact NameFacts.named_effect. Qed.
Print Assumptions C50_effect.
(** A key that the application binds to a command obtained by name does, in every state of
    the editor, the same as each key the command has by default. *)
Theorem C50_default_key : forall up S name ks kn a, default_keys S -> In (name, ks) default_key -> In kn ks -> ascii a -> same_name a name ->
  exists f code, GetFunc up NameToFunc a = Some f /\ In (kn, code) NameToCode /\
    forall km k s, step (with_keys S (BindKey km k (Some f))) (EKey k) (Running MNormal s) = step S (EKey code) (Running MNormal s).
Proof. exact NameFacts.named_key. Qed.
Print Assumptions C50_default_key.
(** So the default keys do what the names say. *)
Theorem C50_key_effect : forall S name R ks kn, default_keys S -> In (name, R) (meaning (base S)) -> In (name, ks) default_key -> In kn ks ->
  exists f code, In (kn, code) NameToCode /\ bound S code f /\ forall s s' r, exec (base S) f s = Some (s', r) -> R s s' r.
Proof. exact NameFacts.key_effect. Qed.
Print Assumptions C50_key_effect.
(** No other name gives a command, and no other key has one by default. *)
Theorem C50_unknown : forall up a, ascii a -> (forall name, In name (map fst default_key) -> ~ same_name a name) ->
  GetFunc up NameToFunc a = None.
Proof. exact NameFacts.get_unknown. Qed.
Print Assumptions C50_unknown.
Theorem C50_other_keys : forall S k c, default_keys S -> bound S k c -> c <> CSelfInsert k -> (forall f, c <> CUser f) ->
  exists name ks kn, In (name, ks) default_key /\ In kn ks /\ In (kn, k) NameToCode.
Proof. exact NameFacts.other_keys. Qed.
Print Assumptions C50_other_keys.
Example C50_case : In (s2l "UNDO", [s2l "C_Z"; s2l "C_UNDERBAR"]) default_key /\ default_keys S_off /\ same_name (s2l "undo") (s2l "UNDO") /\
  (exists R, In (s2l "YANK", R) (meaning (base S_off))) /\
  (exists f, GetFunc ascii_up NameToFunc (s2l "backward-char") = Some f /\
     match readline (with_keys S_off (BindKey [] [24] (Some f))) [] 0 80 None (keys "ab" ++ [key 24]) with
     | Some (Running _ s) => at_split s (raws "a") (raws "b") | _ => False end).
Proof.
  split; [cbn; tauto|]. split; [split; reflexivity|]. 
  split; [repeat (constructor; [right; right; left; split; [split; vm_compute; discriminate|reflexivity]|]); constructor|].
  split; [eexists; unfold meaning; repeat (first [left; reflexivity|right])|].
  eexists. split; [vm_compute; reflexivity|]. vm_compute. auto.
Qed.
