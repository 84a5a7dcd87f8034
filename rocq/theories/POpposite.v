(** C76: keys that take each other back. *)
From Verif Require Import Base Utf8 Moji Color Prompt Buffer Commands KeyMap Session Spec Sample SpecOpposite.
From Verif Require OppositeFacts PWhole.

(** Typing characters and then as many BACKSPACEs leaves line, cursor, clipboard and history
    as they were, in every state with no half-typed joined character. *)
Theorem C76_backspace : forall S s rs kb x, 0 <= cursor s <= zlen (cells s) -> pending s = [] ->
  Forall (fun r => valid_rune r = true /\ typable S (encode_rune r)) rs -> bound S kb CBackwardDeleteChar ->
  run S (map EKey (map encode_rune rs) ++ presses kb (List.length rs)) (Running MNormal s) = Some x ->
  exists s', x = Running MNormal s' /\ as_before s s'.
Proof. exact OppositeFacts.chars_back. Qed.
Print Assumptions C76_backspace.
(** The same for keys of several characters: one BACKSPACE for each unit. *)
Theorem C76_backspace_units : forall S s ks kb x, 0 <= cursor s <= zlen (cells s) -> pending s = [] ->
  Forall (typable S) ks -> bound S kb CBackwardDeleteChar ->
  run S (map EKey ks ++ presses kb (List.length (flat_map (split (cE (base S))) ks))) (Running MNormal s) = Some x ->
  exists s', x = Running MNormal s' /\ as_before s s'.
Proof. exact OppositeFacts.type_back. Qed.
Print Assumptions C76_backspace_units.
(** [n] steps to the right and [n] to the left, and the other way round. *)
Theorem C76_right_left : forall S s kf kb n x, 0 <= cursor s -> cursor s + Z.of_nat n <= zlen (cells s) ->
  bound S kf CForwardChar -> bound S kb CBackwardChar ->
  run S (presses kf n ++ presses kb n) (Running MNormal s) = Some x -> exists s', x = Running MNormal s' /\ as_before s s'.
Proof. exact OppositeFacts.there_and_back. Qed.
Print Assumptions C76_right_left.
Theorem C76_left_right : forall S s kf kb n x, Z.of_nat n <= cursor s <= zlen (cells s) ->
  bound S kf CForwardChar -> bound S kb CBackwardChar ->
  run S (presses kb n ++ presses kf n) (Running MNormal s) = Some x -> exists s', x = Running MNormal s' /\ as_before s s'.
Proof. exact OppositeFacts.back_and_there. Qed.
Print Assumptions C76_left_right.
(** DELETE and typing the deleted character again: the line is the same, the cursor behind it. *)
Theorem C76_retype : forall S s kd k m q x, 0 <= cursor s -> pending s = [] -> bound S kd CDeleteChar -> typable S k ->
  skipn (Z.to_nat (cursor s)) (line s) = m :: q -> split (cE (base S)) k = [m] ->
  run S [EKey kd; EKey k] (Running MNormal s) = Some x ->
  exists s', x = Running MNormal s' /\ line s' = line s /\ cursor s' = cursor s + 1 /\ clip s' = clip s /\ history_untouched s s'.
Proof. exact OppositeFacts.delete_retype. Qed.
Print Assumptions C76_retype.
(** A character that attaches to the one before it is no character of its own: BACKSPACE takes
    both away. *)
Theorem C76_attached_refuted : exists S r1 r2 kb s t, valid_rune r1 = true /\ valid_rune r2 = true /\
  unbound S (encode_rune r1) /\ unbound S (encode_rune r2) /\ bound S kb CBackwardDeleteChar /\
  readline S [] 0 40 None (map EKey (map encode_rune [r1; r2]) ++ presses kb 1 ++ [key 13]) = Some (Finished s t RNil) /\ t <> encode_rune r1.
Proof. exact OppositeFacts.attached. Qed.
Print Assumptions C76_attached_refuted.

Definition C76_s : buf := PWhole.get (readline S_off (s2l "a-b") 2 40 None []).
Example C76_case : readline S_off (s2l "a-b") 2 40 None [] = Some (Running MNormal C76_s) /\
  cursor C76_s = 2 /\ zlen (cells C76_s) = 3 /\ pending C76_s = [] /\
  Forall (fun r => valid_rune r = true /\ typable S_off (encode_rune r)) [12354; 9; 120] /\
  skipn (Z.to_nat (cursor C76_s)) (line C76_s) = [MRaw 98] /\ split (cE (base S_off)) [98] = [MRaw 98] /\ typable S_off [98] /\
  bound S_off [8] CBackwardDeleteChar /\ bound S_off [6] CForwardChar /\ bound S_off [2] CBackwardChar /\ bound S_off [27; 91; 51; 126] CDeleteChar /\
  run S_off (map EKey (map encode_rune [12354; 9; 120]) ++ presses [8] 3) (Running MNormal C76_s) <> None /\
  run S_off (presses [2] 2 ++ presses [6] 2) (Running MNormal C76_s) <> None /\
  run S_off (presses [6] 1 ++ presses [2] 1) (Running MNormal C76_s) <> None /\
  text_of (run S_off [EKey [27; 91; 51; 126]; EKey [98]] (Running MNormal C76_s)) = Some (s2l "a-b").
Proof.
  do 4 (split; [vm_compute; reflexivity|]). split.
  { assert (H : Forall (typable S_off) (map encode_rune [12354; 9; 120])) by (apply typableb_ok; vm_compute; reflexivity).
    rewrite Forall_map in H. do 3 (apply Forall_cons_iff in H as [? H]). repeat (apply Forall_cons; [split; [reflexivity|assumption]|]). apply Forall_nil. }
  do 2 (split; [vm_compute; reflexivity|]). split.
  { assert (H : Forall (typable S_off) [[98]]) by (apply typableb_ok; vm_compute; reflexivity). now inversion H. }
  do 4 (split; [vm_compute; reflexivity|]). do 3 (split; [vm_compute; discriminate|]). vm_compute. reflexivity.
Qed.
