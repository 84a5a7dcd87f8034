(** C03 for keys that are any bytes. *)
From Verif Require Import Base Utf8 Moji Color Prompt Buffer Commands KeyMap Session Spec SpecAnyKeys Sample.
From Verif Require AnyKeys.

(** The text returned when the keys are unbound and do not begin with a character that
    attaches to the one before (C43 covers those): the default text, cut at the cursor, and
    between its parts what each key puts there. *)
Theorem C03_any_partial : forall S d cur w cl ks kr x, 0 <= cur -> Forall (unbound S) ks ->
  Forall (fun k => joins (cE (base S)) (first_rune (key_text k)) = false) ks ->
  bound S kr CAcceptLine -> readline S d cur w cl (map EKey ks ++ [EKey kr]) = Some x ->
  exists s n ts, x = Finished s (written (firstn n (split (cE (base S)) d)) ++ List.concat ts ++ written (skipn n (split (cE (base S)) d))) RNil /\
    n = Z.to_nat (Z.min cur (zlen (split (cE (base S)) d))) /\ Forall2 (comes_back (cE (base S))) ks ts.
Proof. exact AnyKeys.any_returned. Qed.
Print Assumptions C03_any_partial.
(** The first two bytes of a character, ESC and a letter, and a letter. *)
Example C03_any_case : let ks := [[227; 129]; [27; 64]; [97]] in
  Forall (unbound S_off) ks /\ Forall (fun k => joins (cE (base S_off)) (first_rune (key_text k)) = false) ks /\ bound S_off [13] CAcceptLine /\
  text_of (readline S_off (s2l "()") 1 40 None (map EKey ks ++ [EKey [13]])) = Some (s2l "(" ++ encode [65533; 65533; 64; 97] ++ s2l ")").
Proof. split; [repeat constructor|]. split; [repeat constructor|]. split; [reflexivity|vm_compute; reflexivity]. Qed.
