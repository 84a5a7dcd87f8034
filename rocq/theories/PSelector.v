(** C44: the columns set aside for a character with a variation selector. *)
From Verif Require Import Base Utf8 Moji Color Prompt Buffer Commands KeyMap Session Spec SpecTerm TermSample.
From Verif Require SelectorFacts.

(** A character followed by a variation selector is one unit, one column wider than the
    character alone.  It is painted over that many spaces, with the cursor saved behind them,
    so that the columns do not depend on how wide the terminal draws it. *)
Theorem C44_selector : forall E a v, vs_ok E = true -> vsme E v = true -> v <> 8204 /\ v <> 8205 ->
  valid_rune a = true -> valid_rune v = true ->
  a <> 9 -> ~ 9472 <= a <= 9599 -> ~ 119808 <= a <= 120831 -> a <> 127987 ->
  exists u n, split E (encode [a; v]) = [u] /\ write u = encode [a; v] /\ width E u = n /\ n = total_width E (split E (encode [a])) + 1 /\
    print E u = Some (repeat 32 (Z.to_nat n) ++ [27; 55] ++ repeat 8 (Z.to_nat n) ++ encode [a; v] ++ [27; 56]).
Proof. exact SelectorFacts.selector_plain. Qed.
Print Assumptions C44_selector.
(** The white flag, which has two columns set aside anyway, keeps these. *)
Theorem C44_flag : forall E a v, vs_ok E = true -> vsme E v = true -> v <> 8204 /\ v <> 8205 ->
  valid_rune a = true -> valid_rune v = true ->
  a = 127987 -> rw E a <> 0 -> sur_ok E = true -> vsme E a = false ->
  exists u, split E (encode [a; v]) = [u] /\ write u = encode [a; v] /\ width E u = 2 /\
    print E u = Some ([32; 32; 27; 55; 8; 8] ++ encode [a; v] ++ [27; 56]).
Proof. exact SelectorFacts.selector_flag. Qed.
Print Assumptions C44_flag.
Example C44_selector_case : let E := E_term in
  vs_ok E = true /\ vsme E 65039 = true /\ valid_rune 9829 = true /\ valid_rune 65039 = true /\ total_width E (split E (encode [9829])) = 2 /\
  rw E 127987 <> 0 /\ sur_ok E = true /\ vsme E 127987 = false.
Proof.
  vm_compute. repeat split; try discriminate; reflexivity.
Qed.
