(** C01, C23: strings and editing units. *)
From Verif Require Import Base Utf8 Moji Spec Sample.
From Verif Require TextFacts MojiFacts.

(** C01, valid UTF-8.  Missing for the full claim: text with a zero-width joiner at its
    end or with U+200C while joiners are switched on, see the refutation below. *)
Theorem C01_roundtrip_valid_partial : forall E s, valid_utf8 s ->
  zwj_ok E = false \/ (~ In 8204 (runes s) /\ forall rs, runes s <> rs ++ [8205]) ->
  written (StringToMoji E s) = s.
Proof. exact TextFacts.written_valid. Qed.
Print Assumptions C01_roundtrip_valid_partial.

(** C01, arbitrary bytes. *)
Theorem C01_roundtrip_bytes_partial : forall E s,
  zwj_ok E = false \/ (~ In 8204 (runes s) /\ forall rs, runes s <> rs ++ [8205]) ->
  sanitized s (written (StringToMoji E s)).
Proof. exact TextFacts.written_off. Qed.
Print Assumptions C01_roundtrip_bytes_partial.

(** [sanitized] leaves no choice. *)
Theorem C01_sanitized_unique : forall s a, sanitized s a -> forall b, sanitized s b -> a = b.
Proof. exact TextFacts.sanitized_fun. Qed.
Print Assumptions C01_sanitized_unique.

(** C01, every byte string and every setting: nothing changes but undecodable bytes and
    joiners. *)
Theorem C01_changes_only_joiners : forall E s, exists t rs',
  sanitized s t /\ joiners_changed (runes t) rs' /\ written (StringToMoji E s) = encode rs'.
Proof. exact TextFacts.written_any. Qed.
Print Assumptions C01_changes_only_joiners.

(** C01, splitting again: holds without any condition. *)
Theorem C01_resplit : forall E s, StringToMoji E (written (StringToMoji E s)) = StringToMoji E s.
Proof. exact TextFacts.resplit. Qed.
Print Assumptions C01_resplit.

(** The unrestricted claim is false: U+200C (here after "a") is replaced by U+200D, and
    a joiner at the end gets a U+FFFD. *)
Theorem C01_roundtrip_refuted :
  (exists E s, valid_utf8 s /\ runes s = [97; 8204; 98] /\
     written (StringToMoji E s) = encode [97; 8205; 98] /\ written (StringToMoji E s) <> s) /\
  (exists E s, valid_utf8 s /\ runes s = [97; 8205] /\
     written (StringToMoji E s) = encode [97; 8205; 65533] /\ written (StringToMoji E s) <> s).
Proof.
  split.
  - exists E_on, (encode [97; 8204; 98]). split; [apply valid_utf8_encode; repeat constructor|].
    split; [reflexivity|]. split; [reflexivity|]. vm_compute. discriminate.
  - exists E_on, (encode [97; 8205]). split; [apply valid_utf8_encode; repeat constructor|].
    split; [reflexivity|]. split; [reflexivity|]. vm_compute. discriminate.
Qed.
Print Assumptions C01_roundtrip_refuted.

(** A family emoji (man, joiner, woman), a flag and a broken byte: the hypotheses hold
    with joiners on. *)
Example C01_case : let s := encode [128104; 8205; 128105; 32; 127471; 127477; 9] ++ [255] in
  (~ In 8204 (runes s) /\ forall rs, runes s <> rs ++ [8205]) /\
  List.length (StringToMoji E_on s) = 6%nat /\
  written (StringToMoji E_on s) = encode [128104; 8205; 128105; 32; 127471; 127477; 9; 65533].
Proof.
  cbv zeta. split; [split|split; vm_compute; reflexivity].
  - vm_compute. intuition discriminate.
  - intros rs H. apply (f_equal (fun l => last l 0)) in H. rewrite last_last in H. vm_compute in H. discriminate.
Qed.

(** C23, the count: no condition. *)
Theorem C23_count : forall E s,
  snd (MojiWidthAndCountInString E s) = Z.of_nat (List.length (StringToMoji E s)).
Proof. exact MojiFacts.MojiCount_len. Qed.
Print Assumptions C23_count.

(** C23, the width.  Missing: a tab somewhere after a joined character. *)
Theorem C23_width_partial : forall E s,
  (forall a b r, runes s = a ++ 9 :: b -> In r a -> joins E r = false) ->
  fst (MojiWidthAndCountInString E s) = total_width E (StringToMoji E s).
Proof. exact TextFacts.string_width. Qed.
Print Assumptions C23_width_partial.

Theorem C23_width_refuted : exists E s, valid_utf8 s /\
  fst (MojiWidthAndCountInString E s) <> total_width E (StringToMoji E s).
Proof.
  exists E_on, (encode [97; 8205; 98; 9]). split; [apply valid_utf8_encode; repeat constructor|].
  vm_compute. discriminate.
Qed.
Print Assumptions C23_width_refuted.

Example C23_case : let s := encode [97; 9; 98; 9; 128104; 8205; 128105; 99] in
  (forall a b r, runes s = a ++ 9 :: b -> In r a -> joins E_on r = false) /\
  fst (MojiWidthAndCountInString E_on s) = 14 /\ snd (MojiWidthAndCountInString E_on s) = 6.
Proof.
  cbv zeta. split; [|split; vm_compute; reflexivity]. intros a b r H Hr.
  assert (R : runes (encode [97; 9; 98; 9; 128104; 8205; 128105; 99]) = [97; 9; 98; 9; 128104; 8205; 128105; 99]) by reflexivity.
  rewrite R in H. clear R.
  destruct a as [|a0 [|a1 [|a2 [|a3 [|a4 [|a5 [|a6 [|a7 a]]]]]]]]; try discriminate;
    injection H as; subst; try (match goal with X : [] = _ ++ _ |- _ => now apply app_cons_not_nil in X end); cbn in Hr; intuition; subst; reflexivity.
Qed.
