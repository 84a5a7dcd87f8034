(** C25: the width of prompts. *)
From Verif Require Import Base Utf8 Moji Color Prompt Buffer Commands KeyMap Session Spec Sample SpecLib PromptFacts.

(** C25: a prompt of the stated form is written as it is, and its width is that of the
    characters seen on its last line. *)
Theorem C25_width : forall E ps, Forall piece_ok ps -> ~ In 9 (visible ps) ->
  callPromptWriter E (Some (flat_map piece_bytes ps))
  = (flat_map piece_bytes ps, total_width E (StringToMoji E (encode (visible ps)))).
Proof. exact prompt_sum. Qed.
Print Assumptions C25_width.
(** Without PromptWriter the prompt is a new line with "> ". *)
Theorem C25_default : forall E, callPromptWriter E None
  = (flat_map piece_bytes [PBreak 10; PText 62; PText 32], zlen (visible [PBreak 10; PText 62; PText 32])).
Proof. intros E. reflexivity. Qed.
Print Assumptions C25_default.
(** The forms left out matter: a title that is ended by ESC \ instead of BEL hides the rest
    of the prompt, and U+FFFD is not rubbed out by a backspace. *)
Theorem C25_forms_refuted :
  snd (callPromptWriter E_off (Some ([27; 93] ++ s2l "0;title" ++ [27; 92] ++ s2l "abc> "))) = 0 /\
  snd (callPromptWriter E_off (Some (encode [65533; 8; 97]))) = rw E_off 65533 + 1.
Proof. split; vm_compute; reflexivity. Qed.
Print Assumptions C25_forms_refuted.
(** A title, a first line, a coloured second line with a wide character and a correction. *)
Definition C25_prompt : list piece :=
  PTitle (s2l "0;home") :: map PText (s2l "/home") ++ [PBreak 10; PCsi (s2l "31;1") 109] ++ map PText [26085; 97; 98] ++ [PBack; PCsi [48] 109; PText 62].
Example C25_case : Forall piece_ok C25_prompt /\ ~ In 9 (visible C25_prompt) /\ visible C25_prompt = [26085; 97; 62] /\
  snd (callPromptWriter E_off (Some (flat_map piece_bytes C25_prompt))) = 4.
Proof.
  split; [|split; [vm_compute; intuition discriminate|split; vm_compute; reflexivity]].
  unfold C25_prompt. cbn. repeat constructor; cbn; try lia; try (intros [|]; lia); try (unfold letter; lia); intuition discriminate.
Qed.
