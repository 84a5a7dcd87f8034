(** What the theorems about changing and failing prompts say (C57). *)
From Verif Require Import Base Utf8 Moji Color Prompt Buffer Commands KeyMap Session Spec SpecIndep Prompts.

(** The editor's own prompt stands for the widest one. *)
Definition not_wider (S : scfg) (p : option str) : Prop := prompt_width (base (with_prompt S p)) <= prompt_width (base S).
Definition first_not_wider (S : scfg) (f : first_prompt) : Prop :=
  match f with
  | Shown p => not_wider S p
  | Failed _ _ => 2 <= prompt_width (base S)
  end.
