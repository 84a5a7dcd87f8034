(** Terminals for the examples of PEnv.v. *)
From Verif Require Import Base Utf8 Moji Color Prompt Buffer Commands KeyMap Session Spec Sample SpecEnv TermCheck.

(** A terminal is what the variables say; tables in the manner of Unicode. *)
Definition vars (l : list (string * string)) (name : str) : str :=
  match find (fun p => str_eqb (s2l (fst p)) name) l with Some p => s2l (snd p) | None => [] end.
Definition sample_print (r : rune) : bool := negb (in_range r 0 31 || in_range r 127 159 || in_range r 768 879 || in_range r 8203 8207 || in_range r 65024 65039).
Definition sample_kind (r : rune) : kind :=
  if r <? 128 then EastAsianNarrow else if in_range r 880 1279 then EastAsianAmbiguous else if in_range r 65377 65470 then EastAsianHalfwidth
  else if in_range r 65281 65376 then EastAsianFullwidth else if r <? 4352 then Neutral else EastAsianWide.
Definition xterm : str -> str := vars [("TERM", "xterm-256color")]%string.
Definition wt : str -> str := vars [("WT_SESSION", "0f4e"); ("WT_PROFILE_ID", "{61c5}")]%string.
(** Visual Studio Code started from Windows Terminal. *)
Definition code_in_wt : str -> str := vars [("VSCODE_PID", "4711"); ("WT_SESSION", "0f4e"); ("WT_PROFILE_ID", "{61c5}")]%string.
Definition E_of (g : str -> str) : env := detected g (newRuneWidth sample_print sample_kind) sample_vsme.
Definition S_of (g : str -> str) : scfg := mkScfg (cfg_of (E_of g)) [] GlobalKeyMap.
Lemma builtin_of g : only_builtin (S_of g).
Proof. exact builtin_off. Qed.
Lemma other_xterm : other_terminal xterm.
Proof. split; [|split]; [intros (H & _)|intros H|intros H]; vm_compute in H; congruence. Qed.
Lemma other_code : other_terminal code_in_wt.
Proof. split; [|split]; [intros (_ & _ & H)|intros H|intros H]; vm_compute in H; congruence. Qed.
