(** Specification: the terminals that are known by the environment (C64). *)
From Verif Require Import Base Utf8 Moji Color Prompt Buffer Commands KeyMap Session Spec SpecTabs.

(** What the terminals announce to the programs they run. *)
Definition windows_terminal (getenv : str -> str) : Prop :=
  getenv (s2l "WT_SESSION") <> [] /\ getenv (s2l "WT_PROFILE_ID") <> [] /\ getenv (s2l "VSCODE_PID") = [].
Definition wezterm (getenv : str -> str) : Prop := getenv (s2l "TERM_PROGRAM") = s2l "WezTerm".
Definition contour (getenv : str -> str) : Prop := getenv (s2l "TERMINAL_NAME") = s2l "contour".
Definition other_terminal (getenv : str -> str) : Prop := ~ windows_terminal getenv /\ ~ wezterm getenv /\ ~ contour getenv.

(** A width function in columns of a terminal: no character takes more than two. *)
Definition terminal_widths (wf : bool -> rune -> Z) : Prop := forall amb r, 0 <= wf amb r <= 2.

(** Any text, 800 characters of it at most. *)
Definition short_text (t : str) : Prop := zlen (runes t) <= 800.
Definition any_event (S : scfg) (e : event) : Prop :=
  match e with
  | EKey k => short_text k /\ forall k', LookupCommand (kmap S) (gmap S) k = CSelfInsert k' -> short_text k'
  | EKeyErr => True
  | EResize w => prompt_width (base S) + 11 < w
  | EClip c => forall t, c = Some t -> short_text t
  end.
