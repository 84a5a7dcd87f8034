(** C67: the example programs example2.go and example160.go. *)
From Verif Require Import Base Utf8 Moji Color Prompt Buffer Commands KeyMap Session Spec Repl Shell SpecShell Sample.
From Verif Require ShellFacts.

(** The tiny shell runs each line it is given as the words of the line, in order, and adds it
    to the history; it neither runs nor adds a line without words, and stops at the first
    error.  Each call of ReadLine sees the history as the calls before have left it. *)
Theorem C67_shell : forall S turns h cur done h', shell S turns h cur = Some (done, h') ->
  exists recorded, h' = h ++ recorded /\ done_right done recorded /\ answers S turns h cur (entered done).
Proof. exact ShellFacts.shell_right. Qed.
Print Assumptions C67_shell.
(** Three lines (one of them blank), the last with the history key, then Ctrl-D. *)
Definition shell_editor (h : container) : scfg :=
  mkScfg (mkCfg E_off h true (s2l "") [] (predictByHistory h) (Some (s2l "$ ")) VimBatch ascii_upper) [] GlobalKeyMap.
Example C67_case : shell shell_editor
    (map (mkTurn [] 80 None) [keys " ls  -l " ++ [key 13]; keys "  " ++ [key 13]; [key 16; key 13]; [key 4]; keys "never" ++ [key 13]]) [s2l "cd"] 0
  = Some ([Entered (s2l " ls  -l "); Ran [s2l "ls"; s2l "-l"]; Entered (s2l "  "); Entered (s2l " ls  -l "); Ran [s2l "ls"; s2l "-l"]],
          [s2l "cd"; s2l " ls  -l "; s2l " ls  -l "]).
Proof. vm_compute. reflexivity. Qed.

(** The predictor of example160.go continues the line as the newest line of the history that
    begins like it, whatever blanks there are at their ends. *)
Theorem C67_predict : forall h text k, continues_newest h text (predictTrimmed h text k).
Proof. exact ShellFacts.predict_right. Qed.
Print Assumptions C67_predict.
Example C67_predict_case : predictTrimmed [s2l "git log"; s2l "  git status "; s2l "ls"] (s2l " git") 4 = s2l " status".
Proof. reflexivity. Qed.

(** Accepting what it shows gives such a line, if the line does not end in a blank ... *)
Theorem C67_accept_partial : forall h text k b t, blanks b -> trimmed text t -> text = b ++ t -> predictTrimmed h text k <> [] ->
  exists e te, In e h /\ trimmed e te /\ trimmed (text ++ predictTrimmed h text k) te.
Proof. exact ShellFacts.predict_accept. Qed.
Print Assumptions C67_accept_partial.
(** ... but after a blank it is shown with another one in front: in an editor with this
    predictor, typing "git " and accepting (Ctrl-F) does not give the line of the history. *)
Definition editor160 : scfg :=
  mkScfg (mkCfg E_off [s2l "git status"] false (27 :: s2l "[3;22;34m") (27 :: s2l "[23;39m") (predictTrimmed [s2l "git status"]) None monoChrome ascii_upper) [] GlobalKeyMap.
Theorem C67_accept_refuted : exists text t, trimmed text t /\ text_of (readline editor160 [] 0 80 None (keys "git " ++ [key 6; key 13])) = Some text /\ t <> s2l "git status".
Proof.
  exists (s2l "git  status"), (s2l "git  status"). split; [apply (ShellFacts.TrimSpace_trimmed (s2l "git  status"))|]. split; [vm_compute; reflexivity|discriminate].
Qed.
Print Assumptions C67_accept_refuted.
Example C67_accept_case : text_of (readline editor160 [] 0 80 None (keys "git" ++ [key 6; key 13])) = Some (s2l "git status").
Proof. vm_compute. reflexivity. Qed.
