(** The editor of examples/example3.go over a container. *)
From Verif Require Import Base Utf8 Moji Color Prompt Buffer Commands KeyMap Session Spec Repl SpecRepl Sample.

(** examples/example3.go:17-35: the key bindings of main. *)
Definition example3_keys : keymap :=
  let b k c km := BindKey km [k] (Some c) in
  b 14 (CSelfInsert [14]) (b 16 (CSelfInsert [16]) (b 2 (CSelfInsert [2])
    (b 7 CDeleteChar (b 6 CForwardWord (b 1 CBackwardWord (b 5 CPreviousHistory (b 24 CNextHistory
      (b 4 CForwardChar (b 19 CBackwardChar []))))))))).
Definition S_loop (h : container) : scfg :=
  mkScfg (mkCfg E_off h false [] [] (predictByHistory h) (Some (s2l "$ ")) VimBatch ascii_upper) example3_keys GlobalKeyMap.

Lemma loop_over : over_container S_loop E_off.
Proof.
  split; [reflexivity|reflexivity|reflexivity|]. intros h k f. apply global_builtin. clear. intros k c f H. revert H.
  assert (G : forallb (fun p => match snd p with CUser _ => false | _ => true end) example3_keys = true) by reflexivity.
  revert G. generalize example3_keys as m. induction m as [|[k0 c0] m IH]; cbn [aget forallb snd]; [discriminate|].
  intros G. apply andb_prop in G as [G1 G2]. destruct (str_eqb k k0); [|now apply IH].
  intros H. injection H as ->. destruct c; discriminate.
Qed.

(** Three lines entered one after the other. *)
Definition turn_of (t : string) : turn := mkTurn [] 80 None (keys t ++ [key 13]).
Definition three : list turn := [turn_of "make"; turn_of "cat readme"; turn_of "ls -l"].
