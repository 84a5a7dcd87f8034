(** Theorems: typing ahead and the mode of the terminal, C62. *)
From Verif Require Import Base Utf8 Moji Color Prompt Buffer Commands KeyMap Session Spec Sample KeyInput Repl SpecRepl Terminal SpecTty ReplSample TtyMode SpecTtyMode TtyModeFacts.

(** GetKey of tty10 leaves the terminal in the mode it has found, also when reading fails,
    and the terminal is in raw mode from MakeRaw to Restore. *)
Theorem C62_mode : forall cook r0 l, let s := acts10 cook l (start10 r0) in
  (forall b, at10 s = Outside b -> raw (drv s) = r0) /\ ((forall b, at10 s <> Outside b) -> raw (drv s) = true).
Proof. exact mode_kept. Qed.
Print Assumptions C62_mode.
(** What is typed in raw mode arrives: the keys returned, then what has been read, then what
    can be read, are the bytes typed, in order.  Missing: what is typed between two calls of
    GetKey (C62_refuted). *)
Theorem C62_typed_partial : forall cook l r0, typed_raw cook l (start10 r0) ->
  let s := acts10 cook l (start10 r0) in List.concat (got s) ++ rest10 s = typed_of l.
Proof. intros cook l r0 H. exact (typed_arrives cook l (start10 r0) H). Qed.
Print Assumptions C62_typed_partial.
(** In particular everything does when the program itself has put the terminal into raw mode. *)
Theorem C62_raw_program : forall cook l, let s := acts10 cook l (start10 true) in List.concat (got s) ++ rest10 s = typed_of l.
Proof. exact raw_arrives. Qed.
Print Assumptions C62_raw_program.
(** Typed too fast on a tty10 terminal: l arrives, s and Enter are typed while the editor
    draws the l.  The terminal, back in its usual mode, turns Enter into a line feed, which
    the editor inserts; ReadLine goes on waiting. *)
Definition C62_fast : list act :=
  [Go 0 true; Typed 108; Go 0 true; Go 0 true; Go 0 true; Typed 115; Typed 13; Go 0 true; Go 9 true; Go 0 true; Go 0 true; Go 0 true].
Theorem C62_refuted : typed_of C62_fast = s2l "ls" ++ [13] /\
  got (acts10 icrnl C62_fast (start10 false)) = [s2l "l"; s2l "s"; [10]] /\
  match readline S_off [] 0 80 None (map EKey (got (acts10 icrnl C62_fast (start10 false)))) with
  | Some (Running _ s) => buf_string s = s2l "ls" ++ [10]
  | _ => False
  end.
Proof. split; [reflexivity|]. split; vm_compute; reflexivity. Qed.
Print Assumptions C62_refuted.
(** The same between two calls of ReadLine on the default terminal: ls and Enter, typed
    while the program works on the first line, wait as an unfinished line for another Enter. *)
Theorem C62_between_refuted : exists cur m,
  serve next8 S_loop 9 (repeat (mkPlace [] 80 None) 2) [] 0
    (mkTty8 (mkXtty (map Some (arrived icrnl [(true, s2l "make" ++ [13]); (false, s2l "ls" ++ [13]); (true, [13])])) []) [])
  = Some ([s2l "make"; s2l "ls" ++ [10]], cur, m).
Proof. do 2 eexists. vm_compute. reflexivity. Qed.
Print Assumptions C62_between_refuted.
(** A slow typist: every key while GetKey waits. *)
Definition C62_slow : list act :=
  [Go 0 true; Typed 108; Go 0 true; Go 0 true; Go 0 true; Go 0 true; Typed 115; Typed 13; Go 9 true; Go 0 true; Go 0 true; Go 0 true].
Example C62_case : typed_raw icrnl C62_slow (start10 false) /\ got (acts10 icrnl C62_slow (start10 false)) = [s2l "l"; s2l "s"; [13]] /\
  typed_of C62_slow = s2l "ls" ++ [13].
Proof.
  split; [apply typed_rawb_ok; vm_compute; reflexivity|]. split; vm_compute; reflexivity.
Qed.
