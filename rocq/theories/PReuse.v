(** Theorems: one Editor for several ReadLines, C63. *)
From Verif Require Import Base Utf8 Moji Color Prompt Buffer Commands KeyMap Session Spec Sample Reuse SpecReuse ReuseFacts.

(** Any number of ReadLines on one Editor, each of which returns by itself: none waits for
    the mutex, and the results are those of fresh Editors.  Missing: calls that panic
    (C63_panic_refuted) and calls inside a command (C63_nested_refuted). *)
Theorem C63_reuse_partial : forall cs, Forall returns cs -> locked_calls cs false = map gives cs.
Proof. exact calls_same. Qed.
Print Assumptions C63_reuse_partial.
(** The last one may also wait for a key. *)
Theorem C63_last_partial : forall cs c, Forall returns cs -> fresh c <> None -> locked_calls (cs ++ [c]) false = map gives (cs ++ [c]).
Proof. exact calls_last. Qed.
Print Assumptions C63_last_partial.
(** After a panic in a command, from which the application has recovered, the next ReadLine
    on the same Editor stops at its first key. *)
Theorem C63_panic_refuted :
  locked_calls [mkCall S_off [] 0 80 None (keys "ab" ++ [key 20; key 26]); mkCall S_off [] 0 80 None (keys "ls" ++ [key 13])] false = [Panics; Stuck] /\
  map gives [mkCall S_off [] 0 80 None (keys "ab" ++ [key 20; key 26]); mkCall S_off [] 0 80 None (keys "ls" ++ [key 13])] = [Panics; Gives (s2l "ls") RNil].
Proof. split; vm_compute; reflexivity. Qed.
Print Assumptions C63_panic_refuted.
(** So in general: the calls before the panic are as on Editors of their own; after a panic
    past the start of a call no call on this Editor ever serves a key again, whatever it is. *)
Theorem C63_after_panic : forall cs c cs', Forall returns cs ->
  start (c_set c) (c_default c) (c_cursor c) (c_width c) (c_clip c) <> None -> fresh c = None ->
  exists r rs, locked_calls (cs ++ c :: cs') false = map gives cs ++ r :: rs /\ (r = Panics \/ r = Killed /\ rs = []) /\ Forall no_line rs.
Proof. exact panic_later. Qed.
Print Assumptions C63_after_panic.
(** Likewise inside a command: no number of calls, panicking or not, frees the mutex. *)
Theorem C63_stays_taken : forall cs, Forall no_line (locked_calls cs true).
Proof. exact taken_calls. Qed.
Print Assumptions C63_stays_taken.
Definition C63_crash : call1 := mkCall S_off [] 0 80 None (keys "ab" ++ [key 20; key 26]).
Definition C63_line : call1 := mkCall S_off [] 0 80 None (keys "ls" ++ [key 13]).
Example C63_after_panic_case :
  returns C63_line /\ start S_off [] 0 80 None <> None /\ fresh C63_crash = None /\
  locked_calls [C63_line; C63_crash; mkCall S_off [] 0 80 None [EKeyErr]; C63_line] false = [Gives (s2l "ls") RNil; Panics; Gives [] RKeyError; Stuck].
Proof.
  split; [do 3 eexists; vm_compute; reflexivity|]. split; [vm_compute; discriminate|]. split; vm_compute; reflexivity.
Qed.
(** A ReadLine that a command calls on its own Editor, and any other while the mutex is
    taken, serves no key: it can only come to its end by a read error or a panic before. *)
Theorem C63_nested_refuted : forall c es k es', c_events c = es ++ EKey k :: es' -> Forall (fun e => match e with EKey _ | EKeyErr => False | _ => True end) es ->
  fst (locked_call c true) = Stuck \/ fst (locked_call c true) = Panics.
Proof.
  intros c es k es' H Hes. unfold locked_call. destruct (start _ _ _ _ _) as [x|] eqn:E; [|now right]. left.
  destruct (start_normal _ _ _ _ _ _ E) as (s & ->). rewrite H. now rewrite taken_stuck.
Qed.
Print Assumptions C63_nested_refuted.
(** Three calls: a line, Ctrl-C, a search that a read error ends and a line. *)
Definition C63_calls : list call1 :=
  [mkCall S_off [] 0 80 None (keys "ab" ++ [key 13]); mkCall S_off [] 2 80 None (keys "x" ++ [EResize 60; key 3]);
   mkCall S_on [] 0 40 (Some []) ([key 18; EResize 30; EKey (s2l "m"); EKeyErr; key 16; key 13])].
Example C63_case : Forall returns C63_calls /\ locked_calls C63_calls false = [Gives (s2l "ab") RNil; Gives [] RCtrlC; Gives (s2l "make install") RNil].
Proof.
  split; [|vm_compute; reflexivity]. repeat (apply Forall_cons; [do 3 eexists; vm_compute; reflexivity|]). constructor.
Qed.
