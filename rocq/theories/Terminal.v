(** ReadLine and the loop that calls it, fed by a terminal instead of by a list of events. *)
From Verif Require Import Base Utf8 Buffer Commands Session KeyInput Repl.

(** What GetKey of an ITty (main.go:34-39) gives: a key, an error, or nothing as yet. *)
Inductive read := RKey (k : str) | RErr | RWait.

Section WithTty.
Variable T : Type.
(** One GetKey on a terminal; [None] only where the model of the terminal says so. *)
Variable next : T -> option (read * T).

(** main.go:211-249: the loop of ReadLine, for at most [n] keys.  GetKey is also what
    buffer.go:242-246, gommand.go:319 and isearch.go:53 call inside a command; [step] knows
    which.  The result is the session, which still waits if it is Running, and the terminal.
    Simplified: no resize while the keys come in, and the clipboard is the editor's. *)
Fixpoint listen (S : scfg) (n : nat) (x : sess) (t : T) : option (sess * T) :=
  match n, x with
  | O, _ | _, Finished _ _ _ => Some (x, t)
  | Datatypes.S n', Running _ _ =>
      let* (r, t') := next t in
      match r with
      | RKey k => let* x' := step S (EKey k) x in listen S n' x' t'
      | RErr => let* x' := step S EKeyErr x in listen S n' x' t'
      | RWait => Some (x, t')
      end
  end.

(** What a call of ReadLine finds: Editor.Default, the width and the clipboard. *)
Record place := mkPlace { p_default : str; p_width : Z; p_clip : option str }.

(** examples/example3.go:37-46, as [repl], with the keys from one terminal: the object that
    is Editor.Tty stays the same from call to call (main.go:146-148), so keys it has read
    ahead are there in the next call.  None as for [repl]. *)
Fixpoint serve (S : container -> scfg) (n : nat) (ps : list place) (h : container) (cur : Z) (t : T)
  : option (container * Z * T) :=
  match ps with
  | [] => Some (h, cur, t)
  | p :: ps =>
      let* x0 := start (S h) (p_default p) cur (p_width p) (p_clip p) in
      let* (x, t') := listen (S h) n x0 t in
      match x with
      | Finished s text RNil => serve S n ps (container_add h text) (cursor s) t'
      | _ => None
      end
  end.
End WithTty.
Arguments listen {T} next S n x t.
Arguments serve {T} next S n ps h cur t.

(** tty8.go:41-52 *)
Definition next8 (m : tty8) : option (read * tty8) :=
  let* (a, m') := tty8_GetKey true m in
  Some (match a with Key k => RKey k | KeyErr => RErr | KeyWait => RWait end, m').
(** tty10/main.go:60-78 *)
Definition next10 (m : tty10) : option (read * tty10) :=
  let '(a, m') := tty10_GetKey m in
  Some (match a with Key10 k => RKey k | Err10 => RErr | Wait10 => RWait end, m').
(** auto/main.go:11-18 *)
Definition next_pilot (script : list str) : option (read * list str) :=
  let '(k, rest) := Pilot_GetKey script in Some (RKey k, rest).
