(** ReadLine from the call to the return (main.go:161-250): which calls of the terminal
    it makes and in which order, on every path, with the deferred functions
    (main.go:163-166, 186).

    Simplifications: writing to Out never fails and the prompt writer gives no error
    (main.go:195-198); a panic inside a command loses what that command wrote before. *)
From Verif Require Import Base Utf8 Moji Color Prompt Buffer Commands KeyMap Session.

(** Calls on Editor.Tty and writes to Editor.Out. *)
Inductive act :=
| AOpen (ok : bool)
| ASize (ok : bool)
| AGetKey
| AClose
| AOut (t : tok).

(** How a ReadLine ends: still in Tty.GetKey; returned; panicked.  The errors besides
    those of Session.v: Open failed, Size failed. *)
Inductive lerr := LRead (e : rerr) | LOpenError | LSizeError.
Inductive outcome := Blocked | Returned (t : str) (e : lerr) | Panicked.

(** main.go:163-166 *)
Definition show_cursor : list act := [AOut TCursorOn; AOut TFlush].
(** main.go:186 and then main.go:163-166: deferred calls run last in, first out. *)
Definition close_and_show : list act := AClose :: show_cursor.

Section WithSess.
Variable S : scfg.

Definition state (x : sess) : buf := match x with Running _ s => s | Finished s _ _ => s end.
(** What went to Out between two states. *)
Definition written_between (x x' : sess) : list tok := skipn (List.length (out (state x))) (out (state x')).
(** Session.v appends the two writes of the deferred function to those of the last
    command; here they come after Close. *)
Definition undeferred (l : list tok) : list tok := firstn (List.length l - 2) l.

(** What a step of the loop does up to the next wait. *)
Definition step_calls (e : event) (x x' : sess) : list act :=
  match x' with
  | Finished _ _ _ => map AOut (undeferred (written_between x x'))
  | Running _ _ => map AOut (written_between x x') ++ match e with EKey _ | EKeyErr => [AGetKey] | _ => [] end
  end.

(** main.go:211-249 and the commands that read keys: one GetKey per key event. *)
Fixpoint loop_calls (es : list event) (x : sess) : list act * outcome :=
  match x with
  | Finished _ t e => (close_and_show, Returned t (LRead e))
  | Running _ _ =>
    match es with
    | [] => ([], Blocked)
    | e :: es' =>
      match step S e x with
      | None => (close_and_show, Panicked)
      | Some x' => let '(tr, o) := loop_calls es' x' in (step_calls e x x' ++ tr, o)
      end
    end
  end.

(** The whole call.  [open_ok]: Tty.Open succeeds; [size]: the width Tty.Size returns. *)
Definition readline_calls (default : str) (cur : Z) (open_ok : bool) (size : option Z) (cl : option str)
  (es : list event) : list act * outcome :=
  if open_ok then
    match size with
    | None => ([AOpen true; ASize false] ++ close_and_show, Returned [] LSizeError)
    | Some w =>
      match start S default cur w cl with
      | None => ([AOpen true; ASize true] ++ close_and_show, Panicked)
      | Some x =>
        let '(tr, o) := loop_calls es x in
        ([AOpen true; ASize true] ++ map AOut (out (state x)) ++ [AGetKey] ++ tr, o)
      end
    end
  else ([AOpen false] ++ show_cursor, Returned [] LOpenError).
End WithSess.

(** tty10/main.go: the goroutine that polls the terminal size, and Close. *)
Inductive poller :=
| PSelect      (* main.go:30, waiting on done and on the ticker *)
| PSize        (* main.go:35 *)
| PWait        (* main.go:37, in onSize, waiting for the editor's mutex *)
| PInside      (* in onSize, holding it *)
| PGone.       (* main.go:33 *)
Inductive closer :=
| KIdle        (* Close not called *)
| KSend        (* main.go:84 *)
| KClose       (* main.go:85 *)
| KDisable     (* main.go:87-90 *)
| KDone.       (* Close has returned *)
Inductive holder := Nobody | ThePoller | TheEditor.
(** [tick]: a tick is waiting in the ticker's channel (its capacity is one).  [chan_open]:
    the channel done has not been closed. *)
Record tty := mkTty { pol : poller; clo : closer; mut : holder; tick : bool; chan_open : bool }.

Inductive tlabel := Tick | Lock | Unlock | CallClose | Run.
(** One step; [None] is a panic.  The goroutine that locks and unlocks (main.go:225, 241)
    is the one that calls Close, so it does not do so during Close. *)
Inductive tstep : tty -> tlabel -> option tty -> Prop :=
| T_tick p k m o b : tstep (mkTty p k m b o) Tick (Some (mkTty p k m true o))
| T_lock p b o : tstep (mkTty p KIdle Nobody b o) Lock (Some (mkTty p KIdle TheEditor b o))
| T_unlock p b o : tstep (mkTty p KIdle TheEditor b o) Unlock (Some (mkTty p KIdle Nobody b o))
| T_call p k m b o : k = KIdle \/ k = KDone -> tstep (mkTty p k m b o) CallClose (Some (mkTty p KSend m b o))
| T_rendezvous m b : tstep (mkTty PSelect KSend m b true) Run (Some (mkTty PGone KClose m b true))
| T_send_closed p m b : tstep (mkTty p KSend m b false) Run None
| T_close p m b : tstep (mkTty p KClose m b true) Run (Some (mkTty p KDisable m b false))
| T_disable p m b o : tstep (mkTty p KDisable m b o) Run (Some (mkTty p KDone m b o))
| T_select k m o : tstep (mkTty PSelect k m true o) Run (Some (mkTty PSize k m false o))
| T_size_error k m b o : tstep (mkTty PSize k m b o) Run (Some (mkTty PSelect k m b o))
| T_size k m b o : tstep (mkTty PSize k m b o) Run (Some (mkTty PWait k m b o))
| T_enter k b o : tstep (mkTty PWait k Nobody b o) Run (Some (mkTty PInside k ThePoller b o))
| T_leave k b o : tstep (mkTty PInside k ThePoller b o) Run (Some (mkTty PSelect k Nobody b o)).

Inductive truns : tty -> list tlabel -> option tty -> Prop :=
| R_nil x : truns x [] (Some x)
| R_step x ls y l o : truns x ls (Some y) -> tstep y l o -> truns x (ls ++ [l]) o.

(** Just after Open. *)
Definition tty_opened : tty := mkTty PSelect KIdle Nobody false true.
