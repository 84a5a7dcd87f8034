(** One Editor and its mutex over several ReadLines (main.go:41-56, 161-249): the mutex is
    taken for each key of the loop and given back after the command (main.go:216, 238, 248),
    but not by a deferred call, so a panic inside a command leaves it taken. *)
From Verif Require Import Base Utf8 Moji Color Prompt Buffer Commands KeyMap Session.

(** How a ReadLine comes out.  [Stuck]: it waits for the mutex for ever.  [Killed]: a panic
    in the goroutine of the resize callback ends the program. *)
Inductive result1 := Waits | Gives (t : str) (e : rerr) | Panics | Stuck | Killed.

(** main.go:211-249; [locked] is the mutex. *)
Fixpoint locked_run (S : scfg) (es : list event) (x : sess) (locked : bool) : result1 * bool :=
  match x with
  | Finished _ t e => (Gives t e, locked)
  | Running m s =>
    match es with
    | [] => (Waits, locked)
    | e :: es' =>
      let go l :=
        match step S e x with
        | None => (Panics, l)
        | Some x' => locked_run S es' x' (match x' with Running MNormal _ | Finished _ _ _ => false | _ => l end)
        end in
      match e, m with
      | EKey _, MNormal => if locked then (Stuck, locked) else go true          (* main.go:216 *)
      | EKey _, _ => go locked                                                (* gommand.go:319, isearch.go:53 *)
      | EKeyErr, MNormal => match step S e x with None => (Panics, locked) | Some x' => locked_run S es' x' locked end  (* main.go:213-215 *)
      | EKeyErr, _ => go locked
      | EResize _, _ =>                                                       (* main.go:175-181 *)
        if locked then locked_run S es' x locked
        else match step S e x with None => (Killed, true) | Some x' => locked_run S es' x' locked end
      | EClip _, _ => match step S e x with None => (Panics, locked) | Some x' => locked_run S es' x' locked end
      end
    end
  end.

(** One call: the editor's settings, Default and Cursor, the width, the clipboard and what
    happens during the call. *)
Record call1 := mkCall { c_set : scfg; c_default : str; c_cursor : Z; c_width : Z; c_clip : option str; c_events : list event }.
Definition locked_call (c : call1) (locked : bool) : result1 * bool :=
  match start (c_set c) (c_default c) (c_cursor c) (c_width c) (c_clip c) with
  | None => (Panics, locked)
  | Some x => locked_run (c_set c) (c_events c) x locked
  end.
(** Calls one after another on one Editor.  The application recovers from panics; it does
    not come to a further call after [Waits], [Stuck] or [Killed]. *)
Fixpoint locked_calls (cs : list call1) (locked : bool) : list result1 :=
  match cs with
  | [] => []
  | c :: cs' =>
    let '(r, l) := locked_call c locked in
    r :: match r with Gives _ _ | Panics => locked_calls cs' l | _ => [] end
  end.
