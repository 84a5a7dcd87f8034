(** The loop that calls ReadLine, and the history it keeps between the calls. *)
From Verif Require Import Base Buffer Commands Session.

(** simplehistory/main.go:3-21 (Container, New, At, Len, Add): a slice of strings that
    only grows.  At(n) panics outside the bounds. *)
Definition container : Type := list str.
Definition newContainer : container := [].
Definition container_at (h : container) (n : Z) : option str := index h n.
Definition container_len (h : container) : Z := zlen h.
Definition container_add (h : container) (t : str) : container := h ++ [t].

(** One turn of the loop: what Editor.Default, the terminal's width, the system's
    clipboard and the events are for that call of ReadLine. *)
Record turn := mkTurn { t_default : str; t_width : Z; t_clip : option str; t_events : list event }.

(** examples/example3.go:37-46 (the loop of main) and main.go:41-56 (Editor, whose field
    Cursor keeps its value from one call of ReadLine to the next): call ReadLine, add the
    line to the history, go on.  [S] is the editor, as a function of what the history
    container holds.  The result is the history and Editor.Cursor after all the turns;
    None when a call panics, still waits for input after the turn's events, or reports an
    error (the loop then ends).
    Simplified: printing the line between the calls is left out. *)
Fixpoint repl (S : container -> scfg) (turns : list turn) (h : container) (cur : Z) : option (container * Z) :=
  match turns with
  | [] => Some (h, cur)
  | t :: turns =>
      match readline (S h) (t_default t) cur (t_width t) (t_clip t) (t_events t) with
      | Some (Finished s text RNil) => repl S turns (container_add h text) (cursor s)
      | _ => None
      end
  end.
