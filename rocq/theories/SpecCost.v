(** How much is written to the terminal for one event. *)
From Verif Require Import Base Utf8 Moji Color Prompt Buffer Commands KeyMap Session Spec.

(** The units of the text among what is written, *)
Fixpoint written_units (ts : list tok) : list moji :=
  match ts with
  | [] => []
  | TMoji m :: ts' => m :: written_units ts'
  | _ :: ts' => written_units ts'
  end.
(** the columns they fill, *)
Definition columns_written (E : env) (ts : list tok) : Z := fold_right (fun m n => width E m + n) 0 (written_units ts).
(** and everything else: colours, movements of the cursor, erasing, ... *)
Definition others_written (ts : list tok) : Z := zlen ts - zlen (written_units ts).
(** The bound: the units written fill at most five times the columns of the row, and beside
    each unit (its colour) at most one other thing is written, plus seventeen. *)
Definition bounded_by_row (E : env) (w : Z) (ts : list tok) : Prop :=
  columns_written E ts <= 5 * Z.max 0 (w - 3) /\ others_written ts <= zlen (written_units ts) + 17.
