(** Keys after which the prediction is made anew, whatever the state of the line. *)
From Verif Require Import Base Utf8 Moji Color Prompt Buffer Commands KeyMap Session Spec SpecScreen.

(** A key that puts a character, erases at or before the cursor or repaints, or the key that
    announces a quoted one. *)
Definition edits_text (S : scfg) (e : event) : Prop :=
  match e with
  | EKey k =>
    match LookupCommand (kmap S) (gmap S) k with
    | CSelfInsert _ | CQuotedInsert | CBackwardDeleteChar | CDeleteChar | CDeleteOrAbort | CUnixWordRubout | CUnixLineDiscard
    | CClearScreen | CRepaintOnNewline => True
    | _ => False
    end
  | _ => False
  end.
