(** The prompt on the row of an ordinary terminal (C73).  Prompts are the pieces of C25
    (SpecLib.v), the terminal that of C58 (SpecVt.v). *)
From Verif Require Import Base Utf8 Moji Color Prompt Buffer Commands KeyMap Session Spec SpecLib SpecTerm SpecScreen SpecVt.

(** Printable characters, colour sequences, titles and line breaks. *)
Definition showable (V : vterm) (p : piece) : Prop :=
  piece_ok p /\
  match p with
  | PText c => control c = false /\ 1 <= vt_width V c
  | PCsi body final => final = 109 /\ Forall (fun b => 32 <= b <= 63) body
  | PTitle body => valid_utf8 body
  | PBreak _ => True
  | PBack => False
  end.
(** The prompt of the editor consists of these pieces; without PromptWriter it is a new line
    with "> " (main.go:117-119). *)
Definition prompt_is (S : scfg) (ps : list piece) : Prop :=
  match prompt (base S) with
  | Some t => t = flat_map piece_bytes ps
  | None => ps = [PBreak 10; PText 62; PText 32]
  end.
(** CR and LF go to the first column, CSI 1;1H does, and CSI 2J leaves the cursor where it is. *)
Record returns (V : vterm) : Prop := {
  rt_cr : forall v, v_col (vt_other V [13] v) = 0;
  rt_lf : forall v, v_col (vt_other V [10] v) = 0;
  rt_home : forall v, v_col (vt_other V [27; 91; 49; 59; 49; 72] v) = 0;
  rt_clear : forall v, v_col (vt_other V [27; 91; 50; 74] v) = v_col v
}.
(** ReadLine begins at the beginning of a row, or its prompt with a line break. *)
Definition begins (ps : list piece) (v : vt) : Prop := v_col v = 0 \/ exists b ps', ps = PBreak b :: ps'.
(** While ReadLine waits the row begins with what is visible of the last line of the prompt,
    and the line that is edited begins after it. *)
Definition prompt_on_row (V : vterm) (ps : list piece) (x : sess) (v : vt) : Prop :=
  match x with
  | Running _ s => topc s = vcolumns V (visible ps) /\ forall i, 0 <= i < topc s -> v_row v i = picture V 0 (visible ps) i
  | Finished _ _ _ => True
  end.
