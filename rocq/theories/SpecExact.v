(** When the editor in the terminal crashes, said of the editor on paper. *)
From Verif Require Import Base Utf8 Moji Prompt Buffer Commands KeyMap Session Spec SpecEditor.

(** ReadLine's editor on paper. *)
Definition paper_of (S : scfg) (default : str) (cur : Z) (cl : option str) (es : list event) : desk :=
  on_paper (hist (base S)) (cycling (base S)) (upper (base S)) (LookupCommand (kmap S) (gmap S)) default cur cl es.

(** UNDO of a change whose new code points would lie beyond the end of the text. *)
Definition undo_breaks (S : scfg) (d : desk) (e : event) : Prop :=
  match d, e with
  | Editing p, EKey k =>
    LookupCommand (kmap S) (gmap S) k = CUndo /\
    match changes p with c :: _ => 0 < c_new c /\ zlen (whole p) < c_place c + c_new c | [] => False end
  | _, _ => False
  end.

(** Events of simple text, SWAPCHAR among them, that do not make the terminal too narrow. *)
Definition simple_input (S : scfg) (e : event) : Prop :=
  match e with
  | EKey k => simple_text (cE (base S)) k /\
              (forall k', LookupCommand (kmap S) (gmap S) k = CSelfInsert k' -> simple_text (cE (base S)) k')
  | EKeyErr => True
  | EResize w => prompt_width (base S) + 11 < w
  | EClip c => simple_clip (cE (base S)) c
  end.

(** SWAPCHAR at the end of a text of two or more. *)
Definition swap_at_end (S : scfg) (d : desk) (e : event) : Prop :=
  match d, e with
  | Editing p, EKey k => LookupCommand (kmap S) (gmap S) k = CSwapChar /\ after p = [] /\ 2 <= zlen (before p)
  | _, _ => False
  end.

(** There is room on a terminal [w] columns wide: every character is narrower than the
    visible part of the row, and texts with tabs are at most 32767 columns wide. *)
Definition search_row (text : list rune) (found : str) : str := s2l "(i-search)[" ++ encode text ++ s2l "]:" ++ found.
Definition room_for (S : scfg) (w : Z) (p : paper) : Prop :=
  let E := cE (base S) in
  Forall (fun m => width E m < w - prompt_width (base S) - 3) (alone E (whole p)) /\
  (In 9 (whole p) -> total_width E (alone E (whole p)) <= 32767).
Definition room (S : scfg) (w : Z) (d : desk) : Prop :=
  let E := cE (base S) in
  prompt_width (base S) + 3 < w /\
  match d with
  | Editing p | Quoting p => room_for S w p
  | Searching text found _ p => room_for S w p /\
    (In 9 (search_row text found) -> total_width E (split E (search_row text found)) <= 32767)
  | Returned _ _ => True
  end.
