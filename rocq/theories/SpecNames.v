(** What the registered command names mean (C50), without the table of the code.
    The texts are the comments above the commands in gommand.go, history.go and isearch.go. *)
From Verif Require Import Base Utf8 Moji Color Prompt Buffer Commands KeyMap Session Spec.

(** What a command did: the state before, the state after, the result. *)
Definition effect := buf -> buf -> result -> Prop.

(** The command takes a line [p|q] (the bar is the cursor) to a line and a condition. *)
Definition takes (P : list moji -> list moji -> buf -> buf -> Prop) : effect :=
  fun s s' r => r = CONTINUE /\ forall p q, at_split s p q -> P p q s s'.

Definition meaning (C : cfg) : list (str * effect) := [
  (* ends the editing successfully *)
  (s2l "ACCEPT_LINE", fun s s' r => r = ENTER /\ s' = s);
  (* aborts the editing *)
  (s2l "INTR", fun s s' r => r = INTR /\ line s' = [] /\ cursor s' = 0);
  (* moves cursor to the top of line *)
  (s2l "BEGINNING_OF_LINE", takes (fun p q _ s' => at_split s' [] (p ++ q)));
  (* moves cursor to the end of the line *)
  (s2l "END_OF_LINE", takes (fun p q _ s' => at_split s' (p ++ q) []));
  (* moves cursor to the previous character *)
  (s2l "BACKWARD_CHAR", takes (fun p q s s' =>
     (p = [] -> at_split s' p q) /\ (forall p' m, p = p' ++ [m] -> at_split s' p' (m :: q))));
  (* moves cursor to the next character; at the end it may take a prediction *)
  (s2l "FORWARD_CHAR", takes (fun p q s s' =>
     (q = [] -> suffix s = None \/ suffix s = Some [] -> at_split s' p q) /\ (forall m q', q = m :: q' -> at_split s' (p ++ [m]) q')));
  (* deletes a character on the leftside of cursor *)
  (s2l "BACKWARD_DELETE_CHAR", takes (fun p q s s' =>
     (p = [] -> at_split s' p q) /\ (forall p' m, p = p' ++ [m] -> at_split s' p' q)));
  (* delete a character on the cursor *)
  (s2l "DELETE_CHAR", takes (fun p q s s' =>
     (q = [] -> at_split s' p q) /\ (forall m q', q = m :: q' -> at_split s' p q')));
  (* deletes a character on the cursor when the line has any characters.  Otherwise quit the editing *)
  (s2l "DELETE_OR_ABORT", fun s s' r => forall p q, at_split s p q ->
     (p ++ q = [] -> r = ABORT /\ s' = s) /\
     (p <> [] -> q = [] -> r = CONTINUE /\ at_split s' p q) /\
     (forall m q', q = m :: q' -> r = CONTINUE /\ at_split s' p q'));
  (* removes text from cursor to the end of the line *)
  (s2l "KILL_LINE", takes (fun p q s s' => at_split s' p [] /\ copied (written q) s s'));
  (* removes the whole characters of the line *)
  (s2l "KILL_WHOLE_LINE", takes (fun p q s s' => at_split s' [] [] /\ clip s' = clip s));
  (* removes the current word (see C13) *)
  (s2l "UNIX_WORD_RUBOUT", takes (fun p q s s' => forallb single p = true -> exists u w b, p = u ++ w ++ b /\ all_blank b /\
     (u ++ w = [] \/ exists p' x, u ++ w = p' ++ [x] /\ blank x = false) /\
     word_boundary u /\ one_word u w /\ at_split s' u q /\ copied (written (w ++ b)) s s'));
  (* removes from the top of the line until cursor *)
  (s2l "UNIX_LINE_DISCARD", takes (fun p q s s' => at_split s' [] q /\ copied (written p) s s'));
  (* clears the screen and repaints the line *)
  (s2l "CLEAR_SCREEN", takes (fun p q s s' => at_split s' p q /\ exists o, out s' = out s ++ TClear :: o));
  (* no comment; begins a new line and repaints *)
  (s2l "REPAINT_ON_NEWLINE", takes (fun p q s s' => at_split s' p q /\ exists o, out s' = out s ++ TNewline :: o));
  (* inserts the string in the clipboard *)
  (s2l "YANK", takes (fun p q s s' => forall t, clip s = Some t -> exists u, cut_breaks t u /\ at_split s' (p ++ split (cE C) u) q));
  (* inserts the string in the clipboard and enclose it with double quoatations *)
  (s2l "YANK_WITH_QUOTE", takes (fun p q s s' => forall t, clip s = Some t -> exists u, in_quotes t u /\ at_split s' (p ++ split (cE C) u) q));
  (* swaps the character on the cursor and on on the leftside of the cursor *)
  (s2l "SWAPCHAR", takes (fun p q s s' =>
     (forall p' x y q', p = p' ++ [x] -> q = y :: q' -> at_split s' (p' ++ [y; x]) q') /\
     (forall p' x y, p = p' ++ [x; y] -> q = [] -> at_split s' (p' ++ [y; x]) [])));
  (* moves cursor to the top of the previous word *)
  (s2l "BACKWARD_WORD", takes (fun p q s s' => exists u w b, p = u ++ w ++ b /\ all_blank b /\ no_blank w /\
     (u = [] \/ exists u' x, u = u' ++ [x] /\ blank x = true) /\ (w = [] -> u = []) /\ at_split s' u (w ++ b ++ q)));
  (* move cursor to the top of the next word *)
  (s2l "FORWARD_WORD", takes (fun p q s s' => exists w b t, q = w ++ b ++ t /\ no_blank w /\ all_blank b /\
     (t = [] \/ exists x t', t = x :: t' /\ blank x = false) /\ (b = [] -> t = []) /\ at_split s' (p ++ w ++ b) t));
  (* replaces the line to the previous entry in the history *)
  (s2l "PREVIOUS_HISTORY", fun s s' r => 0 < hptr s -> 0 < zlen (hist C) -> browsed C s s' (hptr s - 1));
  (* replaces the line to the next entry of the history *)
  (s2l "NEXT_HISTORY", fun s s' r => 0 <= hptr s < zlen (hist C) -> browsed C s s' (hptr s + 1))
].

(** The keys each command has by default (keymap.go, with the key names of keys/naming.go). *)
Definition default_key : list (str * list str) := [
  (s2l "ACCEPT_LINE", [s2l "C_M"]);
  (s2l "INTR", [s2l "C_C"]);
  (s2l "BEGINNING_OF_LINE", [s2l "C_A"; s2l "HOME"]);
  (s2l "BACKWARD_CHAR", [s2l "C_B"; s2l "LEFT"]);
  (s2l "END_OF_LINE", [s2l "C_E"; s2l "END"]);
  (s2l "FORWARD_CHAR", [s2l "C_F"; s2l "RIGHT"]);
  (s2l "BACKWARD_DELETE_CHAR", [s2l "C_H"; s2l "BACKSPACE"]);
  (s2l "DELETE_CHAR", [s2l "DELETE"]);
  (s2l "DELETE_OR_ABORT", [s2l "C_D"]);
  (s2l "KILL_LINE", [s2l "C_K"]);
  (s2l "KILL_WHOLE_LINE", [s2l "ESCAPE"]);
  (s2l "UNIX_WORD_RUBOUT", [s2l "C_W"]);
  (s2l "UNIX_LINE_DISCARD", [s2l "C_U"]);
  (s2l "CLEAR_SCREEN", [s2l "C_L"]);
  (s2l "REPAINT_ON_NEWLINE", []);
  (s2l "QUOTED_INSERT", [s2l "C_V"; s2l "C_Q"]);
  (s2l "YANK", [s2l "C_Y"; s2l "M_V"]);
  (s2l "YANK_WITH_QUOTE", [s2l "M_Y"]);
  (s2l "SWAPCHAR", [s2l "C_T"]);
  (s2l "BACKWARD_WORD", [s2l "M_B"; s2l "C_LEFT"]);
  (s2l "FORWARD_WORD", [s2l "M_F"; s2l "C_RIGHT"]);
  (s2l "UNDO", [s2l "C_Z"; s2l "C_UNDERBAR"]);
  (s2l "PREVIOUS_HISTORY", [s2l "C_P"; s2l "UP"]);
  (s2l "NEXT_HISTORY", [s2l "C_N"; s2l "DOWN"]);
  (s2l "ISEARCH_BACKWARD", [s2l "C_R"])
].

(** The session [S] with the keys of the application replaced. *)
Definition with_keys (S : scfg) (km : keymap) : scfg := mkScfg (base S) km (gmap S).
