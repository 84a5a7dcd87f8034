(** Specification: the keyboard of an xterm (C61). *)
From Verif Require Import Base.

(** What a key sends, as documented for xterm (PC-style function keys, cursor keys in
    normal mode, Alt as a leading ESC), by the name a program gives to BindKeyFunc. *)
Definition CSI (t : string) : str := [27; 91] ++ s2l t.
Definition SS3 (t : string) : str := [27; 79] ++ s2l t.
Definition letters : list Z := [1; 2; 3; 4; 5; 6; 7; 8; 9; 10; 11; 12; 13; 14; 15; 16; 17; 18; 19; 20; 21; 22; 23; 24; 25; 26].
Definition keyboard : list (str * str) :=
  map (fun i => (s2l "C_" ++ [64 + i], [i])) letters ++
  map (fun i => (s2l "M_" ++ [64 + i], [27; 96 + i])) letters ++
  [ (s2l "C_[", [27]); (s2l "C_\", [28]); (s2l "C_]", [29]); (s2l "C_^", [30]); (s2l "C_UNDERBAR", [31]);
    (s2l "BACKSPACE", [127]); (s2l "ENTER", [13]); (s2l "ESCAPE", [27]);
    (s2l "UP", CSI "A"); (s2l "DOWN", CSI "B"); (s2l "RIGHT", CSI "C"); (s2l "LEFT", CSI "D");
    (s2l "HOME", CSI "H"); (s2l "END", CSI "F"); (s2l "DELETE", CSI "3~"); (s2l "PAGEUP", CSI "5~"); (s2l "PAGEDOWN", CSI "6~");
    (s2l "C_UP", CSI "1;5A"); (s2l "CTRL_DOWN", CSI "1;5B"); (s2l "C_RIGHT", CSI "1;5C"); (s2l "C_LEFT", CSI "1;5D");
    (s2l "M_BACKSPACE", [27; 127]); (s2l "M_OEM_2", [27; 47]);
    (s2l "F1", SS3 "P"); (s2l "F2", SS3 "Q"); (s2l "F3", SS3 "R"); (s2l "F4", SS3 "S");
    (s2l "F5", CSI "15~"); (s2l "F6", CSI "17~"); (s2l "F7", CSI "18~"); (s2l "F8", CSI "19~");
    (s2l "F9", CSI "20~"); (s2l "F10", CSI "21~"); (s2l "F11", CSI "23~"); (s2l "F12", CSI "24~") ].

(** The keys whose names mean something else here. *)
Definition misnamed : list str :=
  [s2l "CTRL_DOWN"; s2l "M_BACKSPACE"; s2l "F1"; s2l "F2"; s2l "F3"; s2l "F4"; s2l "F6"; s2l "F7"; s2l "F8"].

(** What these names mean: F1 to F4 have a bracket in place of the O of the terminal, F6 to F8
    are what no key or the key before sends, CTRL_DOWN is DOWN and M_BACKSPACE is BACKSPACE.
    The other names with no key of their own: the characters | } ~, Backspace and bytes that
    are no characters for F13 to F24, and the control characters. *)
Definition taken_for : list (str * str) :=
  [ (s2l "F1", CSI "OP"); (s2l "F2", CSI "OQ"); (s2l "F3", CSI "OR"); (s2l "F4", CSI "OS");
    (s2l "F6", CSI "16~"); (s2l "F7", CSI "17~"); (s2l "F8", CSI "18~");
    (s2l "CTRL_DOWN", CSI "B"); (s2l "M_BACKSPACE", [127]);
    (s2l "F13", s2l "|"); (s2l "F14", s2l "}"); (s2l "F15", s2l "~"); (s2l "F16", [127]);
    (s2l "F17", [128]); (s2l "F18", [129]); (s2l "F19", [130]); (s2l "F20", [131]); (s2l "F21", [132]); (s2l "F22", [133]);
    (s2l "F23", [134]); (s2l "F24", [135]);
    (s2l "CLEAR", [12]); (s2l "CTRL", [17]); (s2l "CTRL_BREAK", [3]); (s2l "PAUSE", [19]) ].

(** The keys of Emacs and of a PC keyboard, and the commands they are known for. *)
Definition known_keys : list (str * str) :=
  [ (s2l "C_A", s2l "BEGINNING_OF_LINE"); (s2l "C_B", s2l "BACKWARD_CHAR"); (s2l "C_D", s2l "DELETE_OR_ABORT"); (s2l "C_E", s2l "END_OF_LINE");
    (s2l "C_F", s2l "FORWARD_CHAR"); (s2l "C_H", s2l "BACKWARD_DELETE_CHAR"); (s2l "C_K", s2l "KILL_LINE"); (s2l "C_L", s2l "CLEAR_SCREEN");
    (s2l "C_N", s2l "NEXT_HISTORY"); (s2l "C_P", s2l "PREVIOUS_HISTORY"); (s2l "C_Q", s2l "QUOTED_INSERT"); (s2l "C_R", s2l "ISEARCH_BACKWARD");
    (s2l "C_T", s2l "SWAPCHAR"); (s2l "C_U", s2l "UNIX_LINE_DISCARD"); (s2l "C_V", s2l "QUOTED_INSERT"); (s2l "C_W", s2l "UNIX_WORD_RUBOUT");
    (s2l "C_Y", s2l "YANK"); (s2l "C_Z", s2l "UNDO"); (s2l "C_UNDERBAR", s2l "UNDO"); (s2l "C_C", s2l "INTR");
    (s2l "M_B", s2l "BACKWARD_WORD"); (s2l "M_F", s2l "FORWARD_WORD");
    (s2l "UP", s2l "PREVIOUS_HISTORY"); (s2l "DOWN", s2l "NEXT_HISTORY"); (s2l "LEFT", s2l "BACKWARD_CHAR"); (s2l "RIGHT", s2l "FORWARD_CHAR");
    (s2l "HOME", s2l "BEGINNING_OF_LINE"); (s2l "END", s2l "END_OF_LINE"); (s2l "DELETE", s2l "DELETE_CHAR"); (s2l "BACKSPACE", s2l "BACKWARD_DELETE_CHAR");
    (s2l "ENTER", s2l "ACCEPT_LINE"); (s2l "ESCAPE", s2l "KILL_WHOLE_LINE"); (s2l "C_LEFT", s2l "BACKWARD_WORD"); (s2l "C_RIGHT", s2l "FORWARD_WORD") ].
