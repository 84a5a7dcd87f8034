(** Model of keymap.go and of Editor.LookupCommand (main.go). *)
From Verif Require Import Base Utf8 Moji Color Prompt Buffer Commands.

(** keymap.go:58-60; a nil table is the empty list. *)
Definition keymap := list (str * cmd).

(** keymap.go:62-71; [None] is the nil Command. *)
Definition BindKey (km : keymap) (key : str) (f : option cmd) : keymap :=
  match f with
  | None => adel str_eqb km key
  | Some c => aset str_eqb km key c
  end.

(** keymap.go:73-79 *)
Definition Lookup (km : keymap) (key : str) : option cmd := aget str_eqb km key.

(** The codes of keys/code.go used by the default table. *)
Definition esc (s : str) : str := 27 :: s.
Definition ctrl (n : Z) : str := [n].

(** keymap.go:16-55 *)
Definition GlobalKeyMap : keymap := [
  (esc [98], CBackwardWord);                       (* AltB *)
  (esc [102], CForwardWord);                       (* AltF *)
  (esc [118], CYank);                              (* AltV *)
  (esc [121], CYankWithQuote);                     (* AltY *)
  ([127], CBackwardDeleteChar);                    (* Backspace *)
  (ctrl 1, CBeginningOfLine);
  (ctrl 2, CBackwardChar);
  (ctrl 3, CInterrupt);
  (ctrl 4, CDeleteOrAbort);
  (ctrl 5, CEndOfLine);
  (ctrl 6, CForwardChar);
  (ctrl 8, CBackwardDeleteChar);
  (ctrl 11, CKillLine);
  (ctrl 12, CClearScreen);
  (esc [91; 49; 59; 53; 68], CBackwardWord);       (* CtrlLeft *)
  (ctrl 13, CAcceptLine);
  (ctrl 14, CNextHistory);
  (ctrl 16, CPreviousHistory);
  (ctrl 17, CQuotedInsert);
  (ctrl 18, CISearchBackward);
  (esc [91; 49; 59; 53; 67], CForwardWord);        (* CtrlRight *)
  (ctrl 20, CSwapChar);
  (ctrl 21, CUnixLineDiscard);
  (ctrl 31, CUndo);
  (ctrl 22, CQuotedInsert);
  (ctrl 23, CUnixWordRubout);
  (ctrl 25, CYank);
  (ctrl 26, CUndo);
  (esc [91; 51; 126], CDeleteChar);                (* Delete *)
  (esc [91; 66], CNextHistory);                    (* Down *)
  (esc [91; 70], CEndOfLine);                      (* End *)
  (esc [], CKillWholeLine);                        (* Escape *)
  (esc [91; 72], CBeginningOfLine);                (* Home *)
  (esc [91; 68], CBackwardChar);                   (* Left *)
  (esc [91; 67], CForwardChar);                    (* Right *)
  (esc [91; 65], CPreviousHistory)                 (* Up *)
].

(** main.go:70-79: [km] is the editor's own map, [gm] the global one. *)
Definition LookupCommand (km gm : keymap) (key : str) : cmd :=
  match Lookup km key with
  | Some f => f
  | None => match Lookup gm key with
            | Some f => f
            | None => CSelfInsert key
            end
  end.
