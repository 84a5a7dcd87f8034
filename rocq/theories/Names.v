(** Model of keys/code.go, keys/naming.go, nameutils/main.go and of the table NameToFunc
    (gommand.go:32-42). *)
From Verif Require Import Base Utf8 Moji Color Prompt Buffer Commands KeyMap.

(** keys/code.go:5-110: the codes. *)
Definition Backspace_ : str := [127].
Definition CtrlA_ : str := [1].
Definition CtrlB_ : str := [2].
Definition CtrlC_ : str := [3].
Definition CtrlD_ : str := [4].
Definition CtrlE_ : str := [5].
Definition CtrlF_ : str := [6].
Definition CtrlG_ : str := [7].
Definition CtrlH_ : str := [8].
Definition CtrlI_ : str := [9].
Definition CtrlJ_ : str := [10].
Definition CtrlK_ : str := [11].
Definition CtrlL_ : str := [12].
Definition CtrlM_ : str := [13].
Definition CtrlN_ : str := [14].
Definition CtrlO_ : str := [15].
Definition CtrlP_ : str := [16].
Definition CtrlQ_ : str := [17].
Definition CtrlR_ : str := [18].
Definition CtrlS_ : str := [19].
Definition CtrlT_ : str := [20].
Definition CtrlU_ : str := [21].
Definition CtrlV_ : str := [22].
Definition CtrlW_ : str := [23].
Definition CtrlX_ : str := [24].
Definition CtrlY_ : str := [25].
Definition CtrlZ_ : str := [26].
Definition CtrlLBracket_ : str := [27].
Definition CtrlBackslash_ : str := [28].
Definition CtrlRBracket_ : str := [29].
Definition CtrlCaret_ : str := [30].
Definition CtrlUnderbar_ : str := [31].
Definition Enter_ : str := [13].
Definition Escape_ : str := [27].
Definition AltA_ : str := [27; 97].
Definition AltB_ : str := [27; 98].
Definition ALTBackspace_ : str := [27; 8].
Definition AltC_ : str := [27; 99].
Definition AltD_ : str := [27; 100].
Definition AltE_ : str := [27; 101].
Definition AltF_ : str := [27; 102].
Definition AltG_ : str := [27; 103].
Definition AltH_ : str := [27; 104].
Definition AltI_ : str := [27; 105].
Definition AltJ_ : str := [27; 106].
Definition AltK_ : str := [27; 107].
Definition AltL_ : str := [27; 108].
Definition AltM_ : str := [27; 109].
Definition AltN_ : str := [27; 110].
Definition AltO_ : str := [27; 111].
Definition AltP_ : str := [27; 112].
Definition AltQ_ : str := [27; 113].
Definition AltR_ : str := [27; 114].
Definition AltS_ : str := [27; 115].
Definition AltT_ : str := [27; 116].
Definition AltU_ : str := [27; 117].
Definition AltV_ : str := [27; 118].
Definition AltW_ : str := [27; 119].
Definition AltX_ : str := [27; 120].
Definition AltY_ : str := [27; 121].
Definition AltZ_ : str := [27; 122].
Definition AltOEM2_ : str := [27; 47].
Definition Clear_ : str := [12].
Definition Ctrl_ : str := [17].
Definition CtrlBreak_ : str := [3].
Definition Delete_ : str := [27; 91; 51; 126].
Definition Down_ : str := [27; 91; 66].
Definition CtrlDown_ : str := [27; 91; 49; 59; 53; 66].
Definition End_ : str := [27; 91; 70].
Definition F10_ : str := [27; 91; 50; 49; 126].
Definition F11_ : str := [27; 91; 50; 51; 126].
Definition F12_ : str := [27; 91; 50; 52; 126].
Definition F13_ : str := [124].
Definition F14_ : str := [125].
Definition F15_ : str := [126].
Definition F16_ : str := [127].
Definition F17_ : str := [128].
Definition F18_ : str := [129].
Definition F19_ : str := [130].
Definition F1_ : str := [27; 91; 79; 80].
Definition F20_ : str := [131].
Definition F21_ : str := [132].
Definition F22_ : str := [133].
Definition F23_ : str := [134].
Definition F24_ : str := [135].
Definition F2_ : str := [27; 91; 79; 81].
Definition F3_ : str := [27; 91; 79; 82].
Definition F4_ : str := [27; 91; 79; 83].
Definition F5_ : str := [27; 91; 49; 53; 126].
Definition F6_ : str := [27; 91; 49; 54; 126].
Definition F7_ : str := [27; 91; 49; 55; 126].
Definition F8_ : str := [27; 91; 49; 56; 126].
Definition F9_ : str := [27; 91; 50; 48; 126].
Definition Home_ : str := [27; 91; 72].
Definition Left_ : str := [27; 91; 68].
Definition CtrlLeft_ : str := [27; 91; 49; 59; 53; 68].
Definition PageDown_ : str := [27; 91; 54; 126].
Definition PageUp_ : str := [27; 91; 53; 126].
Definition Pause_ : str := [19].
Definition Right_ : str := [27; 91; 67].
Definition CtrlRight_ : str := [27; 91; 49; 59; 53; 67].
Definition Up_ : str := [27; 91; 65].
Definition CtrlUp_ : str := [27; 91; 49; 59; 53; 65].
Definition ShiftTab_ : str := [27; 91; 90].

(** keys/naming.go:7-111 *)
Definition NameToCode : list (str * str) := [
  (s2l "BACKSPACE", Backspace_);
  (s2l "CLEAR", Clear_);
  (s2l "CTRL", Ctrl_);
  (s2l "CTRL_BREAK", CtrlBreak_);
  (s2l "CTRL_DOWN", Down_);
  (s2l "C_A", CtrlA_);
  (s2l "C_B", CtrlB_);
  (s2l "C_C", CtrlC_);
  (s2l "C_D", CtrlD_);
  (s2l "C_E", CtrlE_);
  (s2l "C_F", CtrlF_);
  (s2l "C_G", CtrlG_);
  (s2l "C_H", CtrlH_);
  (s2l "C_I", CtrlI_);
  (s2l "C_J", CtrlJ_);
  (s2l "C_K", CtrlK_);
  (s2l "C_L", CtrlL_);
  (s2l "C_LEFT", CtrlLeft_);
  (s2l "C_M", CtrlM_);
  (s2l "C_N", CtrlN_);
  (s2l "C_O", CtrlO_);
  (s2l "C_P", CtrlP_);
  (s2l "C_Q", CtrlQ_);
  (s2l "C_R", CtrlR_);
  (s2l "C_RIGHT", CtrlRight_);
  (s2l "C_S", CtrlS_);
  (s2l "C_T", CtrlT_);
  (s2l "C_U", CtrlU_);
  (s2l "C_UNDERBAR", CtrlUnderbar_);
  (s2l "C_UP", CtrlUp_);
  (s2l "C_V", CtrlV_);
  (s2l "C_W", CtrlW_);
  (s2l "C_X", CtrlX_);
  (s2l "C_Y", CtrlY_);
  (s2l "C_Z", CtrlZ_);
  (s2l "C_[", CtrlLBracket_);
  (s2l "C_\", CtrlBackslash_);
  (s2l "C_]", CtrlRBracket_);
  (s2l "C_^", CtrlCaret_);
  (s2l "DELETE", Delete_);
  (s2l "DOWN", Down_);
  (s2l "END", End_);
  (s2l "ENTER", Enter_);
  (s2l "ESCAPE", Escape_);
  (s2l "F1", F1_);
  (s2l "F10", F10_);
  (s2l "F11", F11_);
  (s2l "F12", F12_);
  (s2l "F13", F13_);
  (s2l "F14", F14_);
  (s2l "F15", F15_);
  (s2l "F16", F16_);
  (s2l "F17", F17_);
  (s2l "F18", F18_);
  (s2l "F19", F19_);
  (s2l "F2", F2_);
  (s2l "F20", F20_);
  (s2l "F21", F21_);
  (s2l "F22", F22_);
  (s2l "F23", F23_);
  (s2l "F24", F24_);
  (s2l "F3", F3_);
  (s2l "F4", F4_);
  (s2l "F5", F5_);
  (s2l "F6", F6_);
  (s2l "F7", F7_);
  (s2l "F8", F8_);
  (s2l "F9", F9_);
  (s2l "HOME", Home_);
  (s2l "LEFT", Left_);
  (s2l "M_A", AltA_);
  (s2l "M_B", AltB_);
  (s2l "M_BACKSPACE", Backspace_);
  (s2l "M_C", AltC_);
  (s2l "M_D", AltD_);
  (s2l "M_E", AltE_);
  (s2l "M_F", AltF_);
  (s2l "M_G", AltG_);
  (s2l "M_H", AltH_);
  (s2l "M_I", AltI_);
  (s2l "M_J", AltJ_);
  (s2l "M_K", AltK_);
  (s2l "M_L", AltL_);
  (s2l "M_M", AltM_);
  (s2l "M_N", AltN_);
  (s2l "M_O", AltO_);
  (s2l "M_OEM_2", AltOEM2_);
  (s2l "M_P", AltP_);
  (s2l "M_Q", AltQ_);
  (s2l "M_R", AltR_);
  (s2l "M_S", AltS_);
  (s2l "M_T", AltT_);
  (s2l "M_U", AltU_);
  (s2l "M_V", AltV_);
  (s2l "M_W", AltW_);
  (s2l "M_X", AltX_);
  (s2l "M_Y", AltY_);
  (s2l "M_Z", AltZ_);
  (s2l "PAGEDOWN", PageDown_);
  (s2l "PAGEUP", PageUp_);
  (s2l "PAUSE", Pause_);
  (s2l "RIGHT", Right_);
  (s2l "UP", Up_)
].

(** gommand.go:46-440, history.go:23,70, isearch.go:17: the commands registered by
    NewGoCommand when the package is initialised. *)
Definition NameToFunc : list (str * cmd) := [
  (s2l "ACCEPT_LINE", CAcceptLine);
  (s2l "INTR", CInterrupt);
  (s2l "BEGINNING_OF_LINE", CBeginningOfLine);
  (s2l "BACKWARD_CHAR", CBackwardChar);
  (s2l "END_OF_LINE", CEndOfLine);
  (s2l "FORWARD_CHAR", CForwardChar);
  (s2l "BACKWARD_DELETE_CHAR", CBackwardDeleteChar);
  (s2l "DELETE_CHAR", CDeleteChar);
  (s2l "DELETE_OR_ABORT", CDeleteOrAbort);
  (s2l "KILL_LINE", CKillLine);
  (s2l "KILL_WHOLE_LINE", CKillWholeLine);
  (s2l "UNIX_WORD_RUBOUT", CUnixWordRubout);
  (s2l "UNIX_LINE_DISCARD", CUnixLineDiscard);
  (s2l "CLEAR_SCREEN", CClearScreen);
  (s2l "REPAINT_ON_NEWLINE", CRepaintOnNewline);
  (s2l "QUOTED_INSERT", CQuotedInsert);
  (s2l "YANK", CYank);
  (s2l "YANK_WITH_QUOTE", CYankWithQuote);
  (s2l "SWAPCHAR", CSwapChar);
  (s2l "BACKWARD_WORD", CBackwardWord);
  (s2l "FORWARD_WORD", CForwardWord);
  (s2l "UNDO", CUndo);
  (s2l "PREVIOUS_HISTORY", CPreviousHistory);
  (s2l "NEXT_HISTORY", CNextHistory);
  (s2l "ISEARCH_BACKWARD", CISearchBackward)
].

(** strings.ToUpper (standard library): ASCII strings byte by byte, others rune by rune
    with unicode.ToUpper. *)
Definition is_ascii (s : str) : bool := forallb (fun b => b <? 128) s.
Definition ascii_up (b : Z) : Z := if (97 <=? b) && (b <=? 122) then b - 32 else b.
Definition ToUpper (up : rune -> rune) (s : str) : str :=
  if is_ascii s then map ascii_up s else encode (map up (runes s)).

(** keys/naming.go:113-115 *)
Definition dash (b : Z) : Z := if b =? 45 then 95 else b.
Definition NormalizeName (up : rune -> rune) (s : str) : str := map dash (ToUpper up s).

Section WithTables.
(** [up] is unicode.ToUpper, [funcs] the current table NameToFunc. *)
Variable up : rune -> rune.
Variable funcs : list (str * cmd).

(** nameutils/main.go:10-17; the map afterwards and whether there was no error. *)
Definition BindKeyFunc (km : keymap) (key : str) (f : option cmd) : keymap * bool :=
  match aget str_eqb NameToCode (NormalizeName up key) with
  | Some code => (BindKey km code f, true)
  | None => (km, false)
  end.

(** nameutils/main.go:19-25 *)
Definition GetFunc (name : str) : option cmd := aget str_eqb funcs (NormalizeName up name).

(** nameutils/main.go:27-33; GetFunc is given the name of the key, as in the code. *)
Definition BindKeySymbol (km : keymap) (key funcName : str) : keymap * bool :=
  match GetFunc key with
  | None => (km, false)
  | Some f => BindKeyFunc km key (Some f)
  end.
End WithTables.
