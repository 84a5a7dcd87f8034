(** Model of internal/moji/termcheck.go and internal/moji/orgxwidth.go: the settings found
    out from the environment when the program starts. *)
From Verif Require Import Base Utf8 Moji.

Section Getenv.
(** os.Getenv: the value of a variable, empty when it is not set. *)
Variable getenv : str -> str.
Definition is_set (name : string) : bool := negb (str_eqb (getenv (s2l name)) []).
(** termcheck.go:8-14 *)
Definition isVsCodeTerminal : bool := is_set "VSCODE_PID".
Definition isWindowsTerminal : bool := is_set "WT_SESSION" && is_set "WT_PROFILE_ID" && negb isVsCodeTerminal.
Definition isWezTerm : bool := str_eqb (getenv (s2l "TERM_PROGRAM")) (s2l "WezTerm").
Definition isContour : bool := str_eqb (getenv (s2l "TERMINAL_NAME")) (s2l "contour").
(** termcheck.go:18-33.  [newRuneWidth] makes the width function (orgxwidth.go:35,
    runewidth.go:15: runeWidth = newRuneWidth(AmbiguousIsWide)); the join width is the one of
    moji.go:20-22 until the program replaces it. *)
Definition detected (newRuneWidth : bool -> rune -> Z) (vsme : rune -> bool) : env :=
  let ok := isWindowsTerminal || isWezTerm || isContour in
  let amb := negb isWindowsTerminal in
  mkEnv ok ok (isWindowsTerminal || isWezTerm) ok amb (newRuneWidth amb) (fun w1 w2 => w1 + 1 + w2) vsme.
End Getenv.

(** golang.org/x/text/width: the kinds of characters. *)
Inductive kind := Neutral | EastAsianAmbiguous | EastAsianWide | EastAsianNarrow | EastAsianFullwidth | EastAsianHalfwidth.
(** orgxwidth.go:11-33, built with the tag orgxwidth; unicode.IsPrint and the table of
    x/text are parameters.  (The default build takes its widths from go-runewidth.) *)
Definition newRuneWidth (IsPrint : rune -> bool) (Kind : rune -> kind) (ambiguousIsWide : bool) (r : rune) : Z :=
  let aw := if ambiguousIsWide then 2 else 1 in
  if negb (IsPrint r) then 0
  else match Kind r with
       | Neutral | EastAsianNarrow | EastAsianHalfwidth => 1
       | EastAsianWide | EastAsianFullwidth => 2
       | EastAsianAmbiguous => aw
       end.
