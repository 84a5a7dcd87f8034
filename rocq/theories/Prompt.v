(** Model of the prompt width computation in main.go. *)
From Verif Require Import Base Utf8 Moji.

Section WithEnv.
Variable E : env.

(** main.go:81-114; [b] is the variable buffer, [esc] and [title] the two flags. *)
Fixpoint cut_loop (s : str) (b : str) (esc title : bool) : str :=
  match s with
  | [] => b
  | r :: s' =>
    if (r =? 13) || (r =? 10) then cut_loop s' [] esc title
    else if r =? 27 then cut_loop s' b true title
    else if title then
      if r =? 7 then cut_loop s' b false false else cut_loop s' b esc title
    else if esc then
      if r =? 93 then cut_loop s' b esc true
      else if in_range r 65 90 || in_range r 97 122 then cut_loop s' b false title
      else cut_loop s' b esc title
    else if r =? 8 then
      let '(lr, siz) := decode_last_rune b in
      if lr =? RuneError then cut_loop s' b esc title
      else cut_loop s' (firstn (List.length b - siz) b) esc title
    else cut_loop s' (b ++ [r]) esc title
  end.
Definition cutEscapeSequenceAndOldLine (s : str) : str := cut_loop s [] false false.

(** main.go:116-127: text written and width returned.  The output writer is taken not
    to fail, and PromptWriter ([None] = nil) to write the same text on every call. *)
Definition callPromptWriter (p : option str) : str * Z :=
  match p with
  | None => ([10; 62; 32], 2)
  | Some t => (t, fst (MojiWidthAndCountInString E (cutEscapeSequenceAndOldLine t)))
  end.

(** strings.ReplaceAll(s, "\n", "\r") *)
Definition nl_to_cr (s : str) : str := map (fun c => if c =? 10 then 13 else c) s.

(** repaints.go:117-126: the prompt text of RepaintLastLine. *)
Definition last_line_prompt (p : option str) : str :=
  match p with
  | None => [13; 62; 32]
  | Some t => nl_to_cr (13 :: t)
  end.
End WithEnv.
