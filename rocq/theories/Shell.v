(** The programs examples/example2.go (a tiny shell) and examples/example160.go (a predictor
    that does not look at blanks around the line), with the functions of strings they use. *)
From Verif Require Import Base Utf8 Moji Color Prompt Buffer Commands KeyMap Session Repl.

(** A string cut where ranging over it cuts it: each code point with its bytes; a byte that
    belongs to no code point stands for U+FFFD.  [fuel] is the number of bytes. *)
Fixpoint pieces_loop (fuel : nat) (s : str) : list (rune * str) :=
  match fuel, s with
  | S fuel', _ :: _ => let n := snd (decode_rune s) in (fst (decode_rune s), firstn n s) :: pieces_loop fuel' (skipn n s)
  | _, _ => []
  end.
Definition pieces (s : str) : list (rune * str) := pieces_loop (List.length s) s.
Definition joined (l : list (rune * str)) : str := flat_map snd l.

(** strings.TrimSpace (standard library): without the blanks (unicode.IsSpace) at both ends. *)
Definition blank (p : rune * str) : bool := is_space (fst p).
Fixpoint drop_blanks (l : list (rune * str)) : list (rune * str) :=
  match l with
  | [] => []
  | p :: l' => if blank p then drop_blanks l' else l
  end.
Definition TrimSpace (s : str) : str := joined (rev (drop_blanks (rev (drop_blanks (pieces s))))).
(** strings.Fields (standard library): the stretches without blanks. *)
Fixpoint fields_loop (field : str) (l : list (rune * str)) : list str :=
  match l with
  | [] => match field with [] => [] | _ => [field] end
  | p :: l' => if blank p then match field with [] => fields_loop [] l' | _ => field :: fields_loop [] l' end
               else fields_loop (field ++ snd p) l'
  end.
Definition Fields (s : str) : list str := fields_loop [] (pieces s).

(** examples/example2.go:43-64 (the loop of main), with Editor.Cursor kept from call to call
    as in Repl.v: what was entered, which commands were run (os/exec is outside the model),
    the history at the end; the loop ends when ReadLine reports an error.  None when a call
    panics or still waits for input after the turn's events. *)
Inductive did := Entered (text : str) | Ran (fields : list str).
Fixpoint shell (S : container -> scfg) (turns : list turn) (h : container) (cur : Z) : option (list did * container) :=
  match turns with
  | [] => Some ([], h)
  | t :: turns =>
      match readline (S h) (t_default t) cur (t_width t) (t_clip t) (t_events t) with
      | Some (Finished s text RNil) =>
          match Fields text with
          | [] => let* (d, h') := shell S turns h (cursor s) in Some (Entered text :: d, h')
          | fs => let* (d, h') := shell S turns (container_add h text) (cursor s) in Some (Entered text :: Ran fs :: d, h')
          end
      | Some (Finished _ _ _) => Some ([], h)
      | _ => None
      end
  end.

(** examples/example160.go:12-21 (predictByHistory); [l] is the history, newest first. *)
Fixpoint predict_trimmed_loop (l : list str) (current : str) : str :=
  match l with
  | [] => []
  | h :: l' => if has_prefix (TrimSpace h) current then skipn (List.length current) (TrimSpace h) else predict_trimmed_loop l' current
  end.
Definition predictTrimmed (h : list str) (text : str) (cur : Z) : str := predict_trimmed_loop (rev h) (TrimSpace text).
