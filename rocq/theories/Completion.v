(** Model of completion/main.go and completion/file.go. *)
From Verif Require Import Base Utf8 Moji Color Prompt Buffer Commands.

(** " \t\r\n\v\f" (completion/main.go:73) *)
Definition blanks : str := [32; 9; 13; 10; 11; 12].
(** strings.ContainsRune and strings.ContainsAny (standard library). *)
Definition contains_rune (s : str) (r : rune) : bool := existsb (Z.eqb r) (runes s).
Definition contains_any (s chars : str) : bool := existsb (contains_rune s) (runes chars).

(** completion/main.go:61-69: invalid bytes come out as U+FFFD. *)
Definition removeQuotes (s q : str) : str := encode (filter (fun c => negb (contains_rune q c)) (runes s)).

(** completion/main.go:71-116.  The two nested loops as one pass over the strings of the
    cells before the cursor ([i] is the index of the first one); [st] is the word being
    read (start, its text so far, bits), [None] while blanks are skipped.  [bits] is a Go
    int; the model does not cut it at 64 bits. *)
Definition word_state := option (Z * str * Z).
Fixpoint split_loop (quotes del : str) (l : list str) (i : Z) (st : word_state) (fields : list str) (lws : Z)
  : list str * Z :=
  match l with
  | [] =>
    match st with
    | None => (fields, lws)
    | Some (start, w, _) => (fields ++ [removeQuotes w quotes], start)
    end
  | c :: l' =>
    let word start w bits :=
      let j := str_index quotes c in
      if 0 <=? j then split_loop quotes del l' (i + 1) (Some (start, w ++ c, Z.lxor bits (Z.shiftl 1 j))) fields lws
      else if (bits =? 0) && str_contains blanks c then
        split_loop quotes del l' (i + 1) None (fields ++ [removeQuotes w quotes]) start
      else if (bits =? 0) && str_contains del c then
        split_loop quotes del l' (i + 1) None (fields ++ [removeQuotes w quotes; c]) i
      else split_loop quotes del l' (i + 1) (Some (start, w ++ c, bits)) fields lws in
    match st with
    | None => if str_contains blanks c then split_loop quotes del l' (i + 1) None fields lws else word i [] 0
    | Some (start, w, bits) => word start w bits
    end
  end.
Definition cell_str (c : cell) : str := write (c_moji c).
Definition split_line (quotes del : str) (s : buf) : option (list str * Z) :=
  let* l := slice (cells s) 0 (cursor s) in
  Some (split_loop quotes del (map cell_str l) 0 None [] 0).

(** A Completion (completion/main.go:12-16); List as a function of the fields. *)
Record completion := mkCompletion {
  Delimiters : str;
  Enclosures : str;
  List_ : list str -> option (list str * list str)
}.

Section WithFold.
(** unicode.ToUpper, and the representative strings.EqualFold compares runes by (a
    function of the orbit of unicode.SimpleFold). *)
Variables up fold : rune -> rune.

Definition EqualFold (a b : str) : bool := str_eqb (map fold (runes a)) (map fold (runes b)).

(** completion/main.go:40-52: what is left of [common] against [f]. *)
Fixpoint common_runes (a b : list rune) : list rune :=
  match a, b with
  | x :: a', y :: b' => if up x =? up y then x :: common_runes a' b' else []
  | _, _ => []
  end.
(** completion/main.go:22-57; [m] is list[minimumIndex]. *)
Fixpoint prefix_loop (common m : str) (l : list str) : str * str :=
  match l with
  | [] => (common, m)
  | f :: l' =>
    prefix_loop (encode (common_runes (runes common) (runes f))) (if zlen f <? zlen m then f else m) l'
  end.
(** completion/main.go:18-59 *)
Definition commonPrefix (l : list str) : option str :=
  match l with
  | [] => Some []
  | f :: l' => let '(common, m) := prefix_loop f f l' in slice m 0 (zlen common)
  end.

(** completion/main.go:118-125 *)
Definition hasToInsertQuotation (l : list str) (chars : str) : bool := existsb (fun s => contains_any s chars) l.

(** completion/main.go:127-135; the panic is the one of base[i]. *)
Fixpoint removeUnmatches (full base : list str) (source : str) : option (list str * list str) :=
  match full with
  | [] => Some ([], [])
  | name :: full' =>
    let* (nf, nb) := removeUnmatches full' (tl base) source in
    if (zlen source <=? zlen name) && EqualFold source (firstn (List.length source) name) then
      match base with
      | [] => None
      | b :: _ => Some (name :: nf, b :: nb)
      end
    else Some (nf, nb)
  end.

Section WithCfg.
Variable C : cfg.

(** completion/main.go:137-175; the list is what the caller gets to show. *)
Definition complete (quotes del : str) (P : completion) (postfix : str) (s : buf) : option (buf * list str) :=
  let* (fields, lws) := split_line quotes del s in
  match rev fields with
  | [] => Some (s, [])
  | word :: _ =>
    let* (list0, base0) := List_ P fields in
    let base1 := match base0 with [] => list0 | _ => base0 end in
    let* (l, bl) := removeUnmatches list0 base1 word in
    match l with
    | [] => Some (s, [])
    | [str] =>
      if EqualFold word str then Some (emit s [TBell], [])
      else
        let ins := match quotes, del with
                   | q :: _, _ :: _ => if contains_any str (blanks ++ del) then encode_rune q ++ str ++ encode_rune q else str
                   | _, _ => str
                   end in
        let* s' := ReplaceAndRepaint C s lws (ins ++ postfix) in Some (s', [])
    | _ =>
      let* prefix := commonPrefix l in
      if EqualFold word prefix then Some (emit s [TBell], bl)
      else
        let ins := match quotes with
                   | q :: _ => if hasToInsertQuotation l (blanks ++ del) then encode_rune q ++ prefix else prefix
                   | _ => prefix
                   end in
        let* s' := ReplaceAndRepaint C s lws ins in Some (s', [])
    end
  end.

(** completion/main.go:177-189 *)
Definition CmdCompletion (P : completion) (postfix : str) : cmd :=
  CUser (fun s => let* (s', _) := complete (Enclosures P) (Delimiters P) P postfix s in Some (s', CONTINUE)).

(** completion/main.go:191-208; [box] is the text box.Print writes for a list. *)
Definition CmdCompletionOrList (box : list str -> str) (P : completion) (postfix : str) : cmd :=
  CUser (fun s =>
    let* (s', l) := complete (Enclosures P) (Delimiters P) P postfix s in
    match l with
    | [] => Some (s', CONTINUE)
    | _ => let* s2 := RepaintAll C (emit s' [TNewline; TAttr (box l)]) in Some (s2, CONTINUE)
    end).
End WithCfg.

(** completion/file.go on a system whose path separator is '/'.  A directory entry: its
    name, and whether its type has the bit ModeDir or ModeSymlink.  [read_dir] is
    os.ReadDir ([None]: an error), taken not to change during the call. *)
Definition slash : Z := 47.
Definition entry := (str * bool)%type.
Section WithFiles.
Variable read_dir : str -> option (list entry).

(** completion/file.go:19-24 *)
Definition zeroToOneDot (d : str) : str := match d with [] => [46] | _ => d end.
(** filepath.Base (standard library) of a path that does not end with '/': what follows
    the last '/'. *)
Fixpoint until_slash (l : str) : str := match l with [] => [] | b :: l' => if b =? slash then [] else b :: until_slash l' end.
Definition path_base (t : str) : str := rev (until_slash (rev t)).

(** completion/file.go:64-80: one entry. *)
Definition dot_name (name : str) : bool := str_eqb name [46] || str_eqb name [46; 46].
Definition matches (base name : str) : bool :=
  negb (dot_name name) && negb (zlen name <? zlen base) && EqualFold base (firstn (List.length base) name).
Definition listed (dir base : str) (e : entry) : list (str * str) :=
  let '(name, is_dir) := e in
  if matches base name then
    let suffix := if is_dir then [slash] else [] in [(dir ++ name ++ suffix, name ++ suffix)]
  else [].
(** completion/file.go:47-87; [acc] is fullnames and basenames so far.  [None] is a loop
    not finished within the fuel. *)
Fixpoint list_loop (fuel : nat) (dir base : str) (acc : list (str * str)) : option (list (str * str)) :=
  match fuel with
  | O => None
  | S f =>
    match read_dir (zeroToOneDot dir) with
    | None => Some acc
    | Some es =>
      let acc' := acc ++ flat_map (listed dir base) es in
      match acc' with
      | [(full, _)] => if has_suffix full [slash] then list_loop f full [] acc' else Some acc'
      | _ => Some acc'
      end
    end
  end.

(** completion/file.go:26-88: [Panics], [Runs on] beyond the fuel, or the names. *)
Inductive listing := LPanic | LMore | LNames (full base : list str).
Definition File_List (fuel : nat) (fields : list str) : listing :=
  match rev fields with
  | [] => LNames [] []
  | target :: _ =>
    match rev target with
    | [] => LPanic
    | tail :: _ =>
      let '(base, dir) := if tail =? slash then ([], target)
                          else (path_base target, firstn (List.length target - List.length (path_base target)) target) in
      match list_loop fuel dir base [] with
      | None => LMore
      | Some l => LNames (map fst l) (map snd l)
      end
    end
  end.
(** completion/file.go:11-17; as a Completion for the cases in which List returns. *)
Definition File (fuel : nat) : completion :=
  mkCompletion [38; 124; 62; 60; 59] [34; 39]
    (fun fields => match File_List fuel fields with LNames f b => Some (f, b) | _ => None end).
End WithFiles.
End WithFold.
