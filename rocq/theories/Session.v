(** Model of Editor.ReadLine (main.go) as a state machine driven by events, including
    the commands that read keys themselves: quoted insert (gommand.go) and incremental
    search (isearch.go). *)
From Verif Require Import Base Utf8 Moji Color Prompt Buffer Commands KeyMap.

(** The editor: the fixed part and the two key maps. *)
Record scfg := mkScfg {
  base : cfg;
  kmap : keymap;     (* Editor.KeyMap *)
  gmap : keymap      (* the package variable GlobalKeyMap *)
}.

(** isearch.go:20-23: searchStr (= contents of searchBuf), foundStr, lastFoundPos. *)
Record search := mkSearch { ss_str : str; ss_found : str; ss_pos : Z }.

Inductive mode := MNormal | MQuoted | MSearch (ss : search).

(** The error values ReadLine returns. *)
Inductive rerr := RNil | RCtrlC | REOF | RKeyError.

(** [Running]: blocked in Tty.GetKey.  [Finished]: ReadLine returned text and error. *)
Inductive sess :=
| Running (m : mode) (s : buf)
| Finished (s : buf) (text : str) (e : rerr).

(** What can happen while ReadLine waits for a key: a key, a read error, the resize
    callback, another program changing the clipboard. *)
Inductive event :=
| EKey (k : str)
| EKeyErr
| EResize (w : Z)
| EClip (c : option str).

Section WithCfg.
Variable S : scfg.
Notation C := (base S).
Notation E := (cE C).

(** isearch.go:12-14 *)
Definition ci_contains (s t : str) : bool := str_contains (upper C s) (upper C t).

(** isearch.go:26-39; [l] is the history, newest first, [i] the index of its head. *)
Fixpoint search_update (l : list str) (i : Z) (ss : search) : search :=
  match l with
  | [] => mkSearch (ss_str ss) [] (ss_pos ss)
  | line :: l' =>
    if ci_contains line (ss_str ss) then mkSearch (ss_str ss) line i
    else search_update l' (i - 1) ss
  end.
Definition update (ss : search) : search :=
  search_update (rev (hist C)) (zlen (hist C) - 1) ss.

(** isearch.go:92-105 (Ctrl-R); running out of fuel or of history is [None]. *)
Fixpoint search_older (fuel : nat) (i : Z) (ss : search) : option search :=
  match fuel with
  | O => None
  | Datatypes.S f =>
    let i := if i <? 0 then zlen (hist C) - 1 else i in
    if i =? ss_pos ss then Some ss
    else
      let* line := index (hist C) i in
      if ci_contains line (ss_str ss) && negb (str_eqb (ss_found ss) line)
      then Some (mkSearch (ss_str ss) line i)
      else search_older f (i - 1) ss
  end.

(** isearch.go:107-120 (Ctrl-S) *)
Fixpoint search_newer (fuel : nat) (i : Z) (ss : search) : option search :=
  match fuel with
  | O => None
  | Datatypes.S f =>
    if zlen (hist C) <=? i then Some ss
    else if i =? ss_pos ss then Some ss
    else
      let* line := index (hist C) i in
      if ci_contains line (ss_str ss) && negb (str_eqb (ss_found ss) line)
      then Some (mkSearch (ss_str ss) line i)
      else search_newer f (i + 1) ss
  end.

(** isearch.go:43-50 *)
Fixpoint search_paint (vw w : Z) (l : list moji) : option (list tok) :=
  match l with
  | [] => Some []
  | m :: l' =>
    let w1 := width E m in
    if vw <=? w + w1 then Some []
    else let* _ := print E m in
         let* ts := search_paint vw (w + w1) l' in
         Some (TMoji m :: ts)
  end.
(** isearch.go:41-53: draw the search line and wait for a key. *)
Definition search_wait (ss : search) (s : buf) : option sess :=
  let draw := s2l "(i-search)[" ++ ss_str ss ++ s2l "]:" ++ ss_found ss in
  let* ts := search_paint (ViewWidth s) 0 (StringToMoji E draw) in
  Some (Running (MSearch ss) (emit s (ts ++ [TErase; TCursorOn; TFlush]))).

(** isearch.go:62-71: remove the last character. *)
Definition chop (t : str) : str := encode (removelast (runes t)).

(** What a key does in search mode (isearch.go:60-129). *)
Inductive search_act := SContinue (ss : search) | SAccept | SCancel.
Definition search_key (k : str) (ss : search) : option search_act :=
  if str_eqb k [8] || str_eqb k [127] then
    Some (SContinue (update (mkSearch (chop (ss_str ss)) (ss_found ss) (ss_pos ss))))
  else if str_eqb k [13] then Some SAccept
  else if str_eqb k [3] || str_eqb k [7] || str_eqb k [27] then Some SCancel
  else if str_eqb k [18] then
    let* ss' := search_older (Datatypes.S (List.length (hist C))) (ss_pos ss - 1) ss in
    Some (SContinue ss')
  else if str_eqb k [19] then
    let* ss' := search_newer (Datatypes.S (Datatypes.S (List.length (hist C)))) (ss_pos ss + 1) ss in
    Some (SContinue ss')
  else
    let '(r, _) := decode_rune k in
    if is_control r then Some (SContinue ss)
    else Some (SContinue (update (mkSearch (ss_str ss ++ encode_rune r) (ss_found ss) (ss_pos ss)))).

(** isearch.go:74-83 *)
Definition search_accept (ss : search) (s : buf) : option buf :=
  let s1 := push_undo (set_view s 0) (mkUndo 0 0 (cell2string (cells s))) in
  ReplaceAndRepaint C (set_cursor (set_cells s1 []) 0) 0 (ss_found ss).

(** isearch.go:85-90 *)
Definition search_cancel (s : buf) : option buf :=
  let* (e, _) := getView2 C s in
  let* s1 := puts C s (view s) e in
  let s2 := GotoHead (eraseline s1) in
  puts C s2 (view s2) (cursor s2).

(** main.go:226-247 and the deferred functions (main.go:163-166,186). *)
Definition result_err (rc : result) : rerr :=
  match rc with ENTER => RNil | INTR => RCtrlC | _ => REOF end.
Definition result_code (rc : result) : Z :=
  match rc with CONTINUE => 0 | ENTER => 1 | ABORT => 2 | INTR => 3 end.
Definition finish (rc : result) (s : buf) : option sess :=
  let* s1 := match suffix s with
             | None => Some s
             | Some _ => repaintWithoutUpdateSuffix C (set_suffix s None)
             end in
  Some (Finished (emit s1 [TLineFeed (result_code rc); TFlush; TCursorOn; TFlush])
                 (buf_string s1) (result_err rc)).

(** main.go:224-248: after the command returned [rc]. *)
Definition after_command (o : option (buf * result)) : option sess :=
  let* (s, rc) := o in
  let s1 := emit s [TCursorOn] in
  match rc with
  | CONTINUE => Some (Running MNormal (emit s1 [TFlush]))
  | _ => finish rc s1
  end.

(** main.go:216-248 for one key; quoted insert (gommand.go:316-319) and search
    (isearch.go:19-24) only start here. *)
Definition key_normal (k : str) (s : buf) : option sess :=
  let s0 := emit s [TCursorOff] in
  match LookupCommand (kmap S) (gmap S) k with
  | CQuotedInsert => Some (Running MQuoted (emit s0 [TCursorOn; TFlush]))
  | CISearchBackward => search_wait (mkSearch [] [] (zlen (hist C) - 1)) (GotoHead s0)
  | c => after_command (exec C c s0)
  end.

(** gommand.go:319-322; the argument of the deferred io.WriteString is evaluated early
    but the write happens at the return. *)
Definition key_quoted (k : str) (s : buf) : option sess :=
  after_command (let* s1 := selfInsert C k s in Some (emit s1 [TCursorOff], CONTINUE)).

Definition key_search (ss : search) (k : str) (s : buf) : option sess :=
  let s1 := GotoHead (emit s [TCursorOff]) in
  let* a := search_key k ss in
  match a with
  | SContinue ss' => search_wait ss' s1
  | SAccept => after_command (continue_ (search_accept ss s1))
  | SCancel => after_command (continue_ (search_cancel s1))
  end.

(** main.go:175-181.  While a command runs the mutex is held, so the callback waits;
    in the model it then comes later in the event list, and an EResize in another mode
    than MNormal stands for nothing. *)
Definition on_resize (w : Z) (s : buf) : option buf :=
  RepaintLastLine C (ResetViewStart C (set_termw s w)).

Definition step (e : event) (x : sess) : option sess :=
  match x with
  | Finished _ _ _ => Some x
  | Running m s =>
    match e with
    | EClip c => Some (Running m (set_clip s c))
    | EResize w =>
      match m with
      | MNormal => let* s1 := on_resize w s in Some (Running MNormal s1)
      | _ => Some x
      end
    | EKey k =>
      match m with
      | MNormal => key_normal k s
      | MQuoted => key_quoted k s
      | MSearch ss => key_search ss k s
      end
    | EKeyErr =>
      match m with
      | MNormal => Some (Finished (emit s [TCursorOn; TFlush]) [] RKeyError)   (* main.go:213-215 *)
      | MQuoted => after_command (Some (emit s [TCursorOff], CONTINUE))        (* gommand.go:319-322 *)
      | MSearch _ => after_command (Some (s, CONTINUE))                        (* isearch.go:54-57 *)
      end
    end
  end.

Fixpoint run (es : list event) (x : sess) : option sess :=
  match es with
  | [] => Some x
  | e :: es' => let* x' := step e x in run es' x'
  end.

(** main.go:168-210: ReadLine up to the first key, for a terminal of width [w] whose
    Open and Size succeed.  [default] is Editor.Default, [cur] the value Editor.Cursor
    has when ReadLine is called, [cl] the clipboard. *)
Definition start (default : str) (cur w : Z) (cl : option str) : option sess :=
  let s0 := mkBuf [] None 0 cur w 0 (zlen (hist C)) [] [] [] cl [] in
  let '(t, pw) := callPromptWriter E (prompt C) in
  let s1 := set_topc (emit s0 [TPrompt t]) pw in
  let s2 := if termw s1 - 3 <=? topc s1 then set_topc (emit s1 [TNewline]) 0 else s1 in
  let* (s3, _) := InsertString C s2 0 default in
  let s4 := if zlen (cells s3) <? cursor s3 then set_cursor s3 (zlen (cells s3)) else s3 in
  let* s5 := RepaintAfterPrompt C s4 in
  Some (Running MNormal (emit s5 [TCursorOn; TFlush])).

(** A whole ReadLine. *)
Definition readline (default : str) (cur w : Z) (cl : option str) (es : list event) : option sess :=
  let* x := start default cur w cl in run es x.

End WithCfg.
