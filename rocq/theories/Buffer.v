(** Model of buffer.go and repaints.go: the edit buffer, its undo records and the
    painting of the edit line (as a list of output tokens). *)
From Verif Require Import Base Utf8 Moji Color Prompt.

(** buffer.go:19-23 *)
Record cell := mkCell { c_moji : moji; c_color : Z; c_pos : Z }.

(** buffer.go:13-17 *)
Record undo := mkUndo { u_pos : Z; u_del : Z; u_text : str }.

(** What is written to Editor.Out, one token per write of the code.  [tok_bytes] gives
    the bytes. *)
Inductive tok :=
| TMoji (m : moji)         (* Moji.PrintTo *)
| TColor (c : Z)           (* ColorSequence.WriteTo *)
| TGoto (col : Z)          (* "\x1B[%dG" *)
| TErase                   (* "\x1B[0K" *)
| TAttr (s : str)          (* PredictColor[0], PredictColor[1] *)
| TPrompt (s : str)        (* the prompt *)
| TClear                   (* "\x1B[1;1H\x1B[2J" *)
| TNewline                 (* "\n" *)
| TBell                    (* "\a" *)
| TCursorOn                (* ansiCursorOn *)
| TCursorOff               (* ansiCursorOff *)
| TLineFeed (rc : Z)       (* whatever LineFeedWriter writes for that result *)
| TFlush.                  (* Out.Flush() *)

(** buffer.go:32-43; the cursor is the field of the embedded Editor.  [undoes] has the
    newest record first.  [suffix = None] is the nil slice.  [clip] is the clipboard
    ([None]: not available), [out] the output so far. *)
Record buf := mkBuf {
  cells : list cell;
  suffix : option (list moji);
  view : Z;
  cursor : Z;
  termw : Z;
  topc : Z;
  hptr : Z;
  undoes : list undo;
  pending : str;
  modh : list (Z * str);
  clip : option str;
  out : list tok
}.

(** The part of Editor that stays fixed during a ReadLine (main.go:40-55). [predictor]
    is Editor.Predictor as a function of the text and the cursor; [prompt] is what
    PromptWriter writes, [upper] is strings.ToUpper. *)
Record cfg := mkCfg {
  cE : env;
  hist : list str;
  cycling : bool;
  pcolor0 : str;
  pcolor1 : str;
  predictor : str -> Z -> str;
  prompt : option str;
  ccol : coloring;
  upper : str -> str
}.

Definition set_cells (s : buf) l := mkBuf l (suffix s) (view s) (cursor s) (termw s) (topc s) (hptr s) (undoes s) (pending s) (modh s) (clip s) (out s).
Definition set_suffix (s : buf) x := mkBuf (cells s) x (view s) (cursor s) (termw s) (topc s) (hptr s) (undoes s) (pending s) (modh s) (clip s) (out s).
Definition set_view (s : buf) x := mkBuf (cells s) (suffix s) x (cursor s) (termw s) (topc s) (hptr s) (undoes s) (pending s) (modh s) (clip s) (out s).
Definition set_cursor (s : buf) x := mkBuf (cells s) (suffix s) (view s) x (termw s) (topc s) (hptr s) (undoes s) (pending s) (modh s) (clip s) (out s).
Definition set_termw (s : buf) x := mkBuf (cells s) (suffix s) (view s) (cursor s) x (topc s) (hptr s) (undoes s) (pending s) (modh s) (clip s) (out s).
Definition set_topc (s : buf) x := mkBuf (cells s) (suffix s) (view s) (cursor s) (termw s) x (hptr s) (undoes s) (pending s) (modh s) (clip s) (out s).
Definition set_hptr (s : buf) x := mkBuf (cells s) (suffix s) (view s) (cursor s) (termw s) (topc s) x (undoes s) (pending s) (modh s) (clip s) (out s).
Definition set_undoes (s : buf) x := mkBuf (cells s) (suffix s) (view s) (cursor s) (termw s) (topc s) (hptr s) x (pending s) (modh s) (clip s) (out s).
Definition set_pending (s : buf) x := mkBuf (cells s) (suffix s) (view s) (cursor s) (termw s) (topc s) (hptr s) (undoes s) x (modh s) (clip s) (out s).
Definition set_modh (s : buf) x := mkBuf (cells s) (suffix s) (view s) (cursor s) (termw s) (topc s) (hptr s) (undoes s) (pending s) x (clip s) (out s).
Definition set_clip (s : buf) x := mkBuf (cells s) (suffix s) (view s) (cursor s) (termw s) (topc s) (hptr s) (undoes s) (pending s) (modh s) x (out s).
Definition emit (s : buf) (l : list tok) := mkBuf (cells s) (suffix s) (view s) (cursor s) (termw s) (topc s) (hptr s) (undoes s) (pending s) (modh s) (clip s) (out s ++ l).

Definition push_undo (s : buf) (u : undo) : buf := set_undoes s (u :: undoes s).

(** buffer.go:11 *)
Definition forbiddenWidth : Z := 3.

(** buffer.go:277-283 *)
Definition cell2string (l : list cell) : str := flat_map (fun c => write (c_moji c)) l.

(** buffer.go:178-180 *)
Definition buf_string (s : buf) : str := cell2string (cells s).

Section WithCfg.
Variable C : cfg.
Notation E := (cE C).

(** buffer.go:270-275 *)
Fixpoint range_width (l : list cell) : Z :=
  match l with [] => 0 | c :: l' => width E (c_moji c) + range_width l' end.

(** buffer.go:45-53 *)
Definition Suffix (s : buf) : list moji :=
  match pcolor0 C with
  | [] => []
  | _ => if cursor s =? zlen (cells s)
         then match suffix s with None => [] | Some l => l end
         else []
  end.

(** buffer.go:66-75 *)
Definition updateSuffix (s : buf) : buf :=
  match pcolor0 C with
  | [] => s
  | _ =>
    match cells s with
    | [] => set_suffix s None
    | _ => set_suffix s (Some (StringToMoji E (predictor C (buf_string s) (cursor s))))
    end
  end.

(** buffer.go:78-80 *)
Definition ViewWidth (s : buf) : Z := termw s - topc s - forbiddenWidth.

(** buffer.go:82-94: how many cells of the slice fit, and their width. *)
Fixpoint view_fit (vw w : Z) (l : list cell) : nat * Z :=
  match l with
  | [] => (0%nat, w)
  | c :: l' =>
    let w' := w + width E (c_moji c) in
    if vw <=? w' then (0%nat, w)
    else let '(n, w2) := view_fit vw w' l' in (S n, w2)
  end.
(** buffer.go:82-94: the end index (in Buffer) of the visible range, and its width. *)
Definition getView (s : buf) : option (Z * Z) :=
  let* v := slice (cells s) (view s) (zlen (cells s)) in
  let '(n, w) := view_fit (ViewWidth s) 0 v in
  Some (view s + Z.of_nat n, w).

(** buffer.go:96-100: the second range is Buffer[ViewStart:Cursor]; the panic is the
    one of v[:x]. *)
Definition getView2 (s : buf) : option (Z * Z) :=
  let* vw := getView s in
  let* _ := slice (cells s) (view s) (cursor s) in
  Some vw.

(** buffer.go:112-118 *)
Definition mojis2cells (l : list moji) : list cell := map (fun m => mkCell m 0 0) l.

(** buffer.go:102-110 *)
Definition insert (s : buf) (pos : Z) (l : list cell) : option buf :=
  let* l' := sliceInsert (cells s) pos l in
  Some (push_undo (set_cells s l') (mkUndo pos (zlen l) [])).

(** buffer.go:120-124 *)
Definition insertString (s : buf) (pos : Z) (t : str) : option (buf * list cell) :=
  let l := mojis2cells (StringToMoji E t) in
  let* s' := insert s pos l in
  Some (s', l).

(** buffer.go:128-130 *)
Definition InsertString (s : buf) (pos : Z) (t : str) : option (buf * Z) :=
  let* (s', l) := insertString s pos t in
  Some (s', zlen l).

(** buffer.go:169-171 *)
Definition GetWidthBetween (s : buf) (a b : Z) : option Z :=
  let* l := slice (cells s) a b in Some (range_width l).

(** buffer.go:174-176 *)
Definition SubString (s : buf) (a b : Z) : option str :=
  let* l := slice (cells s) a b in Some (cell2string l).

(** buffer.go:135-148 *)
Definition Delete (s : buf) (pos n : Z) : option (buf * Z) :=
  if (n <=? 0) || (zlen (cells s) <? pos + n) then Some (s, 0)
  else
    let* t := SubString s pos (pos + n) in
    let s1 := push_undo s (mkUndo pos 0 t) in
    let* delw := GetWidthBetween s1 pos (pos + n) in
    let* l := sliceDelete (cells s1) pos n in
    Some (set_cells s1 l, delw).

(** buffer.go:157-164, the inner loop; [r] is Buffer[ViewStart:], the flag tells whether
    the function returned. *)
Fixpoint rvs_shrink (vw w vs : Z) (r : list cell) : Z * Z * list cell * bool :=
  if vw <=? w then
    match r with
    | [] => (w, vs, [], true)
    | c :: r' => rvs_shrink vw (w - width E (c_moji c)) (vs + 1) r'
    end
  else (w, vs, r, false).
(** buffer.go:152-166 *)
Fixpoint rvs_loop (vw cur i w vs : Z) (r l : list cell) : Z :=
  match l with
  | [] => vs
  | c :: l' =>
    if i <=? cur then
      let '(w', vs', r', ret) := rvs_shrink vw (w + width E (c_moji c)) vs r in
      if ret then vs' else rvs_loop vw cur (i + 1) w' vs' r' l'
    else vs
  end.
Definition ResetViewStart (s : buf) : buf :=
  set_view s (rvs_loop (ViewWidth s) (cursor s) 0 0 0 (cells s) (cells s)).

(** buffer.go:218-240; [undoes] has the newest record first. *)
Definition join2 (u1 u2 : undo) : option undo :=
  if negb (u_pos u1 =? u_pos u2) then None
  else if negb (str_eqb (u_text u1) []) && negb (str_eqb (u_text u2) []) then None
  else if negb (u_del u1 =? 0) && negb (u_del u2 =? 0) then None
  else Some (mkUndo (u_pos u1)
               (if u_del u1 =? 0 then u_del u2 else u_del u1)
               (if str_eqb (u_text u1) [] then u_text u2 else u_text u1)).
Definition joinUndo (s : buf) : buf :=
  match undoes s with
  | u2 :: u1 :: rest =>
    match join2 u1 u2 with
    | Some u => set_undoes s (u :: rest)
    | None => s
    end
  | _ => s
  end.

(** repaints.go:12 *)
Definition CursorPositionDummyRune : rune := 57344.

(** repaints.go:32-34: the colour of a unit fed to the Coloring rune by rune; [past] is
    what Next has received so far, most recent first. *)
Fixpoint feed (past : list rune) (cs : Z) (rs : list rune) : list rune * Z :=
  match rs with
  | [] => (past, cs)
  | r :: rs' => feed (r :: past) (c_next (ccol C) past r) rs'
  end.

(** repaints.go:23-34: the runes Next gets for a unit. *)
Definition unit_runes (m : moji) : option (list rune) :=
  match m with
  | MTab _ => Some [9]
  | _ => match MojiToRune m with
         | Some r => Some [r]
         | None => let* p := print E m in Some (runes p)
         end
  end.

(** repaints.go:15-44.  Returns the cells with new colours and positions and what Next
    received.  A Tab that is a unit of its own gets its position; its Width below is
    that of the new position, because the cell holds a pointer. *)
Fixpoint refresh_loop (cur i pos : Z) (past : list rune) (l : list cell)
  : option (list cell * list rune) :=
  match l with
  | [] => Some ([], if i =? cur then CursorPositionDummyRune :: past else past)
  | c :: l' =>
    let past1 := if i =? cur then CursorPositionDummyRune :: past else past in
    let* rs := unit_runes (c_moji c) in
    let '(past2, col) := feed past1 0 rs in
    let m' := match c_moji c with MTab _ => MTab pos | m => m end in
    let* (l2, past3) := refresh_loop cur (i + 1) (wrap16 (pos + width E m')) past2 l' in
    Some (mkCell m' col pos :: l2, past3)
  end.
Definition refreshColor (s : buf) : option buf :=
  let* (l, _) := refresh_loop (cursor s) 0 0 [] (cells s) in
  Some (set_cells s l).

(** buffer.go:254-268, the loop: tokens and the last colour set. *)
Fixpoint paint (color : Z) (l : list cell) : option (list tok * Z) :=
  match l with
  | [] => Some ([], color)
  | c :: l' =>
    let tc := if c_color c =? color then [] else [TColor (c_color c)] in
    let* _ := print E (c_moji c) in
    let* (ts, col) := paint (c_color c) l' in
    Some (tc ++ TMoji (c_moji c) :: ts, col)
  end.
(** buffer.go:254-268, for the slice Buffer[a:b]: every caller passes such a slice, and
    refreshColor writes colours and tab positions through the shared array. *)
Definition puts (s : buf) (a b : Z) : option buf :=
  let* s1 := refreshColor s in
  let* seg := slice (cells s1) a b in
  let* (ts, color) := paint (-1) seg in
  let d := c_init (ccol C) in
  Some (emit s1 (ts ++ if color =? d then [] else [TColor d])).

(** repaints.go:53-55 *)
Definition GotoHead (s : buf) : buf := emit s [TGoto (topc s + 1)].
(** buffer.go:248-250 *)
Definition eraseline (s : buf) : buf := emit s [TErase].

(** repaints.go:68-74 *)
Fixpoint paint_suffix (vw w : Z) (l : list moji) : option (list tok) :=
  match l with
  | [] => Some []
  | m :: l' =>
    let w' := w + width E m in
    if vw <=? w' then Some []
    else let* _ := print E m in
         let* ts := paint_suffix vw w' l' in
         Some (TMoji m :: ts)
  end.

(** repaints.go:62-80 *)
Definition repaintWithoutUpdateSuffix (s : buf) : option buf :=
  let* (e, w) := getView2 s in
  let s1 := GotoHead s in
  let* s2 := puts s1 (view s1) e in
  let* s3 :=
    match pcolor0 C, suffix s2 with
    | _ :: _, Some (_ :: _) =>
      let* ts := paint_suffix (ViewWidth s2) w (Suffix s2) in
      Some (emit s2 (TAttr (pcolor0 C) :: ts ++ [TAttr (pcolor1 C)]))
    | _, _ => Some s2
    end in
  let s4 := GotoHead (eraseline s3) in
  puts s4 (view s4) (cursor s4).

(** repaints.go:57-60 *)
Definition repaint (s : buf) : option buf := repaintWithoutUpdateSuffix (updateSuffix s).

(** repaints.go:89-98 *)
Definition ReplaceAndRepaint (s : buf) (pos : Z) (t : str) : option buf :=
  let* (s1, _) := Delete s pos (cursor s - pos) in
  let* (s2, n) := InsertString s1 pos t in
  let s3 := joinUndo (set_cursor s2 (pos + n)) in
  repaint (ResetViewStart s3).

(** repaints.go:47-49 *)
Definition InsertAndRepaint (s : buf) (t : str) : option buf := ReplaceAndRepaint s (cursor s) t.

(** repaints.go:101-104 *)
Definition RepaintAfterPrompt (s : buf) : option buf := repaint (ResetViewStart s).

(** repaints.go:107-111 *)
Definition RepaintAll (s : buf) : option buf :=
  let '(t, w) := callPromptWriter E (prompt C) in
  repaint (set_topc (emit s [TFlush; TPrompt t]) w).

(** repaints.go:115-129 *)
Definition RepaintLastLine (s : buf) : option buf :=
  repaint (emit s [TFlush; TPrompt (last_line_prompt (prompt C))]).

(** buffer.go:184,187-210: Delimiters is the package variable's initial value.  [quoted]
    is quotedchar (0 = none), [top] is wordTop. *)
Definition is_delimiter (r : rune) : bool := (r =? 34) || (r =? 39).
Fixpoint word_loop (i quoted top : Z) (l : list moji) : Z :=
  match l with
  | [] => top
  | m :: l' =>
    match MojiToRune m with
    | None => word_loop (i + 1) quoted top l'
    | Some ch =>
      let q := if quoted =? 0 then (if is_delimiter ch then ch else quoted)
               else if ch =? quoted then 0 else quoted in
      let top' := if is_space ch && (q =? 0) then -1
                  else if top <? 0 then i else top in
      word_loop (i + 1) q top' l'
    end
  end.
Definition CurrentWordTop (s : buf) : option Z :=
  let* l := slice (cells s) 0 (cursor s) in
  let top := word_loop 0 0 (-1) (map c_moji l) in
  Some (if top <? 0 then cursor s else top).

(** buffer.go:213-216 *)
Definition CurrentWord (s : buf) : option (str * Z) :=
  let* st := CurrentWordTop s in
  let* w := SubString s st (cursor s) in
  Some (w, st).

(** buffer.go:55-64 (default Editor.Predictor); [l] is the history, newest first. *)
Fixpoint predict_loop (l : list str) (current : str) : str :=
  match l with
  | [] => []
  | h :: l' => if has_prefix h current then skipn (List.length current) h
               else predict_loop l' current
  end.
End WithCfg.
Definition predictByHistory (h : list str) (current : str) (cur : Z) : str :=
  predict_loop (rev h) current.

(** The bytes of a token. [lf] stands for LineFeedWriter (nil writes "\n"). *)
Definition tok_bytes (E : env) (lf : Z -> str) (t : tok) : str :=
  match t with
  | TMoji m => match print E m with Some b => b | None => [] end
  | TColor c => color_write c
  | TGoto col => [27; 91] ++ dec col ++ [71]
  | TErase => [27; 91; 48; 75]
  | TAttr s | TPrompt s => s
  | TClear => [27; 91; 49; 59; 49; 72; 27; 91; 50; 74]
  | TNewline => [10]
  | TBell => [7]
  | TCursorOn => [27; 91; 63; 50; 53; 104; 27; 91; 115; 27; 91; 117]
  | TCursorOff => [27; 91; 63; 50; 53; 108]
  | TLineFeed rc => lf rc
  | TFlush => []
  end.
