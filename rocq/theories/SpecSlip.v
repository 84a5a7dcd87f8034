(** The editor on paper with a slip beside it: what the Predictor said when it was last asked. *)
From Verif Require Import Base Utf8 Moji Buffer Commands KeyMap Session Spec SpecEditor SpecExact.

Section WithEditor.
Variable entries : list str.
Variable cyclic : bool.
Variable up : str -> str.
Variable command : str -> cmd.
Variable predict : str -> Z -> str.      (* the text of the line, the place of the cursor *)

(** The Predictor is asked; not about an empty line. *)
Definition ask (p : paper) : str := match whole p with [] => [] | _ => predict (encode (whole p)) (zlen (before p)) end.
(** Which commands ask the Predictor.  [again]: FORWARD_WORD does if it makes the line scroll,
    which paper does not know: it is told ([scrolled] below). *)
Definition asks (again : bool) (c : cmd) (slip : str) (p : paper) : bool :=
  match c with
  | CBackwardChar | CBackwardDeleteChar => match before p with [] => false | _ => true end
  | CForwardChar => match after p, slip with [], _ :: _ => true | _, _ => false end
  | CYank | CYankWithQuote => match clipboard p with None => false | Some _ => true end
  | CUndo => match changes p with [] => false | _ => true end
  | CForwardWord => again
  | CBeginningOfLine | CDeleteChar | CDeleteOrAbort | CUnixWordRubout | CUnixLineDiscard | CBackwardWord
  | CClearScreen | CRepaintOnNewline | CSelfInsert _ => true
  | _ => false
  end.
(** FORWARD_CHAR at the end of the line takes over the slip. *)
Definition press_slip (again : bool) (k : str) (slip : str) (p : paper) : desk * str :=
  let d := match command k, after p, slip with
           | CForwardChar, [], _ :: _ => Editing (paste slip p)
           | _, _, _ => press entries cyclic command k p
           end in
  (d, match d with Editing p' => if asks again (command k) slip p then ask p' else slip | _ => slip end).
Definition happens_slip (be : bool * event) (ds : desk * str) : desk * str :=
  let '(again, e) := be in
  let '(d, slip) := ds in
  let d' := happens entries cyclic up command e d in
  let asked := match d' with Editing p => ask p | _ => slip end in
  match d, e with
  | Editing p, EKey k => press_slip again k slip p
  | Editing _, EResize _ | Quoting _, EKey _ => (d', asked)
  | Searching _ _ _ _, EKey k => (d', if str_eqb k [13] then asked else slip)
  | _, _ => (d', slip)
  end.
Definition on_paper_slip (default : str) (cur : Z) (cl : option str) (es : list (bool * event)) : desk * str :=
  let p := fresh entries default cur cl in
  fold_left (fun ds be => happens_slip be ds) es (Editing p, ask p).
End WithEditor.

(** ReadLine's editor on paper with a slip; [again] has an answer for each event. *)
Definition slip_of (S : scfg) (default : str) (cur : Z) (cl : option str) (again : list bool) (es : list event) : desk * str :=
  on_paper_slip (hist (base S)) (cycling (base S)) (upper (base S)) (LookupCommand (kmap S) (gmap S)) (predictor (base S))
    default cur cl (combine again es).
(** What the line editor has ready to take over. *)
Definition same_slip (E : env) (x : sess) (slip : str) : Prop :=
  match x with
  | Running _ s => map unit_of (match suffix s with None => [] | Some l => l end) = split E slip
  | Finished _ _ _ => True
  end.

(** How many columns cells take. *)
Definition columns (E : env) (l : list cell) : Z := fold_right (fun c n => width E (c_moji c) + n) 0 l.
(** From [x] to [x'] the cursor came to a place that the row, as it was scrolled, does not show. *)
Definition overflows (E : env) (x x' : sess) : bool :=
  match x, x' with
  | Running _ s, Running _ s' =>
      ViewWidth s <=? columns E (firstn (Z.to_nat (cursor s' - view s)) (skipn (Z.to_nat (view s)) (cells s)))
  | _, _ => false
  end.
(** What paper is told: for each event of the session whether the row overflowed. *)
Fixpoint overflowed (S : scfg) (es : list event) (x : sess) : list bool :=
  match es with
  | [] => []
  | e :: es' => match step S e x with Some x' => overflows (cE (base S)) x x' :: overflowed S es' x' | None => [] end
  end.
Definition scrolled (S : scfg) (default : str) (cur w : Z) (cl : option str) (es : list event) : list bool :=
  match start S default cur w cl with Some x => overflowed S es x | None => [] end.
