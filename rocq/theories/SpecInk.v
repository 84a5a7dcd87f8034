(** The colours the user sees (C68).  Like SpecScreen.v, with the ink each unit stands in;
    nothing here follows the way the code paints. *)
From Coq Require Import Sorting.Permutation.
From Verif Require Import Base Utf8 Moji Color Prompt Buffer Commands KeyMap Session Spec SpecScreen SpecPaint.

(** What a unit was written in: whatever the terminal writes in at the beginning and after
    prompts and line feeds, a colour of the colouring, or the bytes set before a prediction. *)
Inductive ink := Before | Colour (n : Z) | Look (t : str).
Notation painted := (moji * ink)%type.

(** The writes of the program that change the row.  A unit is written in the ink set last. *)
Inductive op := OUnit (u : painted) | OGoto (c : Z) | OErase | OOther (t : tok).
Fixpoint inkify (k : ink) (ts : list tok) : list op :=
  match ts with
  | [] => []
  | TMoji m :: ts' => OUnit (m, k) :: inkify k ts'
  | TColor n :: ts' => inkify (Colour n) ts'
  | TAttr a :: ts' => inkify (Look a) ts'
  | TGoto c :: ts' => OGoto c :: inkify k ts'
  | TErase :: ts' => OErase :: inkify k ts'
  | (TPrompt _ | TClear | TNewline | TLineFeed _) as t :: ts' => OOther t :: inkify Before ts'
  | (TBell | TCursorOn | TCursorOff | TFlush) :: ts' => inkify k ts'
  end.

(** One column of the row: empty, the [i]-th column of a unit, or something else. *)
Inductive islot := IBlank | IPart (u : painted) (i : Z) | IOld (r : rune) (i : Z).
Record iscreen := mkIscreen { icol : Z; irow : Z -> islot }.
(** What differs from terminal to terminal, as in SpecScreen.v. *)
Record iterminal := mkIterminal {
  it_other : tok -> iscreen -> iscreen;
  it_torn : iscreen -> option painted -> Z -> islot
}.

Section Terminal.
Variable E : env.
Variable T : iterminal.
Definition iwidth (u : painted) : Z := width E (fst u).

Definition iput (m : painted) (sc : iscreen) : iscreen :=
  let c := icol sc in let w := iwidth m in
  mkIscreen (c + w) (fun x =>
    if (c <=? x) && (x <? c + w) then IPart m (x - c)
    else match irow sc x with
         | IPart m' i => if (x - i <? c + w) && (c <? x - i + iwidth m') then it_torn T sc (Some m) x else IPart m' i
         | IBlank => IBlank
         | IOld _ _ => it_torn T sc (Some m) x
         end).
Definition ierase (sc : iscreen) : iscreen :=
  let c := icol sc in
  mkIscreen c (fun x =>
    if c <=? x then IBlank
    else match irow sc x with
         | IPart m' i => if c <? x - i + iwidth m' then it_torn T sc None x else IPart m' i
         | IBlank => IBlank
         | IOld _ _ => it_torn T sc None x
         end).
Definition idisplay1 (sc : iscreen) (t : op) : iscreen :=
  match t with
  | OUnit u => iput u sc
  | OGoto c => mkIscreen (c - 1) (irow sc)
  | OErase => ierase sc
  | OOther t => it_other T t sc
  end.
Definition idisplay (ts : list op) (sc : iscreen) : iscreen := fold_left idisplay1 ts sc.

(** The row that shows the units [l] from column [c] on, and nothing after them. *)
Fixpoint iimage (c : Z) (l : list painted) (x : Z) : islot :=
  match l with
  | [] => IBlank
  | m :: l' => if (c <=? x) && (x <? c + iwidth m) then IPart m (x - c) else iimage (c + iwidth m) l' x
  end.
End Terminal.

(** The colour a unit should have: what the colouring answers to its last character, having
    heard the text from the beginning of the line up to there, with the marker at the cursor. *)
Fixpoint inked_from (K : coloring) (cur : Z) (before l : list moji) : list painted :=
  match l with
  | [] => []
  | m :: l' => (m, Colour (answer K (marked cur (before ++ [m])))) :: inked_from K cur (before ++ [m]) l'
  end.
Definition inked (K : coloring) (cur : Z) (l : list moji) : list painted := inked_from K cur [] l.
(** The elements from index [a] up to index [b]. *)
Definition ipart (l : list painted) (a b : Z) : list painted := firstn (Z.to_nat (b - a)) (skipn (Z.to_nat a) l).

(** The row shows the units [l] of the line with their colours: to the right of the prompt
    stand those from ViewStart up to some [k] at or after the cursor, then perhaps the beginning of the prediction in the look of predictions, and
    nothing else; the terminal's cursor stands where the next unit goes. *)
Definition ishows (C : cfg) (l : list painted) (s : buf) (sc : iscreen) (k : Z) (pred : list moji) : Prop :=
  let E := cE C in
  cursor s <= k <= zlen (line s) /\
  (pred = [] \/ cursor s = zlen (line s) /\ k = zlen (line s) /\ exists rest, suffix s = Some (pred ++ rest)) /\
  (forall x, topc s <= x -> irow sc x =
     iimage E (topc s) (ipart l (view s) k ++ map (fun m => (m, Look (pcolor0 C))) pred) x) /\
  icol sc = topc s + total_width E (part (line s) (view s) (cursor s)) /\
  total_width E (part (line s) (view s) k ++ pred) < ViewWidth s.
(** Each unit in the colour it has in the line as it is now. *)
Definition ishown (C : cfg) (s : buf) (sc : iscreen) : Prop := exists k pred, ishows C (inked (ccol C) (cursor s) (line s)) s sc k pred.
(** Nothing is said about the search line, which has no colours of its own. *)
Definition inks_right (C : cfg) (x : sess) (sc : iscreen) : Prop :=
  match x with
  | Running (MSearch _) _ => True
  | Running _ s => ishown C s sc
  | Finished _ _ _ => True
  end.

(** A colouring that does not use the marker of the cursor ([past] is in reverse order), *)
Definition blind (K : coloring) : Prop := forall a b r, c_next K (a ++ marker :: b) r = c_next K (a ++ b) r.
(** and never answers -1, which stands for `no colour set yet' in the code. *)
Definition true_colours (K : coloring) : Prop := c_init K <> -1 /\ forall past r, c_next K past r <> -1.
(** Its answer depends on which characters came before, not on their order. *)
Definition orderless (K : coloring) : Prop := forall past past' r, Permutation past past' -> c_next K past r = c_next K past' r.
(** What the theorems leave out besides [calm] (SpecScreen.v): lines with units that do not
    reach the colouring as they are written, and transposing before the last unit of the
    line if the colours of the units after the pair depend on the order of those before. *)
Definition plain_colours (S : scfg) (x : sess) : Prop := Forall (fun m => heard_as_is m = true) (line (buf_of x)).
Definition late_swap (S : scfg) (e : event) (x : sess) : Prop :=
  match e, x with
  | EKey k, Running MNormal s =>
      LookupCommand (kmap S) (gmap S) k = CSwapChar -> zlen (line s) <= cursor s + 1 \/ orderless (ccol (base S))
  | _, _ => True
  end.
Fixpoint heard_run (S : scfg) (es : list event) (x : sess) : Prop :=
  plain_colours S x /\
  match es with [] => True | e :: es' => late_swap S e x /\ forall x', step S e x = Some x' -> heard_run S es' x' end.
