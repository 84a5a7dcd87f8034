(** User commands written against the public API of *Buffer (keymap.go:78-89,
    gommand.go:14-27): a command may look at everything and call the exported methods in
    any order.  Commands that read further keys with GetKey are in Interact.v. *)
From Verif Require Import Base Utf8 Moji Color Prompt Buffer Commands KeyMap Session.

(** The calls and assignments that change something. *)
Inductive call :=
| KInsert (pos : Z) (t : str)      (* buffer.go:128-131 InsertString *)
| KDelete (pos n : Z)              (* buffer.go:135-149 Delete *)
| KReplace (pos : Z) (t : str)     (* repaints.go:89-98 ReplaceAndRepaint *)
| KPut (t : str)                   (* repaints.go:47-49 InsertAndRepaint *)
| KDraw                            (* repaints.go:84-86 DrawFromHead *)
| KAfterPrompt                     (* repaints.go:101-104 RepaintAfterPrompt *)
| KAll                             (* repaints.go:107-111 RepaintAll *)
| KLastLine                        (* repaints.go:115-129 RepaintLastLine *)
| KResetView                       (* buffer.go:152-166 ResetViewStart *)
| KGotoHead                        (* repaints.go:53-55 GotoHead *)
| KCursor (n : Z)                  (* B.Cursor = n (main.go: Editor.Cursor) *)
| KKeep (n : Z)                    (* B.Buffer = B.Buffer[:n] (examples/example4.go:56) *)
| KWrite (ts : list tok)           (* writing to B.Out *)
| KRun (c : cmd).                  (* calling another command (gommand.go:25-27) *)

Inductive script :=
| SReturn (r : result)
| SPanic                           (* the command itself panics *)
| SLook (k : buf -> script)
| SDo (c : call) (p : script).

Section WithCfg.
Variable C : cfg.
(** The methods are those of Buffer.v; KKeep is Go's slicing within the length (slicing up
    to the capacity is not modelled: it counts as a crash); DrawFromHead is the private
    repaint.  QUOTED_INSERT and ISEARCH_BACKWARD read keys: calling them from a user
    command is not modelled either.  Another user command is called by writing out its
    script. *)
Definition do_call (c : call) (s : buf) : option buf :=
  match c with
  | KInsert pos t => let* (s', _) := InsertString C s pos t in Some s'
  | KDelete pos n => let* (s', _) := Delete C s pos n in Some s'
  | KReplace pos t => ReplaceAndRepaint C s pos t
  | KPut t => InsertAndRepaint C s t
  | KDraw => repaint C s
  | KAfterPrompt => RepaintAfterPrompt C s
  | KAll => RepaintAll C s
  | KLastLine => RepaintLastLine C s
  | KResetView => Some (ResetViewStart C s)
  | KGotoHead => Some (GotoHead s)
  | KCursor n => Some (set_cursor s n)
  | KKeep n => let* l := slice (cells s) 0 n in Some (set_cells s l)
  | KWrite ts => Some (emit s ts)
  | KRun CQuotedInsert | KRun CISearchBackward | KRun (CUser _) => None
  | KRun c => let* (s', _) := exec C c s in Some s'
  end.

(** keymap.go:87-89: the command is called with the buffer and its result is used. *)
Fixpoint run_script (p : script) (s : buf) : option (buf * result) :=
  match p with
  | SReturn r => Some (s, r)
  | SPanic => None
  | SLook k => run_script (k s) s
  | SDo c p' => let* s' := do_call c s in run_script p' s'
  end.

(** examples/example4.go:50-61; [edit] stands for the external editor, None for an error
    (examples/example4.go:20-48). *)
Definition cmdStartEditor (edit : str -> option str) : script :=
  SLook (fun s =>
    match edit (buf_string s) with
    | None => SReturn CONTINUE
    | Some result =>
      SDo (KKeep 0) (SDo (KInsert 0 result) (SLook (fun s' => SDo (KCursor (zlen (cells s'))) (SDo KAll (SReturn CONTINUE)))))
    end).
End WithCfg.
