(** Characters that are supplied (C75). *)
From Verif Require Import Base Utf8 Moji Color Prompt Buffer Commands KeyMap Session Spec Script.

(** All the characters of the text are in the set [A]. *)
Definition made_of (A : rune -> Prop) (t : str) : Prop := Forall A (runes t).

Section Supply.
Variable S : scfg.
Variable A : rune -> Prop.
Notation C := (base S).
Notation E := (cE C).
(** The terminal joins characters and U+200C or U+200D is among the characters supplied. *)
Definition joining : Prop := zwj_ok E = true /\ (A 8204 \/ A 8205).
(** A key that may be put into the line. *)
Definition typed_ok (k : str) : Prop := made_of A k /\ (joining -> valid_utf8 k).
(** What a command may put into the line; a user command sees the line, the prediction
    and the clipboard. *)
Definition command_ok (c : cmd) : Prop :=
  match c with CSelfInsert k => typed_ok k | CYankWithQuote => A 34 | _ => True end.
Definition call_ok (c : call) : Prop :=
  match c with
  | KInsert _ t | KReplace _ t | KPut t => made_of A t
  | KRun c => command_ok c
  | _ => True
  end.
Definition seen_ok (s : buf) : Prop :=
  made_of A (buf_string s) /\ forall t, clip s = Some t -> made_of A t.
Fixpoint script_ok (p : script) : Prop :=
  match p with
  | SReturn _ | SPanic => True
  | SLook k => forall s, seen_ok s -> script_ok (k s)
  | SDo c p' => call_ok c /\ script_ok p'
  end.
Definition key_ok (k : str) : Prop :=
  match LookupCommand (kmap S) (gmap S) k with
  | CUser f => exists p, (forall s, f s = run_script C p s) /\ script_ok p
  | c => command_ok c
  end.
Definition supplied_event (e : event) : Prop :=
  match e with EKey k => key_ok k | EClip (Some t) => made_of A t | _ => True end.
(** A key among the events is bound to QUOTED_INSERT. *)
Definition quoting (es : list event) : Prop :=
  exists k, In (EKey k) es /\ LookupCommand (kmap S) (gmap S) k = CQuotedInsert.

(** Everything supplied to one ReadLine is made of characters in [A]: the default text,
    the history, the clipboard, the predictions, and what the keys insert. *)
Record supplied (default : str) (cl : option str) (es : list event) : Prop := mkSupplied {
  sup_default : made_of A default;
  sup_history : Forall (made_of A) (hist C);
  sup_clip : forall t, cl = Some t -> made_of A t;
  sup_predictor : pcolor0 C = [] \/ forall t c, made_of A t -> made_of A (predictor C t c);
  sup_events : Forall supplied_event es;
  sup_quoted : quoting es -> forall k, In (EKey k) es -> typed_ok k;
  (* a joiner is written as U+200D, and one at the end of a text is given U+FFFD to join *)
  sup_joining : joining -> A 8205 /\ A 65533 }.
End Supply.
