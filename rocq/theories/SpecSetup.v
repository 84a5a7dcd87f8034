(** Specification: an Editor and its defaults (C66). *)
From Verif Require Import Base Utf8 Moji Color Prompt Buffer Commands KeyMap Session Setup.

(** [o'] has the value [o] had; if it had none, the default. *)
Definition filled {A} (default : A) (o o' : option A) : Prop :=
  (forall a, o = Some a -> o' = Some a) /\ (o = None -> o' = Some default).

(** Bytes given to a writer reach it through a buffered writer: the writer itself if it is one. *)
Definition leads_to (o : bufio) (w : writer) : Prop :=
  match w with
  | WBufio n => o = Theirs n
  | _ => o = NewWriter w
  end.

(** The writer that the program set last, if any. *)
Fixpoint last_writer (us : list use) (w : writer) : writer :=
  match us with
  | [] => w
  | SetWriter (Some w') :: us' => last_writer us' w'
  | SetWriter None :: us' => last_writer us' Stdout
  | _ :: us' => last_writer us' w
  end.
(** Whenever the program sets Writer, it sets Out to nil next; it never sets Out otherwise. *)
Definition sets_both (us : list use) : Prop :=
  (forall us1 w us2, us = us1 ++ SetWriter w :: us2 -> exists us3, us2 = SetOut None :: us3) /\
  (forall o, ~ In (SetOut (Some o)) us).
