(** Vocabulary of the properties about user commands that read keys. *)
From Verif Require Import Base Utf8 Moji Color Prompt Buffer Commands KeyMap Session Spec Script SpecScript SpecComp Interact.

(** The buffer of a session, and the sessions there are. *)
Definition ibuf {Q} (y : isess Q) : buf := match y with ISess x => buf_of x | IUser _ s => s end.
Definition ireached {Q} (S : scfg) (U : programs Q) (y : isess Q) : Prop :=
  exists default cur w cl es, ireadline S U default cur w cl es = Some y.

Section Careful.
Variable C : cfg.
Context {Q : Type}.
(** What the command knows at a place: whether cursor and view are in place (as for
    SpecScript.careful), the line and the cursor. *)
Variable I : Q -> bool -> list moji -> Z -> Prop.
Fixpoint gcareful (shown : bool) (p : seg Q) (s : buf) : Prop :=
  match p with
  | GReturn _ => shown = true
  | GPanic => False
  | GLook k => gcareful shown (k s) s
  | GDo c p' => call_ok C shown c s /\ forall s', do_call C c s = Some s' -> gcareful (shown_after c shown) p' s'
  | GKey q => I q shown (line s) (cursor s)
  end.
End Careful.

(** Commands that are careful at their beginning and wherever a key, or an error, reaches
    them. *)
Definition careful_programs {Q} (S : scfg) (U : programs Q) : Prop :=
  exists I : Q -> bool -> list moji -> Z -> Prop,
    (forall k p s, bound U k = Some p -> in_bounds s -> gcareful (base S) I true p s) /\
    (forall q shown s o, I q shown (line s) (cursor s) -> (shown = true -> in_bounds s) ->
       (forall k, o = Some k -> simple_text (cE (base S)) k) -> gcareful (base S) I shown (resume U q o) s).

(** The keys a command may read are simple; a key that starts one may be any key. *)
Definition simple_there {Q} (S : scfg) (U : programs Q) (e : event) (y : isess Q) : Prop :=
  match y with
  | ISess x => simple_or_command S e x \/ exists k p, e = EKey k /\ bound U k = Some p /\ reads_commands x
  | IUser _ _ => match e with
                 | EKey k => simple_text (cE (base S)) k
                 | EKeyErr | EResize _ => True
                 | EClip c => simple_clip (cE (base S)) c
                 end
  end.

(** Sessions with QUOTED_INSERT as a user command: only the state in which it waits differs. *)
Definition as_user (x : sess) : isess unit :=
  match x with Running MQuoted s => IUser tt s | _ => ISess x end.
