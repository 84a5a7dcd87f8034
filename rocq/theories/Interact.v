(** User commands that read keys themselves with GetKey (buffer.go:242-246), as
    QUOTED_INSERT does.  Such a command runs from one key to the next; between them it is
    at a place in its program, with its local variables. *)
From Verif Require Import Base Utf8 Moji Color Prompt Buffer Commands KeyMap Session Script.

(** What runs until the command returns or waits for a key; [Q] are the places. *)
Inductive seg (Q : Type) :=
| GReturn (r : result)
| GPanic
| GLook (k : buf -> seg Q)
| GDo (c : call) (p : seg Q)
| GKey (q : Q).                    (* B.GetKey() *)
Arguments GReturn {Q} r. Arguments GPanic {Q}. Arguments GLook {Q} k. Arguments GDo {Q} c p. Arguments GKey {Q} q.

(** The user commands of an editor: what a key that is bound to one runs, and how the
    command goes on at [q] with the key that was read ([None]: GetKey returned an error).
    The bindings are those of Editor.BindKey (keymap.go:63-72) and come before all others. *)
Record programs (Q : Type) := mkPrograms {
  bound : str -> option (seg Q);
  resume : Q -> option str -> seg Q
}.
Arguments mkPrograms {Q}. Arguments bound {Q}. Arguments resume {Q}.

(** A session, or one in which a user command waits for a key. *)
Inductive isess (Q : Type) := ISess (x : sess) | IUser (q : Q) (s : buf).
Arguments ISess {Q} x. Arguments IUser {Q} q s.

Section WithCfg.
Variable S : scfg.
Notation C := (base S).
Variable Q : Type.
Variable U : programs Q.

(** buffer.go:243-246: GetKey flushes first. *)
Fixpoint run_seg (p : seg Q) (s : buf) : option (buf * (result + Q)) :=
  match p with
  | GReturn r => Some (s, inl r)
  | GPanic => None
  | GLook k => run_seg (k s) s
  | GDo c p' => let* s' := do_call C c s in run_seg p' s'
  | GKey q => Some (emit s [TFlush], inr q)
  end.

(** main.go:222-248: the command returned, or the loop waits with it. *)
Definition settle (o : option (buf * (result + Q))) : option (isess Q) :=
  let* (s, a) := o in
  match a with
  | inl r => let* x := after_command S (Some (s, r)) in Some (ISess x)
  | inr q => Some (IUser q s)
  end.

(** main.go:211-249.  While a command waits for a key the mutex is held, so that a resize
    waits, too (as in Session.step). *)
Definition istep (e : event) (y : isess Q) : option (isess Q) :=
  match y with
  | ISess x =>
    let other := let* x' := step S e x in Some (ISess x') in
    match e, x with
    | EKey k, Running MNormal s =>
      match bound U k with
      | Some p => settle (run_seg p (emit s [TCursorOff]))
      | None => other
      end
    | _, _ => other
    end
  | IUser q s =>
    match e with
    | EKey k => settle (run_seg (resume U q (Some k)) s)
    | EKeyErr => settle (run_seg (resume U q None) s)
    | EResize _ => Some y
    | EClip c => Some (IUser q (set_clip s c))
    end
  end.

Fixpoint irun (es : list event) (y : isess Q) : option (isess Q) :=
  match es with
  | [] => Some y
  | e :: es' => let* y' := istep e y in irun es' y'
  end.

(** A whole ReadLine. *)
Definition ireadline (default : str) (cur w : Z) (cl : option str) (es : list event) : option (isess Q) :=
  let* x := start S default cur w cl in irun es (ISess x).
End WithCfg.
Arguments run_seg S {Q} p s. Arguments settle S {Q} o. Arguments istep S {Q} U e y.
Arguments irun S {Q} U es y. Arguments ireadline S {Q} U default cur w cl es.

(** gommand.go:316-325 (QUOTED_INSERT) as a user command. *)
Definition cursor_off_and_return : seg unit := GDo (KWrite [TCursorOff]) (GReturn CONTINUE).
Definition quoted_insert (S : scfg) : programs unit :=
  mkPrograms
    (fun k => match LookupCommand (kmap S) (gmap S) k with
              | CQuotedInsert => Some (GDo (KWrite [TCursorOn]) (GKey tt))
              | _ => None
              end)
    (fun _ o => match o with
                | Some k => GDo (KRun (CSelfInsert k)) cursor_off_and_return
                | None => cursor_off_and_return
                end).

(** A script of Script.v is a command that reads no key. *)
Fixpoint of_script {Q} (p : script) : seg Q :=
  match p with
  | SReturn r => GReturn r
  | SPanic => GPanic
  | SLook k => GLook (fun s => of_script (k s))
  | SDo c p' => GDo c (of_script p')
  end.
