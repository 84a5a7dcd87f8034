(** C36, C48, C49: opening, using and closing the terminal. *)
From Verif Require Import Base Utf8 Moji Color Prompt Buffer Commands KeyMap Session Spec Sample Reach Script SpecScript ScriptSample
  Life SpecLife LifeFacts.

(** * C36 *)
(** The calls of a ReadLine keep to the protocol of the terminal (SpecLife.call): it is
    open while ReadLine waits, and however ReadLine ends (open error, size error, key
    error, Enter, a crash) it has been closed once if it was opened.  The editor may have
    user commands that are scripts of public calls (SpecScript.scripted). *)
Theorem C36_protocol : forall S, scripted S -> forall default cur ok size cl es tr o,
  readline_calls S default cur ok size cl es = (tr, o) ->
  calls NotOpen tr = Some (match o with Blocked => IsOpen | _ => if ok then IsClosed else NotOpen end).
Proof. exact life_protocol. Qed.
Print Assumptions C36_protocol.
(** The last thing ReadLine does is to show the cursor and flush. *)
Theorem C36_cursor : forall S, scripted S -> forall default cur ok size cl es tr o,
  readline_calls S default cur ok size cl es = (tr, o) -> o <> Blocked ->
  exists tr', tr = tr' ++ [AOut TCursorOn; AOut TFlush].
Proof. exact life_cursor. Qed.
Print Assumptions C36_cursor.
(** The calls are those of the session of Session.v: same end, same output. *)
Theorem C36_session : forall S, scripted S -> forall default cur w cl es tr o,
  readline_calls S default cur true (Some w) cl es = (tr, o) ->
  match o with
  | Blocked => exists m s, readline S default cur w cl es = Some (Running m s) /\ outputs tr = out s
  | Returned t e => exists s r, readline S default cur w cl es = Some (Finished s t r) /\ e = LRead r /\ outputs tr = out s
  | Panicked => readline S default cur w cl es = None
  end.
Proof. exact life_session. Qed.
Print Assumptions C36_session.
(** When opening or asking the size fails, that error and no text are returned. *)
Theorem C36_errors : forall S default cur cl es,
  snd (readline_calls S default cur false None cl es) = Returned [] LOpenError /\
  snd (readline_calls S default cur true None cl es) = Returned [] LSizeError.
Proof. intros. split; reflexivity. Qed.
Print Assumptions C36_errors.
(** One ReadLine of each kind. *)
Example C36_case :
  snd (readline_calls S_off [] 0 true (Some 80) None (keys "ab" ++ [key 13])) = Returned (s2l "ab") (LRead RNil) /\
  snd (readline_calls S_off [] 0 true (Some 80) None (keys "ab" ++ [EKeyErr])) = Returned [] (LRead RKeyError) /\
  snd (readline_calls S_off [] 0 true (Some 80) None (keys "ab" ++ [key 20; key 26])) = Panicked /\
  snd (readline_calls S_off [] 0 true (Some 80) None (keys "ab")) = Blocked /\
  snd (readline_calls (S_script twice) [] 0 true (Some 80) None (keys "ab" ++ [key 24; key 13])) = Returned (s2l "twice") (LRead RNil) /\
  scripted S_off /\ scripted (S_script twice).
Proof.
  split; [vm_compute; reflexivity|]. split; [vm_compute; reflexivity|]. split; [vm_compute; reflexivity|]. split; [vm_compute; reflexivity|].
  split; [vm_compute; reflexivity|]. split; [exact (builtin_scripted S_off builtin_off)|apply script_scripted].
Qed.

(** * C49 *)
(** Right before each call of Tty.GetKey the output has been flushed. *)
Theorem C49_flushed : forall S, scripted S -> forall default cur ok size cl es tr o,
  readline_calls S default cur ok size cl es = (tr, o) ->
  forall before after, tr = before ++ AGetKey :: after -> exists b, before = b ++ [AOut TFlush].
Proof. exact life_flushed. Qed.
Print Assumptions C49_flushed.
Example C49_case : exists before after,
  fst (readline_calls S_off [] 0 true (Some 80) None (keys "ab" ++ [key 13])) = before ++ AGetKey :: after /\
  In AGetKey before.
Proof.
  exists (firstn 23 (fst (readline_calls S_off [] 0 true (Some 80) None (keys "ab" ++ [key 13])))),
         (skipn 24 (fst (readline_calls S_off [] 0 true (Some 80) None (keys "ab" ++ [key 13])))).
  split; vm_compute; [reflexivity|tauto].
Qed.
(** A resize during the wait paints without flushing: what it has painted is not seen
    before the next key. *)
Theorem C49_resize_refuted :
  exists tr, fst (readline_calls S_off (s2l "abc") 0 true (Some 80) None [EResize 40]) = tr /\
  (forall l, tr <> l ++ [AOut TFlush] /\ tr <> l ++ [AOut TFlush; AGetKey]).
Proof.
  eexists. split; [vm_compute; reflexivity|]. intros l. split; intros H; apply (f_equal (@rev act)) in H; rewrite rev_app_distr in H; vm_compute in H; discriminate.
Qed.
Print Assumptions C49_resize_refuted.

(** * C48 *)
(** Close of tty10, called once, at any moment when the editor does not hold its mutex,
    whatever the polling goroutine is doing: it does not panic, it is never stuck, it
    takes a number of steps bounded by the ticks that come meanwhile, and when it has
    returned the goroutine is gone. *)
Theorem C48_close_partial : forall ls x ls' y o, truns tty_opened ls (Some x) -> clo x = KIdle -> mut x <> TheEditor ->
  tstep x CallClose (Some y) -> truns y ls' o -> ~ In CallClose ls' ->
  exists z, o = Some z /\ (clo z <> KDone -> exists z', tstep z Run (Some z')) /\
    (count_runs ls' <= 10 + 4 * count_ticks ls')%nat /\
    (clo z = KDone -> pol z = PGone /\ mut z = Nobody).
Proof. exact close_safe. Qed.
Print Assumptions C48_close_partial.
(** The goroutine is inside the callback when Close is called. *)
Example C48_case : exists ls x y ls' z, truns tty_opened ls (Some x) /\ clo x = KIdle /\ mut x = ThePoller /\ pol x = PInside /\
  tstep x CallClose (Some y) /\ truns y ls' (Some z) /\ ~ In CallClose ls' /\ clo z = KDone.
Proof.
  exists ((((([] ++ [Tick]) ++ [Run]) ++ [Run]) ++ [Run])), (mkTty PInside KIdle ThePoller false true), (mkTty PInside KSend ThePoller false true),
    (((([] ++ [Run]) ++ [Run]) ++ [Run]) ++ [Run]), (mkTty PGone KDone Nobody false false).
  split; [repeat (eapply R_step; [|econstructor]); constructor|]. split; [reflexivity|]. split; [reflexivity|]. split; [reflexivity|].
  split; [constructor; now left|]. split; [repeat (eapply R_step; [|econstructor]); constructor|]. split; [cbn; intuition discriminate|reflexivity].
Qed.
(** Closing again panics: it sends on the closed channel. *)
Theorem C48_twice_refuted : truns tty_opened ([] ++ [CallClose] ++ [Run; Run; Run] ++ [CallClose; Run]) None.
Proof.
  change ([] ++ [CallClose] ++ [Run; Run; Run] ++ [CallClose; Run]) with (((((([] ++ [CallClose]) ++ [Run]) ++ [Run]) ++ [Run]) ++ [CallClose]) ++ [Run]).
  eapply R_step; [|apply T_send_closed]. eapply R_step; [|apply T_call; now right]. eapply R_step; [|apply T_disable].
  eapply R_step; [|apply T_close]. eapply R_step; [|apply T_rendezvous]. eapply R_step; [|apply T_call; now left]. constructor.
Qed.
Print Assumptions C48_twice_refuted.
(** Close while the editor holds its mutex - as when a command panics - waits for ever if
    the goroutine waits for the mutex. *)
Theorem C48_locked_refuted : exists ls x y, truns tty_opened ls (Some x) /\ clo x = KIdle /\ tstep x CallClose (Some y) /\
  forall ls' z, truns y ls' (Some z) -> clo z = KSend.
Proof.
  exists (((([] ++ [Tick]) ++ [Run]) ++ [Run]) ++ [Lock]), (mkTty PWait KIdle TheEditor false true), (mkTty PWait KSend TheEditor false true).
  split.
  - eapply R_step; [|apply T_lock]. eapply R_step; [|apply T_size]. eapply R_step; [|apply T_select]. eapply R_step; [|apply T_tick]. constructor.
  - split; [reflexivity|]. split; [constructor; now left|]. intros ls' z H. exact (proj1 (close_stuck _ _ _ H eq_refl)).
Qed.
Print Assumptions C48_locked_refuted.
