(** User commands that read keys, for the examples of PInteract.v. *)
From Verif Require Import Base Utf8 Moji Color Prompt Buffer Commands KeyMap Session Spec Sample Script SpecScript
  SpecComp ScriptSample Interact SpecInteract.
Ltac lia := unfold rune in *; Lia.lia.

Definition with_key {Q} (k0 : str) (p : seg Q) (k : str) : option (seg Q) := if str_eqb k k0 then Some p else None.
(** Ctrl-X c replaces the character under the cursor by c. *)
Definition replace_char : programs unit :=
  mkPrograms (with_key [24] (GKey tt))
    (fun _ o => match o with
                | None => GReturn CONTINUE
                | Some k => GDo (KRun CDeleteChar) (GDo (KRun (CSelfInsert k)) (GDo (KRun CBackwardChar) (GReturn CONTINUE)))
                end).
(** Ctrl-X digits c inserts c as many times; an error enters the line. *)
Definition digit (k : str) : option nat :=
  match k with [b] => if in_range b 48 57 then Some (Z.to_nat (b - 48)) else None | _ => None end.
Fixpoint times (n : nat) (k : str) : seg nat :=
  match n with O => GReturn CONTINUE | Datatypes.S n' => GDo (KPut k) (times n' k) end.
Definition count : programs nat :=
  mkPrograms (with_key [24] (GKey O))
    (fun n o => match o with
                | None => GReturn ENTER
                | Some k => match digit k with Some d => GKey (n * 10 + d)%nat | None => times n k end
                end).
(** Shows the line in brackets with the cursor at its end while it waits, then goes back. *)
Definition peek : programs Z :=
  mkPrograms (with_key [24] (GLook (fun s => GDo (KCursor (zlen (cells s))) (GKey (cursor s)))))
    (fun c o => GLook (fun s => GDo (KCursor (if c <=? zlen (cells s) then c else 0)) (GDo KAfterPrompt (GReturn CONTINUE)))).

Lemma with_key_some {Q} k0 (p p' : seg Q) k : with_key k0 p k = Some p' -> p' = p.
Proof. unfold with_key. destruct (str_eqb k k0); congruence. Qed.
Lemma replace_careful S : careful_programs S replace_char.
Proof.
  exists (fun _ shown _ _ => shown = true). split.
  - intros k p s Hk _. apply with_key_some in Hk as ->. reflexivity.
  - intros [] shown s o -> _ Ho. destruct o as [k|]; [|reflexivity]. cbn [resume replace_char gcareful call_ok shown_after].
    split; [repeat split; discriminate|]. intros s1 _. split; [|intros s2 _; split; [repeat split; discriminate|auto]].
    split; [reflexivity|]. repeat (split; [discriminate|]). intros k' [= <-]. now apply Ho.
Qed.
Lemma times_careful C I k : simple_text (cE C) k -> forall n s, gcareful C I true (times n k) s.
Proof.
  intros Hk. induction n as [|n IH]; intros s; cbn [times gcareful call_ok shown_after]; [reflexivity|].
  split; [split; [now left|exact Hk]|]. intros s' _. apply IH.
Qed.
Lemma count_careful S : careful_programs S count.
Proof.
  exists (fun _ shown _ _ => shown = true). split.
  - intros k p s Hk _. apply with_key_some in Hk as ->. reflexivity.
  - intros n shown s o -> _ Ho. destruct o as [k|]; [|reflexivity]. cbn [resume count].
    destruct (digit k); [reflexivity|]. apply times_careful. now apply Ho.
Qed.
Lemma peek_careful S : careful_programs S peek.
Proof.
  exists (fun c _ _ _ => 0 <= c). split.
  - intros k p s Hk [H1 H2]. apply with_key_some in Hk as ->. cbn [gcareful call_ok]. split; [exact I|]. intros s' [= <-]. lia.
  - intros c shown s o Hc _ _. cbn [resume peek gcareful call_ok shown_after]. split; [exact I|]. intros s' [= <-]. split; [|auto].
    right. unfold cursor_inside. cbn. pose proof (zlen_nonneg (cells s)). destruct (c <=? zlen (cells s)) eqn:Hl; lia.
Qed.

Definition S_int : scfg := mkScfg (cfg_of E_off) [] GlobalKeyMap.
Lemma int_careful : careful_editor S_int.
Proof.
  split; [|split; [exact sane_off|split; [|split; [reflexivity|split; [reflexivity|split; [now left|]]]]]].
  - intros k f Hk. exfalso. apply (global_builtin [] ltac:(discriminate) (cfg_of E_off) k f). exact Hk.
  - intros r. cbn. unfold sample_rw. destruct (r <? 128); [lia|]. destruct (in_range r 768 879); lia.
  - repeat (apply Forall_cons; [apply simple_textb_ok; vm_compute; reflexivity|]). apply Forall_nil.
Qed.
Definition run_int {Q} (U : programs Q) (w : Z) (es : list event) : option (isess Q) := ireadline S_int U [] 0 w None es.
Definition itext {Q} (o : option (isess Q)) : option str := match o with Some y => Some (buf_string (ibuf y)) | None => None end.

(** A check of the hypothesis on the events. *)
Definition thereb {Q} (U : programs Q) (e : event) (y : isess Q) : bool :=
  match y, e with
  | ISess (Running MNormal _), EKey k => match bound U k with Some _ => true | None => simple_eventb S_int e end
  | ISess _, _ => simple_eventb S_int e
  | IUser _ _, EKey k => simple_textb E_off k
  | IUser _ _, EClip (Some t) => simple_textb E_off t
  | IUser _ _, _ => true
  end.
Fixpoint ieventsb {Q} (U : programs Q) (es : list event) (y : isess Q) : bool :=
  match es with
  | [] => true
  | e :: es' => thereb U e y && match istep S_int U e y with Some y' => ieventsb U es' y' | None => true end
  end.
Lemma thereb_ok {Q} (U : programs Q) e y : thereb U e y = true -> simple_there S_int U e y.
Proof.
  destruct y as [x|q s]; cbn [simple_there].
  - assert (G : simple_eventb S_int e = true -> simple_or_command S_int e x) by (intros H; left; assert (G : Forall (simple_event S_int) [e]) by (apply simple_eventb_ok; cbn [forallb]; now rewrite H); now inversion G).
    destruct e as [k| |w|c]; destruct x as [[| |ss] s|s t r]; cbn [thereb]; intros H; try (left; now apply G).
    destruct (bound U k) as [p|] eqn:Hk; [|left; now apply G]. right. exists k, p. split; [reflexivity|]. split; [exact Hk|exact I].
  - destruct e as [k| |w|[t|]]; cbn [thereb]; intros H; try exact I; [now apply simple_textb_ok| |discriminate].
    intros t' [= <-]. now apply simple_textb_ok.
Qed.
Lemma ieventsb_ok {Q} (U : programs Q) es : forall y, ieventsb U es y = true ->
  forall es1 e es2 z, es = es1 ++ e :: es2 -> irun S_int U es1 y = Some z -> simple_there S_int U e z.
Proof.
  induction es as [|e0 es IH]; intros y H es1 e es2 z He Hz; [destruct es1; discriminate He|].
  cbn [ieventsb] in H. apply andb_prop in H as [H1 H2]. destruct es1 as [|e1 es1].
  - injection He as -> ->. injection Hz as <-. now apply thereb_ok.
  - injection He as -> ->. cbn [irun] in Hz. destruct (istep S_int U e1 y) as [y1|]; [|discriminate Hz]. eapply IH; [exact H2|reflexivity|exact Hz].
Qed.
Lemma int_events_ok {Q} (U : programs Q) w es : match run_int U w [] with Some y => ieventsb U es y | None => true end = true ->
  forall es1 e es2 z, es = es1 ++ e :: es2 -> run_int U w es1 = Some z -> simple_there S_int U e z.
Proof.
  unfold run_int, ireadline. destruct (start S_int [] 0 w None) as [x|]; [|discriminate]. cbn [irun]. intros H. exact (ieventsb_ok U es _ H).
Qed.
