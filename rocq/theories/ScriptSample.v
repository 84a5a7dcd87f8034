(** Editors with user commands, for the examples and witnesses of PScript.v. *)
From Verif Require Import Base Utf8 Moji Color Prompt Buffer Commands KeyMap Session Spec Sample Script SpecScript.
Ltac lia := unfold rune in *; Lia.lia.

(** Ctrl-X runs the command. *)
Definition S_script (p : script) : scfg :=
  mkScfg (cfg_of E_off) [([24], CUser (run_script (cfg_of E_off) p))] GlobalKeyMap.
Definition run_user (p : script) (w : Z) (es : list event) : option sess := readline (S_script p) [] 0 w None es.
Lemma script_lookup p k f : LookupCommand (kmap (S_script p)) (gmap (S_script p)) k = CUser f -> f = run_script (cfg_of E_off) p.
Proof.
  cbn [kmap gmap S_script]. unfold LookupCommand, Lookup. cbn [aget]. destruct (str_eqb k [24]); [congruence|].
  intros Hk. exfalso. apply (global_builtin [] ltac:(discriminate) (cfg_of E_off) k f). exact Hk.
Qed.
Lemma script_scripted p : scripted (S_script p).
Proof. intros k f Hk. apply script_lookup in Hk as ->. exists p. reflexivity. Qed.

(** Puts the line in brackets, goes to its end and shows it, then enters it. *)
Definition brackets : script :=
  SDo (KInsert 0 (s2l "[")) (SLook (fun s => SDo (KInsert (zlen (cells s)) (s2l "]")) (SLook (fun s' =>
    SDo (KCursor (zlen (cells s'))) (SDo KAfterPrompt (SReturn ENTER)))))).
(** Rings, replaces what stands before the cursor and goes one character back. *)
Definition twice : script :=
  SLook (fun s => SDo (KWrite [TBell]) (SDo (KReplace 0 (s2l "twice")) (SDo (KRun CBackwardChar) (SReturn CONTINUE)))).
(** Only moves the cursor. *)
Definition home : script := SDo (KCursor 0) (SReturn CONTINUE).

Lemma brackets_careful s : in_bounds s -> careful (cfg_of E_off) true brackets s.
Proof.
  intros [H1 H2]. unfold brackets. cbn [careful call_ok shown_after]. split; [split; [|apply simple_textb_ok; vm_compute; reflexivity]|].
  - pose proof (zlen_nonneg (cells s)). lia.
  - intros s1 _. split; [split; [|apply simple_textb_ok; vm_compute; reflexivity]|].
    + pose proof (zlen_nonneg (cells s1)). lia.
    + intros s2 _. split; [exact I|]. intros s3 H3. injection H3 as <-. split; [|auto]. right. unfold cursor_inside. cbn. pose proof (zlen_nonneg (cells s2)). lia.
Qed.
Lemma twice_careful s : in_bounds s -> careful (cfg_of E_off) true twice s.
Proof.
  intros [H1 H2]. unfold twice. cbn [careful call_ok shown_after]. split; [exact I|]. intros s1 [= <-]. split; [split; [cbn; lia|split; [now left|apply simple_textb_ok; vm_compute; reflexivity]]|].
  intros s2 _. split; [|auto]. split; [reflexivity|]. repeat split; discriminate.
Qed.
Lemma careful_sample p : (forall s, in_bounds s -> careful (cfg_of E_off) true p s) -> careful_editor (S_script p).
Proof.
  intros Hp. split; [|split; [exact sane_off|split; [|split; [reflexivity|split; [reflexivity|split; [now left|]]]]]].
  - intros k f Hk. apply script_lookup in Hk as ->. exists p. split; [reflexivity|exact Hp].
  - intros r. cbn. unfold sample_rw. destruct (r <? 128); [lia|]. destruct (in_range r 768 879); lia.
  - repeat (apply Forall_cons; [apply simple_textb_ok; vm_compute; reflexivity|]). apply Forall_nil.
Qed.
From Verif Require Import SpecComp CompCases.
Lemma script_events_ok p w es : match run_user p w [] with Some x => eventsb (S_script p) es x | None => true end = true ->
  forall es1 e es2 x, es = es1 ++ e :: es2 -> run_user p w es1 = Some x -> simple_or_command (S_script p) e x.
Proof.
  unfold run_user, readline. destruct (start (S_script p) [] 0 w None) as [x|]; [|discriminate]. cbn [run]. intros H. exact (eventsb_ok _ _ _ H).
Qed.
