(** Theorems: key names and the keyboard, C61. *)
From Verif Require Import Base Utf8 Moji Color Prompt Buffer Commands KeyMap Session Spec Sample KeyInput Names SpecLib KeyFacts SpecKeyboard KeyboardFacts.

(** C61, but for the keys of [misnamed]: a program binds a command to a key by its name, in
    any spelling; the user presses that key; the terminal's bytes come as one burst; GetKey
    of both kinds of terminal returns one key and the command runs.  The other keys do what
    they did. *)
Theorem C61_pressed_partial : forall up km gm key name sent f, In (name, sent) keyboard -> ~ In name misnamed ->
  ascii key -> same_name key name ->
  exists km', BindKeyFunc up km key (Some f) = (km', true) /\
    (forall n, (List.length sent <= n)%nat -> exists m,
       tty8_GetKey true (mkTty8 (mkXtty (map Some sent) (repeat true n)) []) = Some (Key sent, m) /\ input (xt m) = [] /\ buf8 m = []) /\
    (forall chunks, tty10_GetKey (mkTty10 [] (Some sent :: chunks)) = (Key10 sent, mkTty10 [] chunks)) /\
    LookupCommand km' gm sent = f /\
    (forall name' sent', In (name', sent') keyboard -> sent' <> sent -> LookupCommand km' gm sent' = LookupCommand km gm sent').
Proof.
  intros up km gm key name sent f Hin Hm Ha Hs. destruct (pressed_bound up km key name sent f gm Hin Hm Ha Hs) as (km' & H1 & H2 & H3).
  exists km'. exact (conj H1 (conj (fun n => burst8 name sent n Hin) (conj (fun ch => burst10 name sent ch Hin) (conj H2 H3)))).
Qed.
Print Assumptions C61_pressed_partial.
(** C61: the keys known from Emacs and from PC keyboards run their commands, unless the
    program has bound them. *)
Theorem C61_default : forall km key fn, In (key, fn) known_keys ->
  exists sent c, In (key, sent) keyboard /\ In (fn, c) NameToFunc /\ (Lookup km sent = None -> LookupCommand km GlobalKeyMap sent = c).
Proof. exact known_default. Qed.
Print Assumptions C61_default.
(** C61 is false of the misnamed keys.  With commands bound to F6, F7 and F8, the key F6
    runs the command of F7, the key F7 that of F8, and the key F8 none. *)
Theorem C61_refuted : exists km, fold_left (fun m b => fst (BindKeyFunc ascii_up m (s2l (fst b)) (Some (snd b))))
    [("F6", CUndo); ("F7", CYank); ("F8", CKillLine)]%string [] = km /\
  exists f6 f7 f8, In (s2l "F6", f6) keyboard /\ In (s2l "F7", f7) keyboard /\ In (s2l "F8", f8) keyboard /\
    LookupCommand km GlobalKeyMap f6 = CYank /\ LookupCommand km GlobalKeyMap f7 = CKillLine /\ LookupCommand km GlobalKeyMap f8 = CSelfInsert f8.
Proof.
  eexists. split; [reflexivity|]. do 3 eexists. do 3 (split; [apply aget_in; vm_compute; reflexivity|]). vm_compute. repeat split.
Qed.
Print Assumptions C61_refuted.
(** The key F1, bound to KILL_WHOLE_LINE, types its escape sequence into the line. *)
Theorem C61_escape_refuted : exists km sent, BindKeyFunc ascii_up [] (s2l "F1") (Some CKillWholeLine) = (km, true) /\
  In (s2l "F1", sent) keyboard /\
  text_of (readline (mkScfg (base S_off) km GlobalKeyMap) [] 0 80 None (keys "ls" ++ [EKey sent; key 13])) = Some (s2l "ls" ++ [27] ++ s2l "OP").
Proof. do 2 eexists. split; [vm_compute; reflexivity|]. split; [apply aget_in; vm_compute; reflexivity|vm_compute; reflexivity]. Qed.
Print Assumptions C61_escape_refuted.
(** What the misnamed keys, and the names that no key of the keyboard has, are taken for: a
    command bound to the name is run for these bytes and for no others. *)
Theorem C61_taken : forall up km gm key name code f, In (name, code) taken_for -> ascii key -> same_name key name ->
  exists km', BindKeyFunc up km key (Some f) = (km', true) /\ LookupCommand km' gm code = f /\
    forall k, k <> code -> LookupCommand km' gm k = LookupCommand km gm k.
Proof. intros up km gm key name code f. exact (taken_bound up km key name code f gm). Qed.
Print Assumptions C61_taken.
Theorem C61_names : forall name code, In (name, code) NameToCode -> In name (map fst keyboard) \/ In name (map fst taken_for).
Proof. exact every_name. Qed.
Print Assumptions C61_names.
(** So a command bound to F16 takes the place of the Backspace key's, and one bound to F13
    that of the character |. *)
Example C61_taken_case : exists km, BindKeyFunc ascii_up [] (s2l "f16") (Some CKillWholeLine) = (km, true) /\
  In (s2l "BACKSPACE", [127]) keyboard /\ LookupCommand [] GlobalKeyMap [127] = CBackwardDeleteChar /\ LookupCommand km GlobalKeyMap [127] = CKillWholeLine.
Proof. eexists. split; [vm_compute; reflexivity|]. split; [apply aget_in; vm_compute; reflexivity|]. split; vm_compute; reflexivity. Qed.
(** The constants of the package keys are these codes, but for two that have no name: Ctrl
    with Down, and Shift with Tab.  (Alt with Backspace has a constant for another code.) *)
Theorem C61_constants : CtrlDown_ = CSI "1;5B" /\ In (s2l "CTRL_DOWN", CtrlDown_) keyboard /\ ShiftTab_ = CSI "Z" /\ ALTBackspace_ = [27; 8].
Proof. split; [reflexivity|]. split; [apply aget_in; vm_compute; reflexivity|]. split; reflexivity. Qed.
Print Assumptions C61_constants.
(** Each of the misnamed keys, bound by its name to a command, does not run it. *)
Theorem C61_misnamed_refuted : forall name, In name misnamed ->
  exists sent km, In (name, sent) keyboard /\ BindKeyFunc ascii_up [] name (Some CRepaintOnNewline) = (km, true) /\ LookupCommand km GlobalKeyMap sent <> CRepaintOnNewline.
Proof.
  intros name H. assert (G : Forall (fun name => exists sent km, In (name, sent) keyboard /\ BindKeyFunc ascii_up [] name (Some CRepaintOnNewline) = (km, true) /\ LookupCommand km GlobalKeyMap sent <> CRepaintOnNewline) misnamed).
  { repeat (apply Forall_cons; [do 2 eexists; split; [apply aget_in; vm_compute; reflexivity|]; split; [vm_compute; reflexivity|vm_compute; discriminate]|]). constructor. }
  rewrite Forall_forall in G. exact (G _ H).
Qed.
Print Assumptions C61_misnamed_refuted.
Example C61_case : In (s2l "PAGEUP", CSI "5~") keyboard /\ ~ In (s2l "PAGEUP") misnamed /\ ascii (s2l "PageUp") /\ same_name (s2l "PageUp") (s2l "PAGEUP").
Proof.
  assert (A : forall s, forallb (fun b => (0 <=? b) && (b <? 128)) s = true -> ascii s).
  { intros s H. rewrite forallb_forall in H. apply Forall_forall. intros x Hx. apply H in Hx. lia. }
  split; [apply aget_in; vm_compute; reflexivity|]. split; [apply in_names_ok; vm_compute; reflexivity|]. split; [now apply A|].
  apply (normalize_same ascii_up); [now apply A|now apply A|vm_compute; reflexivity].
Qed.
