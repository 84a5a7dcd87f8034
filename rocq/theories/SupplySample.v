(** Configurations for PSupply.v. *)
From Verif Require Import Base Utf8 Moji Color Prompt Buffer Commands KeyMap Session MojiFacts Spec Script SpecSupply Sample.
Ltac lia := unfold rune in *; Lia.lia.

Definition up (r : rune) : rune := if in_range r 97 122 then r - 32 else r.
(** An external editor in which the text is changed to capitals. *)
Definition capitals (t : str) : option str := Some (encode (map up (runes t))).
Definition S_edit : scfg :=
  mkScfg (cfg_of E_off) [([24], CUser (run_script (cfg_of E_off) (cmdStartEditor capitals)))] GlobalKeyMap.
Definition printable (r : rune) : Prop := 32 <= r /\ r <> 127.
Definition session : list event := [key 24] ++ keys " -L" ++ [EKey (esc [121])].

Lemma up_valid r : valid_rune r = true -> valid_rune (up r) = true.
Proof. unfold up. destruct (in_range r 97 122) eqn:H; [|auto]. unfold in_range in H. unfold valid_rune. lia. Qed.
Lemma capitals_ok t u : made_of printable t -> capitals t = Some u -> made_of printable u.
Proof.
  intros H [= <-]. unfold made_of in *. rewrite runes_encode.
  - apply Forall_map. eapply Forall_impl; [|exact H]. intros r [H1 H2]. unfold up, in_range, printable. destruct (_ && _) eqn:Hr; lia.
  - apply Forall_map. pose proof (runes_valid t) as Hv. eapply Forall_impl; [|exact Hv]. intros r Hr. now apply up_valid.
Qed.
Lemma editor_ok : script_ok S_edit printable (cmdStartEditor capitals).
Proof.
  intros s [Hs _]. cbn -[capitals]. destruct (capitals (buf_string s)) as [u|] eqn:Hu; [|exact I].
  repeat split. eapply capitals_ok; [exact Hs|exact Hu].
Qed.
Definition printableb (r : rune) : bool := (32 <=? r) && negb (r =? 127).
Lemma printableb_ok t : forallb printableb (runes t) = true -> made_of printable t.
Proof. intros H. unfold made_of. apply Forall_forall. intros r Hr. rewrite forallb_forall in H. specialize (H r Hr). unfold printableb, printable in *. lia. Qed.
Lemma not_joining : ~ joining S_edit printable.
Proof. intros [H _]. discriminate. Qed.
Lemma session_ok : supplied S_edit printable (s2l "ls") (Some (s2l "x y")) session.
Proof.
  split.
  - apply printableb_ok. reflexivity.
  - repeat (apply Forall_cons; [apply printableb_ok; reflexivity|]). apply Forall_nil.
  - intros t [= <-]. apply printableb_ok. reflexivity.
  - now left.
  - unfold session. repeat (apply Forall_cons || apply Forall_nil).
    + exists (cmdStartEditor capitals). split; [reflexivity|exact editor_ok].
    + split; [apply printableb_ok; reflexivity|intros H; destruct (not_joining H)].
    + split; [apply printableb_ok; reflexivity|intros H; destruct (not_joining H)].
    + split; [apply printableb_ok; reflexivity|intros H; destruct (not_joining H)].
    + split; lia.
  - intros (k & Hk & Hl). exfalso. cbn in Hk. repeat destruct Hk as [Hk|Hk]; try (injection Hk as <-; discriminate Hl). exact Hk.
  - intros H. destruct (not_joining H).
Qed.

Lemma schedule_ok : supplied S_edit printable (s2l "ls") (Some (s2l "x y")) [key 24].
Proof.
  destruct session_ok as [H1 H2 H3 H4 H5 H6 H7]. split; try assumption.
  - inversion H5; subst. constructor; [assumption|constructor].
  - intros (k & Hk & Hl). exfalso. destruct Hk as [Hk|[]]. injection Hk as <-. discriminate Hl.
Qed.

Lemma none r l : existsb (Z.eqb r) l = false -> ~ In r l.
Proof. intros H Hi. assert (existsb (Z.eqb r) l = true) by (apply existsb_exists; exists r; split; [exact Hi|apply Z.eqb_refl]). congruence. Qed.
Lemma some r l : existsb (Z.eqb r) l = true -> In r l.
Proof. intros (x & H & Hx)%existsb_exists. apply Z.eqb_eq in Hx. now subst. Qed.
Definition returns (x : option sess) (t : str) : bool :=
  match x with Some (Finished _ u RNil) => str_eqb u t | _ => false end.
Lemma returns_ok x t : returns x t = true -> exists s, x = Some (Finished s t RNil).
Proof. destruct x as [[|s u []]|]; try discriminate. intros H%str_eqb_eq. subst. now exists s. Qed.
Lemma valid_of rs : forallb valid_rune rs = true -> valid_utf8 (encode rs).
Proof. intros H. exists rs. split; [|reflexivity]. apply Forall_forall. now apply forallb_forall. Qed.
Lemma end_joiner : exists S default s t, only_builtin S /\ valid_utf8 default /\
  readline S default 0 40 None [key 13] = Some (Finished s t RNil) /\
  exists r, In r (runes t) /\ ~ In r (runes default) /\ Forall (fun h => ~ In r (runes h)) (hist (base S)).
Proof.
  destruct (returns_ok (readline S_on (encode [97; 8205]) 0 40 None [key 13]) (encode [97; 8205; 65533]) ltac:(vm_compute; reflexivity)) as [s Hs].
  exists S_on, (encode [97; 8205]), s, (encode [97; 8205; 65533]). split; [exact builtin_on|]. split; [now apply valid_of|]. split; [exact Hs|].
  exists 65533. split; [apply some; reflexivity|]. split; [apply none; reflexivity|]. repeat constructor; apply none; reflexivity.
Qed.
Lemma non_joiner : exists S default s t, only_builtin S /\ valid_utf8 default /\
  readline S default 0 40 None [key 13] = Some (Finished s t RNil) /\
  In 8204 (runes default) /\ ~ In 8204 (runes t) /\ ~ In 8205 (runes default) /\ In 8205 (runes t).
Proof.
  destruct (returns_ok (readline S_on (encode [97; 8204; 98]) 0 40 None [key 13]) (encode [97; 8205; 98]) ltac:(vm_compute; reflexivity)) as [s Hs].
  exists S_on, (encode [97; 8204; 98]), s, (encode [97; 8205; 98]). split; [exact builtin_on|]. split; [now apply valid_of|]. split; [exact Hs|].
  split; [apply some; reflexivity|]. split; [apply none; reflexivity|]. split; [apply none; reflexivity|apply some; reflexivity].
Qed.
Lemma two_keys : exists S k1 k2 s t, only_builtin S /\
  readline S [] 0 40 None [key 97; EKey k1; EKey k2; key 13] = Some (Finished s t RNil) /\
  In 12354 (runes t) /\ ~ In 12354 (runes k1) /\ ~ In 12354 (runes k2) /\ Forall (fun h => ~ In 12354 (runes h)) (hist (base S)).
Proof.
  destruct (returns_ok (readline S_on [] 0 40 None [key 97; EKey (encode [8205] ++ [227; 129]); EKey [130]; key 13]) (encode [97; 8205; 12354]) ltac:(vm_compute; reflexivity)) as [s Hs].
  exists S_on, (encode [8205] ++ [227; 129]), [130], s, (encode [97; 8205; 12354]). split; [exact builtin_on|]. split; [exact Hs|].
  split; [apply some; reflexivity|]. split; [apply none; reflexivity|]. split; [apply none; reflexivity|]. repeat constructor; apply none; reflexivity.
Qed.
