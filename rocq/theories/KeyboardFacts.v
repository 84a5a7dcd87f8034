(** Proofs for C61. *)
From Verif Require Import Base Utf8 Moji Color Prompt Buffer Commands KeyMap Session KeyInput Names SpecLib KeyFacts SpecKeyboard.

Definition in_names (n : str) (l : list str) : bool := existsb (str_eqb n) l.
Lemma in_names_ok n l : in_names n l = false -> ~ In n l.
Proof.
  intros H Hi. unfold in_names in H. assert (existsb (str_eqb n) l = true); [|congruence]. apply existsb_exists. exists n. split; [exact Hi|]. now apply str_eqb_eq.
Qed.
Lemma in_names_no n l : ~ In n l -> in_names n l = false.
Proof.
  intros H. unfold in_names. destruct (existsb (str_eqb n) l) eqn:E; [|reflexivity]. apply existsb_exists in E as (x & Hx & E). apply str_eqb_eq in E. now subst.
Qed.
(** The tables agree outside [misnamed]. *)
Lemma tables : forallb (fun p => in_names (fst p) misnamed || match aget str_eqb NameToCode (fst p) with Some c => str_eqb c (snd p) | None => false end) keyboard = true.
Proof. vm_compute. reflexivity. Qed.
Lemma keyboard_code name sent : In (name, sent) keyboard -> ~ In name misnamed -> aget str_eqb NameToCode name = Some sent.
Proof.
  intros H Hm. pose proof tables as G. rewrite forallb_forall in G. specialize (G _ H). cbn [fst snd] in G.
  rewrite (in_names_no _ _ Hm) in G. cbn [orb] in G. destruct (aget str_eqb NameToCode name) as [c|]; [|discriminate]. apply str_eqb_eq in G. now subst.
Qed.
Lemma name_bound up km key name sent f gm : aget str_eqb NameToCode name = Some sent -> ascii key -> same_name key name ->
  exists km', BindKeyFunc up km key (Some f) = (km', true) /\ LookupCommand km' gm sent = f /\
    forall sent', sent' <> sent -> LookupCommand km' gm sent' = LookupCommand km gm sent'.
Proof.
  intros Hc Ha Hs. pose proof (aget_in _ _ _ Hc) as Hn.
  destruct (BindKeyFunc up km key (Some f)) as [km' ok] eqn:Hb.
  pose proof (bind_names_ok up km key (Some f) Ha (ex_intro _ name (ex_intro _ sent (conj Hn Hs)))) as Hok. rewrite Hb in Hok. cbn in Hok. subst ok.
  exists km'. split; [reflexivity|]. unfold BindKeyFunc in Hb.
  pose proof names_ascii as HN. rewrite Forall_forall in HN. destruct (HN _ Hn) as [Na Nm]. cbn [fst] in *.
  assert (E : NormalizeName up key = name).
  { rewrite (proj2 (normalize_same up key name Ha Na) Hs). now rewrite normalize_ascii. }
  rewrite E, Hc in Hb. assert (K : km' = BindKey km sent (Some f)) by congruence. clear Hb. subst km'. split.
  - unfold LookupCommand, Lookup. assert (G : aget str_eqb (BindKey km sent (Some f)) sent = Some f) by exact (binds_last km [] sent (Some f) [] (fun H => H)). now rewrite G.
  - intros sent' Hd. unfold LookupCommand, Lookup. assert (G : aget str_eqb (BindKey km sent (Some f)) sent' = aget str_eqb km sent').
    { apply (binds_other [(sent, Some f)] km sent'). intros [H|[]]. cbn in H. congruence. }
    now rewrite G.
Qed.
Lemma pressed_bound up km key name sent f gm : In (name, sent) keyboard -> ~ In name misnamed -> ascii key -> same_name key name ->
  exists km', BindKeyFunc up km key (Some f) = (km', true) /\ LookupCommand km' gm sent = f /\
    forall name' sent', In (name', sent') keyboard -> sent' <> sent -> LookupCommand km' gm sent' = LookupCommand km gm sent'.
Proof.
  intros Hin Hm Ha Hs. destruct (name_bound up km key name sent f gm (keyboard_code _ _ Hin Hm) Ha Hs) as (km' & H1 & H2 & H3).
  exists km'. split; [exact H1|]. split; [exact H2|]. intros name' sent' _. apply H3.
Qed.
(** The names that mean something else. *)
Lemma taken_tables : forallb (fun p => match aget str_eqb NameToCode (fst p) with Some c => str_eqb c (snd p) | None => false end) taken_for = true.
Proof. vm_compute. reflexivity. Qed.
Lemma taken_bound up km key name code f gm : In (name, code) taken_for -> ascii key -> same_name key name ->
  exists km', BindKeyFunc up km key (Some f) = (km', true) /\ LookupCommand km' gm code = f /\
    forall sent', sent' <> code -> LookupCommand km' gm sent' = LookupCommand km gm sent'.
Proof.
  intros H. apply name_bound. pose proof taken_tables as G. rewrite forallb_forall in G. specialize (G _ H). cbn [fst snd] in G.
  destruct (aget str_eqb NameToCode name) as [c|]; [|discriminate]. apply str_eqb_eq in G. now subst.
Qed.
(** Every name is in one of the two tables. *)
Lemma all_names : forallb (fun p => in_names (fst p) (map fst keyboard) || in_names (fst p) (map fst taken_for)) NameToCode = true.
Proof. vm_compute. reflexivity. Qed.
Lemma every_name name code : In (name, code) NameToCode -> In name (map fst keyboard) \/ In name (map fst taken_for).
Proof.
  intros H. pose proof all_names as G. rewrite forallb_forall in G. specialize (G _ H). cbn [fst] in G.
  apply Bool.orb_true_iff in G. unfold in_names in G. rewrite !existsb_exists in G.
  destruct G as [(x & Hx & E)|(x & Hx & E)]; apply str_eqb_eq in E; subst x; auto.
Qed.

(** The whole sequence of a key is read as one key. *)
Lemma burst8 name sent n : In (name, sent) keyboard -> (List.length sent <= n)%nat ->
  exists m, tty8_GetKey true (mkTty8 (mkXtty (map Some sent) (repeat true n)) []) = Some (Key sent, m) /\ input (xt m) = [] /\ buf8 m = [].
Proof.
  intros H Hn.
  assert (G : Forall (fun p => forall j, exists m, tty8_GetKey true (mkTty8 (mkXtty (map Some (snd p)) (repeat true (List.length (snd p) + j))) []) = Some (Key (snd p), m) /\ input (xt m) = [] /\ buf8 m = []) keyboard).
  { repeat (apply Forall_cons; [intros [|j]; eexists; (split; [reflexivity|split; reflexivity])|]). constructor. }
  rewrite Forall_forall in G. assert (E : exists j, n = (List.length sent + j)%nat) by (exists (n - List.length sent)%nat; lia).
  destruct E as (j & ->). exact (G _ H j).
Qed.
Lemma burst10 name sent chunks : In (name, sent) keyboard ->
  tty10_GetKey (mkTty10 [] (Some sent :: chunks)) = (Key10 sent, mkTty10 [] chunks).
Proof.
  intros H.
  assert (G : Forall (fun p => tty10_GetKey (mkTty10 [] (Some (snd p) :: chunks)) = (Key10 (snd p), mkTty10 [] chunks)) keyboard).
  { repeat constructor. }
  rewrite Forall_forall in G. exact (G _ H).
Qed.

(** The known keys in the default table. *)
Lemma known_default km : forall key fn, In (key, fn) known_keys ->
  exists sent c, In (key, sent) keyboard /\ In (fn, c) NameToFunc /\ (aget str_eqb km sent = None -> LookupCommand km GlobalKeyMap sent = c).
Proof.
  assert (G : Forall (fun p => exists sent c, aget str_eqb keyboard (fst p) = Some sent /\ aget str_eqb NameToFunc (snd p) = Some c /\ aget str_eqb GlobalKeyMap sent = Some c) known_keys).
  { repeat (apply Forall_cons; [do 2 eexists; (split; [vm_compute; reflexivity|split; vm_compute; reflexivity])|]). constructor. }
  intros key fn Hin. rewrite Forall_forall in G. destruct (G _ Hin) as (sent & c & H1 & H2 & H3). cbn [fst snd] in *.
  exists sent, c. split; [exact (aget_in _ _ _ H1)|]. split; [exact (aget_in _ _ _ H2)|]. intros Hk. unfold LookupCommand, Lookup. now rewrite Hk, H3.
Qed.
