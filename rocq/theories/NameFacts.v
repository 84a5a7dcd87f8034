(** Lemmas for C50: the registered names, their default keys and what they do. *)
From Verif Require Import Base Utf8 Moji Color Prompt Buffer Commands KeyMap Names Session Spec SpecLib SpecNames.
From Verif Require Import Abs AbsRef EditFacts KeyFacts OutFacts.
From Verif Require CmdFacts EditProps EditMore HistFacts.
From Coq Require Import Lia.

Lemma func_names : Forall (fun p => ascii (fst p) /\ map norm1 (fst p) = fst p) NameToFunc.
Proof.
  assert (H : forallb (fun p => forallb (fun b => (0 <=? b) && (b <? 128)) (fst p) && str_eqb (map norm1 (fst p)) (fst p)) NameToFunc = true) by (vm_compute; reflexivity).
  rewrite forallb_forall in H. apply Forall_forall. intros p Hp. apply H in Hp. apply andb_true_iff in Hp as [H1 H2]. split; [|now apply str_eqb_eq].
  unfold ascii. rewrite forallb_forall in H1. apply Forall_forall. intros b Hb. apply H1 in Hb. lia.
Qed.
Lemma func_norm up name f : In (name, f) NameToFunc -> ascii name /\ NormalizeName up name = name.
Proof.
  intros H. pose proof func_names as HN. rewrite Forall_forall in HN. destruct (HN _ H) as [Ha Hm]. cbn [fst] in *.
  split; [exact Ha|]. now rewrite normalize_ascii.
Qed.
(** A name in the table, spelled in any way, gives its command. *)
Lemma get_spelled up name f a : In (name, f) NameToFunc -> aget str_eqb NameToFunc name = Some f -> ascii a -> same_name a name ->
  GetFunc up NameToFunc a = Some f.
Proof.
  intros Hin Hg Ha Hs. destruct (func_norm up _ _ Hin) as [Hn He]. unfold GetFunc. apply (normalize_same up) in Hs; auto. now rewrite Hs, He.
Qed.
Lemma get_unknown up a : ascii a -> (forall name, In name (map fst default_key) -> ~ same_name a name) -> GetFunc up NameToFunc a = None.
Proof.
  intros Ha H. unfold GetFunc. destruct (aget str_eqb NameToFunc (NormalizeName up a)) as [f|] eqn:Hg; [|reflexivity].
  apply aget_in in Hg. destruct (func_norm up _ _ Hg) as [Hn He]. exfalso. apply (H (NormalizeName up a)).
  - assert (E : map fst default_key = map fst NameToFunc) by (vm_compute; reflexivity). rewrite E. apply in_map_iff. now exists (NormalizeName up a, f).
  - apply (normalize_same up); auto.
Qed.

Lemma table_keys : Forall (fun p => exists f, aget str_eqb NameToFunc (fst p) = Some f /\ (forall g, f <> CUser g) /\
    Forall (fun kn => exists code, aget str_eqb NameToCode kn = Some code /\ aget str_eqb GlobalKeyMap code = Some f) (snd p)) default_key.
Proof.
  unfold default_key.
  repeat (constructor; [eexists; split; [vm_compute; reflexivity|]; split; [discriminate|]; cbn [snd];
    repeat (constructor; [eexists; split; vm_compute; reflexivity|]); constructor|]).
  constructor.
Qed.

Lemma same_key S1 S2 k1 k2 s : base S1 = base S2 -> LookupCommand (kmap S1) (gmap S1) k1 = LookupCommand (kmap S2) (gmap S2) k2 ->
  step S1 (EKey k1) (Running MNormal s) = step S2 (EKey k2) (Running MNormal s).
Proof.
  destruct S1 as [b1 m1 g1], S2 as [b2 m2 g2]. cbn [base kmap gmap]. intros <- H. cbn [step]. unfold key_normal. cbn [kmap gmap].
  rewrite H. destruct (LookupCommand m2 g2 k2); reflexivity.
Qed.

Lemma named_key up S name ks kn a : default_keys S -> In (name, ks) default_key -> In kn ks -> ascii a -> same_name a name ->
  exists f code, GetFunc up NameToFunc a = Some f /\ In (kn, code) NameToCode /\
    forall km k s, step (with_keys S (BindKey km k (Some f))) (EKey k) (Running MNormal s) = step S (EKey code) (Running MNormal s).
Proof.
  intros [Hk Hg] Hin Hkn Ha Hs. pose proof table_keys as T. rewrite Forall_forall in T. destruct (T _ Hin) as (f & Hf & _ & HK). cbn [fst snd] in *.
  rewrite Forall_forall in HK. destruct (HK _ Hkn) as (code & Hc & Hgc).
  exists f, code. split; [apply (get_spelled up name); auto; now apply aget_in|]. split; [now apply aget_in|].
  intros km k s. apply same_key; [reflexivity|]. cbn [with_keys kmap gmap]. unfold LookupCommand.
  assert (B : Lookup (BindKey km k (Some f)) k = Some f) by apply bind_same. rewrite B.
  rewrite Hk, Hg. unfold Lookup. rewrite Hgc. reflexivity.
Qed.

(** The default map has no other key. *)
Lemma other_keys S k c : default_keys S -> bound S k c -> c <> CSelfInsert k -> (forall f, c <> CUser f) ->
  exists name ks kn, In (name, ks) default_key /\ In kn ks /\ In (kn, k) NameToCode.
Proof.
  intros [Hk Hg] Hb Hc Hu. unfold bound in Hb. unfold LookupCommand in Hb. rewrite Hk, Hg in Hb. cbn [Lookup aget] in Hb. unfold Lookup in Hb.
  destruct (aget str_eqb GlobalKeyMap k) as [c0|] eqn:He; [|congruence]. clear Hb.
  assert (T : forallb (fun p => existsb (fun d => existsb (fun kn => existsb (fun e => str_eqb kn (fst e) && str_eqb (fst p) (snd e)) NameToCode) (snd d)) default_key) GlobalKeyMap = true)
    by (vm_compute; reflexivity).
  rewrite forallb_forall in T. apply aget_in in He. apply T in He. cbn [fst] in He.
  apply existsb_exists in He as ([name ks] & Hd & He). cbn [snd] in He. apply existsb_exists in He as (kn & Hkn & He).
  apply existsb_exists in He as ([kn' code] & He & Hx). cbn [fst snd] in Hx. apply andb_true_iff in Hx as [H1 H2].
  apply str_eqb_eq in H1, H2. subst. exists name, ks, kn'. auto.
Qed.

Section Meaning.
Variable C : cfg.
Notation exec := (exec C).
Lemma continues c s s' r : exec c s = Some (s', r) -> match c with
  | CAcceptLine | CInterrupt | CDeleteOrAbort | CUser _ => True | _ => r = CONTINUE end.
Proof.
  destruct c; cbn; auto; unfold continue_; intros H;
    match type of H with (let* _ := ?o in _) = _ => destruct o; [now injection H as _ <-|discriminate] | _ => now injection H as _ <- end.
Qed.

Lemma all_same c s s' r : c = CClearScreen \/ c = CRepaintOnNewline -> exec c s = Some (s', r) -> line s' = line s /\ cursor s' = cursor s.
Proof.
  intros Hc H. apply (exec_ref C) in H as [b H]; [|destruct Hc as [->| ->]; exact I].
  destruct Hc as [->| ->]; cbn [aexec] in H; injection H as H _; apply (f_equal (fun a => (aline a, acur a))) in H;
    cbn in H; rewrite aupdate_line, aupdate_cur in H; injection H as H1 H2; split; symmetry; assumption.
Qed.
Lemma clear_out s s' : cmdClearScreen C s = Some s' -> exists o, out s' = out s ++ TClear :: o.
Proof. intros H. apply (ext_RepaintAll C) in H as [l H]. cbn in H. exists l. now rewrite H, <- app_assoc. Qed.
Lemma newline_out s s' : cmdRepaintOnNewline C s = Some s' -> exists o, out s' = out s ++ TNewline :: o.
Proof. intros H. apply (ext_RepaintAll C) in H as [l H]. cbn in H. exists l. now rewrite H, <- app_assoc. Qed.
Lemma cont_inv o s r : continue_ o = Some (s, r) -> o = Some s.
Proof. destruct o; cbn; congruence. Qed.

Lemma meaning_ok : Forall (fun p : str * effect => exists f, aget str_eqb NameToFunc (fst p) = Some f /\
  forall s s' r, exec f s = Some (s', r) -> snd p s s' r) (meaning C).
Proof.
  unfold meaning.
  Ltac next := constructor; [eexists; split; [vm_compute; reflexivity|]; cbn [snd]; intros s s' r H|].
  Ltac tk := match goal with H : _ |- takes _ _ _ _ => split; [exact (continues _ _ _ _ H)|intros p q Hpq] end.
  next. { cbn in H. now injection H as <- <-. }
  next. { cbn in H. unfold cmdInterrupt in H. injection H as <- <-. auto. }
  next. { tk. destruct Hpq as [Hl _]. rewrite <- Hl. eapply EditProps.beginning_of_line; eauto. }
  next. { tk. destruct Hpq as [Hl _]. rewrite <- Hl. eapply EditProps.end_of_line; eauto. }
  next. { tk. split.
    - intros ->. now rewrite (EditProps.backward_char_start C _ _ _ _ H Hpq).
    - intros p' m ->. eapply EditProps.backward_char; eauto. }
  next. { tk. split.
    - intros -> Hs. now rewrite (EditProps.forward_char_end C _ _ _ _ H Hpq Hs).
    - intros m q' ->. eapply EditProps.forward_char; eauto. }
  next. { tk. split.
    - intros ->. now rewrite (EditProps.backward_delete_start C _ _ _ _ H Hpq).
    - intros p' m ->. eapply EditProps.backward_delete; eauto. }
  next. { tk. split.
    - intros ->. eapply EditProps.delete_char_end; eauto.
    - intros m q' ->. edestruct (EditProps.delete_char C) as (? & _); [left; reflexivity|exact H|exact Hpq|]. assumption. }
  next. { intros p q Hpq.
    assert (Hz : zlen (cells s) = zlen (p ++ q)). { destruct Hpq as [Hl _]. rewrite <- Hl. unfold line. now rewrite zlen_map. }
    split; [|split].
    - intros He. cbn in H. unfold cmdDeleteOrAbort in H. rewrite Hz, He in H. cbn in H. now injection H as <- <-.
    - intros Hp ->. cbn in H. unfold cmdDeleteOrAbort in H. destruct (0 <? zlen (cells s)) eqn:Hlt.
      + destruct (cmdDeleteChar C s) as [s1|] eqn:Hd; [|discriminate]. injection H as <- <-. split; [reflexivity|].
        eapply (EditProps.delete_char_end C _ _ CONTINUE); [|exact Hpq]. cbn. unfold continue_. now rewrite Hd.
      + exfalso. rewrite app_nil_r in Hz. destruct p; [now apply Hp|]. rewrite zlen_cons in Hz. pose proof (zlen_nonneg p). lia.
    - intros m q' ->. edestruct (EditProps.delete_char C) as (? & _ & _ & ?); [right; reflexivity|exact H|exact Hpq|]. auto. }
  next. { tk. edestruct (EditProps.kill_line C) as (? & ? & _); eauto. }
  next. { tk. edestruct (EditProps.kill_whole_line C) as (? & ? & _); eauto. }
  next. { tk. intros Hs. edestruct (EditProps.word_rubout_single C) as (u & w & b & ? & ? & ? & ? & ? & ? & ? & _); eauto. exists u, w, b. auto 10. }
  next. { tk. edestruct (EditProps.line_discard C) as (? & ? & _); eauto. }
  next. { tk. split; [|exact (clear_out _ _ (cont_inv _ _ _ H))]. destruct (all_same _ _ _ _ (or_introl eq_refl) H) as [H1 H2].
    unfold at_split in *. now rewrite H1, H2. }
  next. { tk. split; [|exact (newline_out _ _ (cont_inv _ _ _ H))]. destruct (all_same _ _ _ _ (or_intror eq_refl) H) as [H1 H2].
    unfold at_split in *. now rewrite H1, H2. }
  next. { tk. intros t Ht. edestruct (EditMore.yank_plain C) as (u & ? & ? & _); eauto. }
  next. { tk. intros t Ht. edestruct (EditMore.yank_with_quote C) as (u & ? & ? & _); eauto. }
  next. { tk. split.
    - intros p' x y q' -> ->. eapply EditProps.swap_mid; eauto.
    - intros p' x y -> ->. eapply EditProps.swap_end; eauto. }
  next. { tk. eapply EditProps.backward_word; eauto. }
  next. { tk. eapply EditProps.forward_word; eauto. }
  next. { intros H1 H2. eapply HistFacts.previous_history; eauto. }
  next. { intros H1. eapply HistFacts.next_history; eauto. }
  constructor.
Qed.
End Meaning.

Lemma named_effect up C name R a : In (name, R) (meaning C) -> ascii a -> same_name a name ->
  exists f, GetFunc up NameToFunc a = Some f /\ forall s s' r, exec C f s = Some (s', r) -> R s s' r.
Proof.
  intros Hin Ha Hs. pose proof (meaning_ok C) as T. rewrite Forall_forall in T. destruct (T _ Hin) as (f & Hf & HR). cbn [fst snd] in *.
  exists f. split; [|exact HR]. apply (get_spelled up name); auto. now apply aget_in.
Qed.
(** With the key: pressing a default key of the command has the effect its name says. *)
Lemma key_effect S name R ks kn : default_keys S -> In (name, R) (meaning (base S)) -> In (name, ks) default_key -> In kn ks ->
  exists f code, In (kn, code) NameToCode /\ bound S code f /\ forall s s' r, exec (base S) f s = Some (s', r) -> R s s' r.
Proof.
  intros [Hk Hg] HR Hin Hkn. pose proof table_keys as T. rewrite Forall_forall in T. destruct (T _ Hin) as (f & Hf & _ & HK). cbn [fst snd] in *.
  rewrite Forall_forall in HK. destruct (HK _ Hkn) as (code & Hc & Hgc). exists f, code. split; [now apply aget_in|]. split.
  - unfold bound, LookupCommand. rewrite Hk, Hg. unfold Lookup. now rewrite Hgc.
  - pose proof (meaning_ok (base S)) as T2. rewrite Forall_forall in T2. destruct (T2 _ HR) as (f' & Hf' & HR'). cbn [fst snd] in *. rewrite Hf in Hf'. injection Hf' as <-. exact HR'.
Qed.
