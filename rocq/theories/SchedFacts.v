(** Schedules: lemmas for PSched.v. *)
From Verif Require Import Base Utf8 Moji Color Prompt Buffer Commands KeyMap Session MojiFacts
  Abs AbsRef AbsSess AbsSafe AbsInv Safe SafeSess Plain Spec Reach SafetyFacts Sched SpecSched.

(** States the no-crash theorems carry through a session. *)
Definition simple_state (S : scfg) (x : sess) : Prop :=
  exists w, PW (base S) + 11 < w /\ SC S w x /\ sInv S (abss x) /\ NS S (abss x).

Section WithSess.
Variable S : scfg.
Notation C := (base S).
Notation E := (cE C).

Section Simple.
Hypothesis HS : simple_editor S.
Lemma simple_facts : joinlike E RuneError = false /\ plain_rune S 34 /\
  (pcolor0 C = [] \/ forall t c, plain S (predictor C t c)) /\ Forall (plain S) (hist C) /\
  env_ok E /\ (forall r, rw E r <= 8) /\ builtin_keys S.
Proof.
  destruct HS as (H1 & H2 & H3 & H4 & H5 & H6 & H7).
  split; [now rewrite <- joins_like|]. split; [split; [lia|now rewrite <- joins_like]|].
  split; [destruct H6 as [H6|H6]; [now left|right; intros t c; now apply simple_plain]|].
  split; [eapply Forall_impl; [|exact H7]; apply simple_plain|]. split; [exact H2|]. split; [exact H3|].
  now apply only_builtin_keys.
Qed.

Lemma simple_step e x : simple_state S x -> simple_event S e ->
  exists x', step S e x = Some x' /\ simple_state S x'.
Proof.
  intros (w & Hw & HC & HI & HN) He. destruct simple_facts as (F1 & F2 & F3 & F4 & F5 & F6 & F7).
  apply simple_plain_event in He.
  assert (HG : guarded S w (abss x) [e]) by (apply NS_guarded; auto; lia).
  cbn [guarded] in HG. destruct HG as (Hf & Hh & Hsw & Hn).
  destruct (step_safe S F5 (pred_plain S F3) F7 w e x HC HI Hh Hsw Hf) as (x' & Hx & HC').
  { intros b x' Hx'. apply (Hn b x' Hx'). }
  exists x'. split; [exact Hx|]. apply step_ref in Hx as [b Hb]; [|exact F7].
  destruct (astep_ok S b e (abss x) F7 HI Hh Hsw) as (y & Hy & HI'). rewrite Hb in Hy. injection Hy as <-.
  exists (new_width w e (abss x)). split.
  - unfold new_width. destruct e; try exact Hw. destruct (abss x) as [[]|]; try exact Hw. cbn in He. lia.
  - split; [exact HC'|]. split; [exact HI'|]. eapply NS_step; eauto.
Qed.

Lemma simple_start default cur w cl x : 0 <= cur -> prompt_width C + 11 < w ->
  simple_text E default -> simple_clip E cl -> start S default cur w cl = Some x -> simple_state S x.
Proof.
  intros Hc Hw Hd Hcl Hx. destruct simple_facts as (F1 & F2 & F3 & F4 & F5 & F6 & F7).
  pose proof (start_ref _ _ _ _ _ _ Hx) as Ha.
  assert (HN : NS S (abss x)).
  { rewrite Ha. split; [|exact I]. unfold astart. apply NA_aupdate; [exact F3|].
    split; [now apply plain_units, simple_plain|]. split; [repeat constructor|]. split; [reflexivity|].
    split; [intros k t []|]. split; [|constructor]. cbn. intros t ->. now apply simple_plain, Hcl. }
  assert (Hw' : PW C + 11 < w) by (unfold prompt_width, PW in *; lia).
  exists w. split; [exact Hw'|].
  assert (Hf : fits S w (abss x)) by (apply NS_fits; auto; lia).
  rewrite Ha in Hf. destruct (start_safe S F5 (pred_plain S F3) default cur w cl Hc Hf) as (x' & Hx' & HC').
  rewrite Hx in Hx'. injection Hx' as <-. split; [exact HC'|]. split; [|exact HN].
  rewrite Ha. split; [exact I|]. now apply astart_ok.
Qed.

Lemma simple_finished s t e : simple_state S (Finished s t e) -> simple_state S (Running MNormal s).
Proof.
  intros (w & Hw & HC & HI & HN). exists w. split; [exact Hw|]. split; [exact HC|]. split; [split; [exact I|exact HI]|].
  split; [exact HN|exact I].
Qed.
Lemma simple_mode m s : simple_state S (Running m s) -> simple_state S (Running MNormal s).
Proof.
  intros (w & Hw & HC & HI & HN). exists w. split; [exact Hw|]. split; [exact HC|]. split; [split; [exact I|apply HI]|].
  split; [apply HN|exact I].
Qed.
End Simple.

Variable I : impl.
Hypothesis HI : implements S I.

Lemma alone_act {A} f s s' (c : code A) : f s = Some (s', c) -> alone (Act f) s = alone c s'.
Proof. intros H. cbn. now rewrite H. Qed.
Lemma alone_crash {A} (f : buf -> option (buf * code A)) s : f s = None -> alone (Act f) s = None.
Proof. intros H. cbn. now rewrite H. Qed.

(** No schedule crashes. *)
Definition G (c : config) : Prop :=
  match lp c with
  | LStart _ => False
  | LBody cd => exists x', option_map sess_of (alone cd (shared c)) = Some x' /\ simple_state S x' /\
      mutex c = Some Loop /\ match sz c with ZBody _ => False | ZLock w => prompt_width C + 11 < w | ZIdle => True end
  | LInner m => m <> MNormal /\ simple_state S (Running m (shared c)) /\ mutex c = Some Loop /\
      match sz c with ZBody _ => False | ZLock w => prompt_width C + 11 < w | ZIdle => True end
  | _ => match sz c with
         | ZIdle => simple_state S (Running MNormal (shared c)) /\ mutex c = None
         | ZLock w => simple_state S (Running MNormal (shared c)) /\ mutex c = None /\ prompt_width C + 11 < w
         | ZBody cd => exists s', alone cd (shared c) = Some (s', tt) /\ simple_state S (Running MNormal s') /\ mutex c = Some Sizer
         end
  end.

Lemma G_size w s : simple_editor S -> simple_state S (Running MNormal s) -> prompt_width C + 11 < w ->
  exists s', alone (on_size I w) s = Some (s', tt) /\ simple_state S (Running MNormal s').
Proof.
  intros HE Hs Hw. destruct (simple_step HE (EResize w) _ Hs Hw) as (x' & Hx & Hx'). cbn [step] in Hx. opt Hx.
  injection Hx as <-. destruct HI as (_ & _ & H3). specialize (H3 w s). rewrite Ev in H3.
  destruct (alone (on_size I w) s) as [[s' []]|]; [|discriminate]. injection H3 as ->. eauto.
Qed.
Lemma G_key m k s : simple_editor S -> simple_state S (Running m s) -> simple_event S (EKey k) ->
  exists x', option_map sess_of (alone (on_key I m k) s) = Some x' /\ simple_state S x'.
Proof.
  intros HE Hs Hk. destruct HI as (H1 & _ & _). rewrite H1. now apply simple_step.
Qed.
Lemma G_err m s : simple_editor S -> simple_state S (Running m s) -> m <> MNormal ->
  exists x', option_map sess_of (alone (on_err I m) s) = Some x' /\ simple_state S x'.
Proof.
  intros HE Hs Hm. destruct HI as (_ & H2 & _). rewrite H2 by exact Hm. apply simple_step; [exact HE|exact Hs|exact Logic.I].
Qed.

Lemma G_keeps c l o : simple_editor S -> G c -> key_waiting S c -> simple_label S l -> cstep I c l o ->
  exists c', o = Some c' /\ G c' /\ key_waiting S c'.
Proof.
  intros HE HG HK Hl H. destruct H; unfold G, key_waiting in HG, HK; cbn [lp sz shared mutex] in HG, HK; try (now destruct HG);
    unfold G, key_waiting; cbn [lp sz shared mutex].
  - (* flush *) eauto.
  - (* key *) eexists. split; [reflexivity|]. auto.
  - (* error *) eexists. split; [reflexivity|]. auto.
  - (* lock *) eexists. split; [reflexivity|]. cbn [lp sz shared mutex]. split; [|exact Logic.I].
    destruct z as [|w|cd].
    + destruct HG as [HG _]. destruct (G_key MNormal k s HE HG HK) as (x' & H1 & H2). eauto 6.
    + destruct HG as (HG & _ & Hw). destruct (G_key MNormal k s HE HG HK) as (x' & H1 & H2). eauto 6.
    + destruct HG as (s' & _ & _ & HG). discriminate.
  - (* body *) rewrite (alone_act _ _ _ _ H) in HG. eauto.
  - (* body crash *) rewrite (alone_crash _ _ H) in HG. destruct HG as (x' & HG & _). discriminate.
  - (* unlock *) destruct HG as (x' & Hx & HG & _ & Hz). injection Hx as <-. eexists. split; [reflexivity|]. split; [|exact Logic.I].
    cbn [lp sz shared mutex]. destruct z; auto. destruct Hz.
  - (* wait *) destruct HG as (x' & Hx & HG & Hmu & Hz). injection Hx as <-. eexists. split; [reflexivity|]. cbn [lp sz shared mutex]. auto.
  - (* inner key *) destruct HG as (Hm & HG & Hmu & Hz). eexists. split; [reflexivity|]. cbn [lp sz shared mutex]. split; [|exact Logic.I].
    destruct (G_key m k s HE HG Hl) as (x' & H1 & H2). eauto 6.
  - (* inner error *) destruct HG as (Hm & HG & Hmu & Hz). eexists. split; [reflexivity|]. cbn [lp sz shared mutex]. split; [|exact Logic.I].
    destruct (G_err m s HE HG Hm) as (x' & H1 & H2). eauto 6.
  - (* return *) destruct HG as (x' & Hx & HG & _ & Hz). injection Hx as <-. eexists. split; [reflexivity|]. split; [|exact Logic.I].
    cbn [lp sz shared mutex]. cbn [sess_of fst snd] in HG. apply simple_finished in HG. destruct z; auto. destruct Hz.
  - (* size *) eexists. split; [reflexivity|]. cbn [lp sz shared mutex]. split; [|exact HK]. destruct l; try tauto; destruct HG as (x' & ? & ? & ? & _); eauto 6.
  - (* size lock *) eexists. split; [reflexivity|]. cbn [lp sz shared mutex]. split; [|exact HK].
    destruct l; try (now destruct HG); try (destruct HG as (Hs & _ & Hw); destruct (G_size w s HE Hs Hw) as (s' & H1 & H2); eauto; fail);
      try (destruct HG as (x' & _ & _ & HG & _); discriminate); destruct HG as (_ & _ & HG & _); discriminate.
  - (* size step *) eexists. split; [reflexivity|]. cbn [lp sz shared mutex]. split; [|exact HK].
    rewrite (alone_act _ _ _ _ H) in HG. destruct l; try tauto; now destruct HG as (x' & _ & _ & _ & []).
  - (* size crash *) exfalso. rewrite (alone_crash _ _ H) in HG.
    destruct l; try (now destruct HG); try (destruct HG as (s' & HG & _); discriminate);
      try (now destruct HG as (x' & _ & _ & _ & [])); now destruct HG as (_ & _ & _ & []).
  - (* size unlock *) eexists. split; [reflexivity|]. cbn [lp sz shared mutex]. split; [|exact HK].
    destruct l; try (now destruct HG); try (now destruct HG as (x' & _ & _ & _ & [])); try (now destruct HG as (_ & _ & _ & []));
      destruct HG as (s' & Hx & Hs & _); injection Hx as <-; auto.
Qed.

Lemma G_exec s0 ls o : simple_editor S -> simple_state S (Running MNormal s0) -> Forall (simple_label S) ls ->
  exec_to I (ready s0) ls o -> exists c, o = Some c /\ G c /\ key_waiting S c.
Proof.
  intros HE Hs Hls H. remember (ready s0) as c0 eqn:Hc. induction H as [c|c ls c1 l o H IH Hst]; subst.
  - eexists. split; [reflexivity|]. split; [|exact Logic.I]. cbn. auto.
  - apply Forall_app in Hls as [Hls Hl]. apply Forall_cons_iff in Hl as [Hl _].
    destruct (IH Hls eq_refl) as (c2 & Hc & HG & HK). injection Hc as <-. eapply G_keeps; eauto.
Qed.
Lemma no_crash default cur w cl s0 ls : simple_editor S -> simple_text E default -> simple_clip E cl -> 0 <= cur ->
  prompt_width C + 11 < w -> start S default cur w cl = Some (Running MNormal s0) -> Forall (simple_label S) ls ->
  ~ exec_to I (ready s0) ls None.
Proof.
  intros HE Hd Hcl Hc Hw Hs Hls H. apply simple_start in Hs; try assumption.
  destruct (G_exec s0 ls None HE Hs Hls H) as (c & Hx & _). discriminate.
Qed.

(** Every schedule is a sequence of whole commands and whole callbacks. *)
Notation not_in_callback z := (~ in_callback z).
Definition quiet (ls : list label) (c : config) (es : list event) (x : sess) : Prop :=
  match sz c with
  | ZBody cd => mutex c = Some Sizer /\ exists s w, x = Running MNormal s /\ sizes ls = resizes es ++ [w] /\
      option_map fst (alone cd (shared c)) = on_resize S w s
  | z => mutex c = None /\ x = Running MNormal (shared c) /\ sizes ls = resizes es ++ waiting z
  end.
Definition J (s0 : buf) (ls : list label) (c : config) : Prop :=
  exists es x, run S es (Running MNormal s0) = Some x /\
  match lp c with
  | LStart _ => False
  | LFlush | LRead => inputs es = typed ls /\ quiet ls c es x
  | LLock k => inputs es ++ [EKey k] = typed ls /\ quiet ls c es x
  | LInner m => m <> MNormal /\ mutex c = Some Loop /\ inputs es = typed ls /\ x = Running m (shared c) /\
      not_in_callback (sz c) /\ sizes ls = resizes es ++ waiting (sz c)
  | LBody cd => mutex c = Some Loop /\ not_in_callback (sz c) /\ sizes ls = resizes es ++ waiting (sz c) /\
      exists ev, is_resize ev = false /\ inputs es ++ [ev] = typed ls /\
        option_map sess_of (alone cd (shared c)) = step S ev x
  | LEnd t e => exists s, x = Finished s t e /\ inputs es = typed ls /\ exists rest, sizes ls = resizes es ++ rest
  end.

Lemma run_snoc es e x : run S (es ++ [e]) x = let* y := run S es x in step S e y.
Proof.
  revert x. induction es as [|a es IH]; intros x; cbn [run app].
  - destruct (step S e x); reflexivity.
  - destruct (step S a x) as [y|]; [apply IH|reflexivity].
Qed.
Lemma inputs_snoc es e : inputs (es ++ [e]) = inputs es ++ (if is_resize e then [] else [e]).
Proof. unfold inputs. rewrite filter_app. cbn. now destruct (is_resize e). Qed.
Lemma resizes_snoc es e : resizes (es ++ [e]) = resizes es ++ match e with EResize w => [w] | _ => [] end.
Proof. unfold resizes. rewrite flat_map_app. cbn. now rewrite app_nil_r. Qed.
Lemma typed_snoc ls l : typed (ls ++ [l]) = typed ls ++ match l with Key k => [EKey k] | KeyErr => [EKeyErr] | _ => [] end.
Proof. unfold typed. rewrite flat_map_app. cbn. now rewrite app_nil_r. Qed.
Lemma sizes_snoc ls l : sizes (ls ++ [l]) = sizes ls ++ match l with Size w => [w] | _ => [] end.
Proof. unfold sizes. rewrite flat_map_app. cbn. now rewrite app_nil_r. Qed.

Ltac snoc := rewrite ?typed_snoc, ?sizes_snoc, ?app_nil_r in *.

Lemma J_keeps s0 ls c l c' : J s0 ls c -> cstep I c l (Some c') -> J s0 (ls ++ [l]) c'.
Proof.
  intros (es & x & Hr & HJ) H. destruct HI as (HI1 & HI2 & HI3).
  inversion H; subst; cbn [lp sz shared mutex] in HJ; try (now destruct HJ).
  - (* flush *) exists es, x. split; [exact Hr|]. unfold quiet in *. cbn [lp sz shared mutex] in *. snoc. exact HJ.
  - (* key *) exists es, x. split; [exact Hr|]. unfold quiet in *. cbn [lp sz shared mutex] in *. snoc. destruct HJ as [HJ1 HJ2]. rewrite HJ1. auto.
  - (* read error *) destruct HJ as [HJ1 HJ2].
    assert (Hm : exists s1 rest, x = Running MNormal s1 /\ sizes ls = resizes es ++ rest).
    { unfold quiet in HJ2. cbn [lp sz shared mutex] in HJ2. destruct z.
      - destruct HJ2 as (_ & -> & ->). eauto.
      - destruct HJ2 as (_ & -> & ->). eauto.
      - destruct HJ2 as (_ & s1 & w & -> & -> & _). eauto. }
    destruct Hm as (s1 & rest & -> & Hz).
    exists (es ++ [EKeyErr]). eexists. rewrite run_snoc, Hr. split; [reflexivity|]. cbn [lp].
    eexists. split; [reflexivity|]. snoc. rewrite inputs_snoc, resizes_snoc, HJ1. cbn. rewrite app_nil_r. eauto.
  - (* lock *) exists es, x. split; [exact Hr|]. destruct HJ as [HJ1 HJ2]. unfold quiet in HJ2. cbn [lp sz shared mutex] in *. snoc.
    assert (Hz : not_in_callback z /\ x = Running MNormal s /\ sizes ls = resizes es ++ waiting z).
    { destruct z; [| |destruct HJ2 as [HJ2 _]; discriminate]; destruct HJ2 as (_ & HA & HD); cbn; rewrite ?app_nil_r; auto. }
    destruct Hz as (Hz1 & -> & Hz3). split; [reflexivity|]. split; [exact Hz1|]. split; [exact Hz3|].
    exists (EKey k). split; [reflexivity|]. split; [exact HJ1|]. apply HI1.
  - (* body *) exists es, x. split; [exact Hr|]. cbn [lp sz shared mutex]. snoc.
    match goal with H : ?f _ = Some _ |- _ => rewrite (alone_act _ _ _ _ H) in HJ end. exact HJ.
  - (* unlock *) destruct HJ as (_ & Hz & Hsz & ev & Hev & Hin & Hal). cbn [alone option_map sess_of fst snd] in Hal.
    exists (es ++ [ev]), (Running MNormal s). rewrite run_snoc, Hr. split; [now symmetry|].
    cbn [lp]. snoc. rewrite inputs_snoc, Hev. split; [exact Hin|].
    unfold quiet. cbn [lp sz shared mutex]. snoc. rewrite resizes_snoc.
    replace (match ev with EResize w => [w] | _ => [] end) with (@nil Z) by (destruct ev; try reflexivity; discriminate).
    rewrite app_nil_r. destruct z; cbn [waiting in_callback] in *; snoc; auto. now destruct Hz.
  - (* wait *) destruct HJ as (Hmu & Hz & Hsz & ev & Hev & Hin & Hal). cbn [alone option_map sess_of fst snd] in Hal.
    exists (es ++ [ev]), (Running m s). rewrite run_snoc, Hr. split; [now symmetry|].
    cbn [lp sz shared mutex]. snoc. rewrite inputs_snoc, Hev, resizes_snoc.
    replace (match ev with EResize w => [w] | _ => [] end) with (@nil Z) by (destruct ev; try reflexivity; discriminate).
    rewrite app_nil_r. auto 8.
  - (* inner key *) destruct HJ as (Hm & Hmu & Hin & -> & Hz & Hsz). exists es. eexists. split; [exact Hr|].
    cbn [lp sz shared mutex]. snoc. split; [exact Hmu|]. split; [exact Hz|]. split; [exact Hsz|].
    exists (EKey k). split; [reflexivity|]. rewrite Hin. split; [reflexivity|]. apply HI1.
  - (* inner error *) destruct HJ as (Hm & Hmu & Hin & -> & Hz & Hsz). exists es. eexists. split; [exact Hr|].
    cbn [lp sz shared mutex]. snoc. split; [exact Hmu|]. split; [exact Hz|]. split; [exact Hsz|].
    exists EKeyErr. split; [reflexivity|]. rewrite Hin. split; [reflexivity|]. now apply HI2.
  - (* return *) destruct HJ as (_ & Hz & Hsz & ev & Hev & Hin & Hal). cbn [alone option_map sess_of fst snd] in Hal.
    exists (es ++ [ev]), (Finished s t e). rewrite run_snoc, Hr. split; [now symmetry|].
    cbn [lp sz shared mutex]. snoc. rewrite inputs_snoc, Hev, resizes_snoc.
    replace (match ev with EResize w => [w] | _ => [] end) with (@nil Z) by (destruct ev; try reflexivity; discriminate).
    rewrite app_nil_r. eauto.
  - (* size *) exists es, x. split; [exact Hr|]. unfold quiet in *. cbn [lp sz shared mutex waiting] in *. snoc.
    destruct l0.
    + destruct HJ.
    + destruct HJ as (? & ? & ? & ->). auto.
    + destruct HJ as (? & ? & ? & ->). auto.
    + destruct HJ as (? & ? & ? & ->). auto.
    + destruct HJ as (? & ? & -> & ?). split; [assumption|]. split; [intros []|]. auto.
    + destruct HJ as (? & ? & ? & ? & ? & ->). do 4 (split; [assumption|]). split; [intros []|reflexivity].
    + destruct HJ as (s1 & ? & ? & rest & ->). exists s1. rewrite <- app_assoc. eauto.
  - (* size lock *) exists es, x. split; [exact Hr|]. unfold quiet in *. cbn [lp sz shared mutex waiting] in *. snoc.
    destruct l0.
    + destruct HJ.
    + destruct HJ as (? & _ & -> & ?). split; [assumption|]. split; [reflexivity|]. eexists _, _. split; [reflexivity|]. split; [eassumption|]. apply HI3.
    + destruct HJ as (? & _ & -> & ?). split; [assumption|]. split; [reflexivity|]. eexists _, _. split; [reflexivity|]. split; [eassumption|]. apply HI3.
    + destruct HJ as (? & _ & -> & ?). split; [assumption|]. split; [reflexivity|]. eexists _, _. split; [reflexivity|]. split; [eassumption|]. apply HI3.
    + destruct HJ; discriminate.
    + destruct HJ as (? & ? & _); discriminate.
    + exact HJ.
  - (* size body *) exists es, x. split; [exact Hr|]. unfold quiet in *. cbn [lp sz shared mutex waiting] in *. snoc.
    match goal with H : ?f _ = Some _ |- _ => rewrite (alone_act _ _ _ _ H) in HJ end.
    destruct l0; try exact HJ.
    + destruct HJ as (_ & HJ & _). destruct HJ. exact Logic.I.
    + destruct HJ as (_ & _ & _ & _ & HJ & _). destruct HJ. exact Logic.I.
  - (* size unlock *)
    assert (Hq : forall s1 w, x = Running MNormal s1 -> option_map fst (alone (Ret tt) s) = on_resize S w s1 ->
              run S (es ++ [EResize w]) (Running MNormal s0) = Some (Running MNormal s)).
    { intros s1 w -> Ho. cbn in Ho. rewrite run_snoc, Hr. cbn [step]. now rewrite <- Ho. }
    destruct l0; unfold quiet in HJ; cbn [lp sz shared mutex] in HJ.
    + destruct HJ.
    + destruct HJ as (Hin & _ & s1 & w & Hx & Hz & Ho). exists (es ++ [EResize w]), (Running MNormal s). split; [eauto|].
      unfold quiet. cbn [lp sz shared mutex waiting]. snoc. rewrite inputs_snoc, resizes_snoc. cbn. snoc. auto.
    + destruct HJ as (Hin & _ & s1 & w & Hx & Hz & Ho). exists (es ++ [EResize w]), (Running MNormal s). split; [eauto|].
      unfold quiet. cbn [lp sz shared mutex waiting]. snoc. rewrite inputs_snoc, resizes_snoc. cbn. snoc. auto.
    + destruct HJ as (Hin & _ & s1 & w & Hx & Hz & Ho). exists (es ++ [EResize w]), (Running MNormal s). split; [eauto|].
      unfold quiet. cbn [lp sz shared mutex waiting]. snoc. rewrite inputs_snoc, resizes_snoc. cbn. snoc. auto.
    + destruct HJ as (_ & HJ & _). destruct HJ. exact Logic.I.
    + destruct HJ as (_ & _ & _ & _ & HJ & _). destruct HJ. exact Logic.I.
    + exists es, x. split; [exact Hr|]. cbn [lp]. snoc. exact HJ.
Qed.

Lemma J_exec s0 ls c : exec_to I (ready s0) ls (Some c) -> J s0 ls c.
Proof.
  intros H. remember (ready s0) as c0 eqn:Hc. remember (Some c) as o eqn:Ho. revert c Ho.
  induction H as [c|c ls c1 l o H IH Hst]; intros c2 Ho; subst.
  - injection Ho as <-. exists [], (Running MNormal s0). split; [reflexivity|]. cbn. auto.
  - eapply J_keeps; [|exact Hst]. now apply IH.
Qed.

Lemma atomic_wait s0 ls c : exec_to I (ready s0) ls (Some c) -> lp c = LRead -> not_in_callback (sz c) ->
  exists es, run S es (Running MNormal s0) = Some (Running MNormal (shared c)) /\
    inputs es = typed ls /\ sizes ls = resizes es ++ waiting (sz c).
Proof.
  intros H Hl Hz. apply J_exec in H as (es & x & Hr & HJ). rewrite Hl in HJ. destruct HJ as [Hin Hq]. exists es.
  unfold quiet in Hq. destruct (sz c); [| |now destruct Hz]; destruct Hq as (_ & -> & Hq); auto.
Qed.
Lemma atomic_inner s0 ls c m : exec_to I (ready s0) ls (Some c) -> lp c = LInner m ->
  exists es, run S es (Running MNormal s0) = Some (Running m (shared c)) /\
    inputs es = typed ls /\ sizes ls = resizes es ++ waiting (sz c).
Proof.
  intros H Hl. apply J_exec in H as (es & x & Hr & HJ). rewrite Hl in HJ. destruct HJ as (_ & _ & Hin & -> & _ & Hz). eauto.
Qed.
Lemma atomic_end s0 ls c t e : exec_to I (ready s0) ls (Some c) -> lp c = LEnd t e ->
  exists es s, run S es (Running MNormal s0) = Some (Finished s t e) /\
    inputs es = typed ls /\ exists rest, sizes ls = resizes es ++ rest.
Proof.
  intros H Hl. apply J_exec in H as (es & x & Hr & HJ). rewrite Hl in HJ. destruct HJ as (s & -> & Hin & Hz). eauto 6.
Qed.

(** A crash before the return is the crash of a session. *)
Lemma crash_sequential s0 ls c l : exec_to I (ready s0) ls (Some c) -> (forall t e, lp c <> LEnd t e) -> cstep I c l None ->
  exists es, run S es (Running MNormal s0) = None /\ (exists ks, typed ls = inputs es ++ ks) /\ exists ws, sizes ls = resizes es ++ ws.
Proof.
  intros H Hend Hst. apply J_exec in H as (es & x & Hr & HJ). inversion Hst; subst; cbn [lp sz shared mutex] in *.
  - destruct HJ.
  - destruct HJ as (_ & _ & Hz & ev & Hev & Hin & Hal). rewrite alone_crash in Hal by assumption. cbn in Hal.
    exists (es ++ [ev]). rewrite run_snoc, Hr, inputs_snoc, resizes_snoc, Hev. split; [now symmetry|]. split; [exists []; now rewrite app_nil_r|].
    replace (match ev with EResize w => [w] | _ => [] end) with (@nil Z) by (destruct ev; try reflexivity; discriminate). rewrite app_nil_r. eauto.
  - assert (G0 : forall ks, typed ls = inputs es ++ ks -> quiet ls (mkConf s mu l0 (ZBody (Act f))) es x ->
        exists es, run S es (Running MNormal s0) = None /\ (exists ks, typed ls = inputs es ++ ks) /\ exists ws, sizes ls = resizes es ++ ws).
    { intros ks Hin Hq. unfold quiet in Hq. cbn [sz shared mutex] in Hq. destruct Hq as (_ & s1 & w & -> & Hz & Ho). rewrite alone_crash in Ho by assumption. cbn in Ho.
      exists (es ++ [EResize w]). rewrite run_snoc, Hr, inputs_snoc, resizes_snoc. cbn [step is_resize]. rewrite <- Ho, app_nil_r, Hz.
      split; [reflexivity|]. split; [eauto|]. exists []. now rewrite app_nil_r. }
    destruct l0; cbn [lp] in *.
    + destruct HJ.
    + destruct HJ as [Hin Hq]. apply (G0 []); [rewrite app_nil_r; now symmetry|exact Hq].
    + destruct HJ as [Hin Hq]. apply (G0 []); [rewrite app_nil_r; now symmetry|exact Hq].
    + destruct HJ as [Hin Hq]. apply (G0 [EKey k]); [now symmetry|exact Hq].
    + destruct HJ as (_ & HJ & _). destruct HJ. exact Logic.I.
    + destruct HJ as (_ & _ & _ & _ & HJ & _). destruct HJ. exact Logic.I.
    + now destruct (Hend t e).
Qed.

(** Mutual exclusion and progress. *)
Lemma exclusive s0 ls c : exec_to I (ready s0) ls (Some c) -> in_command (lp c) -> ~ in_callback (sz c).
Proof.
  intros H Hc Hz. apply J_exec in H as (es & x & Hr & HJ). destruct (lp c); cbn in Hc; try contradiction.
  - destruct HJ as (_ & HJ & _). exact (HJ Hz).
  - destruct HJ as (_ & _ & _ & _ & HJ & _). exact (HJ Hz).
Qed.
Lemma progress s0 ls c : exec_to I (ready s0) ls (Some c) ->
  (lp c = LRead \/ (exists m, lp c = LInner m) \/ exists t e, lp c = LEnd t e) \/ exists o, cstep I c Internal o.
Proof.
  intros H. apply J_exec in H as (es & x & Hr & HJ). destruct c as [s mu l z]. cbn [lp sz shared mutex] in *.
  destruct l.
  - destruct HJ.
  - right. eexists. constructor.
  - eauto.
  - right. destruct HJ as [_ HJ]. unfold quiet in HJ. cbn [lp sz shared mutex] in HJ. destruct z as [|w|[[]|f]].
    + destruct HJ as (-> & _). eexists. constructor.
    + destruct HJ as (-> & _). eexists. constructor.
    + eexists. apply S_size_unlock.
    + destruct (f s) as [[s' c']|] eqn:Hf; eexists; [eapply S_size_body; eauto|eapply S_size_crash; eauto].
  - right. destruct c as [[[| |ss]|t e]|f]; try (eexists; constructor; fail).
    + eexists. apply S_wait. discriminate.
    + eexists. apply S_wait. discriminate.
    + destruct (f s) as [[s' c']|] eqn:Hf; eexists; [eapply S_body; eauto|eapply S_body_crash; eauto].
  - eauto.
  - eauto 6.
Qed.
End WithSess.

(** Without a prediction resizes leave no trace in the text. *)
Section NoTrace.
Variable S : scfg.
Notation C := (base S).
Hypothesis HB : builtin_keys S.
Hypothesis HP : pcolor0 C = [].
Lemma aupdate_off a : aupdate C a = a.
Proof. unfold aupdate. now rewrite HP. Qed.
Lemma aexec_scroll b b' c a : aexec C b c a = aexec C b' c a.
Proof.
  destruct c; cbn [aexec]; try reflexivity. unfold aForwardWord. destruct (slice _ _ _); [|reflexivity].
  rewrite !aupdate_off. now destruct b, b'.
Qed.
Lemma astep_scroll b b' e x : astep S b e x = astep S b' e x.
Proof.
  destruct x as [m a|]; [|reflexivity]. destruct e; try reflexivity. destruct m; try reflexivity.
  cbn [astep]. unfold akey_normal. destruct (LookupCommand _ _ k); try reflexivity; now rewrite (aexec_scroll b b').
Qed.
Lemma astep_resize b w x : astep S b (EResize w) x = Some x.
Proof. destruct x as [[]|]; try reflexivity. cbn [astep]. now rewrite aupdate_off. Qed.
Lemma run_no_resize es : forall x y x' y', abss x = abss y ->
  run S es x = Some x' -> run S (inputs es) y = Some y' -> abss x' = abss y'.
Proof.
  unfold inputs. induction es as [|e es IH]; intros x y x' y' Hxy Hx Hy; cbn [run filter] in *.
  - injection Hx as <-. injection Hy as <-. exact Hxy.
  - opt Hx. apply step_ref in Ev as [b Hb]; [|exact HB]. destruct (is_resize e) eqn:He; cbn [negb] in Hy.
    + destruct e; try discriminate. rewrite astep_resize in Hb. injection Hb as Hb. eapply IH; [|exact Hx|exact Hy]. congruence.
    + cbn [run] in Hy. opt Hy. apply step_ref in Ev as [b' Hb']; [|exact HB].
      rewrite Hxy, (astep_scroll b b'), Hb' in Hb. injection Hb as Hb. eapply IH; [|exact Hx|exact Hy]. now symmetry.
Qed.

Variable I : impl.
Hypothesis HI : implements S I.
Lemma indep_wait s0 ls c y : exec_to I (ready s0) ls (Some c) -> lp c = LRead -> ~ in_callback (sz c) ->
  run S (typed ls) (Running MNormal s0) = Some y ->
  exists s, y = Running MNormal s /\ line s = line (shared c) /\ cursor s = cursor (shared c).
Proof.
  intros H Hl Hz Hy. apply (atomic_wait S I HI) in H as (es & Hr & Hin & _); [|exact Hl|exact Hz].
  rewrite <- Hin in Hy. pose proof (run_no_resize es _ _ _ _ eq_refl Hr Hy) as Hab.
  destruct y as [m s|s t e]; cbn in Hab; [|discriminate]. injection Hab as <- Hab. exists s. split; [reflexivity|].
  split; [now symmetry|congruence].
Qed.
Lemma indep_end s0 ls c t e y : exec_to I (ready s0) ls (Some c) -> lp c = LEnd t e ->
  run S (typed ls) (Running MNormal s0) = Some y -> exists s, y = Finished s t e.
Proof.
  intros H Hl Hy. apply (atomic_end S I HI _ _ _ t e) in H as (es & s & Hr & Hin & _); [|exact Hl].
  rewrite <- Hin in Hy. pose proof (run_no_resize es _ _ _ _ eq_refl Hr Hy) as Hab.
  destruct y as [m s1|s1 t1 e1]; cbn in Hab; [discriminate|]. inversion Hab; subst. now exists s1.
Qed.
End NoTrace.

(** The division into steps given as an example is one. *)
Lemma by_lines_ok S : implements S (by_lines S).
Proof.
  split; [|split].
  - intros m k s. cbn [on_key by_lines alone]. destruct (step S (EKey k) (Running m s)) as [[m' s'|s' t e]|]; reflexivity.
  - intros m s _. cbn [on_err by_lines alone]. destruct (step S EKeyErr (Running m s)) as [[m' s'|s' t e]|]; reflexivity.
  - intros w s. cbn. unfold on_resize. destruct (RepaintLastLine (base S) (ResetViewStart (base S) (set_termw s w))); reflexivity.
Qed.
Lemma start_code_ok S default cur w cl :
  option_map (fun p => Running MNormal (fst p)) (alone (start_code S default w) (new_buffer S cur cl)) = start S default cur w cl.
Proof.
  unfold start, start_code, new_buffer. destruct (callPromptWriter (cE (base S)) (prompt (base S))) as [t pw].
  unfold set_termw, set_topc, emit.
  cbn [alone cells suffix view cursor termw topc hptr undoes pending modh clip out].
  destruct (w - 3 <=? pw);
  match goal with |- context [InsertString ?C ?s ?p ?d] => destruct (InsertString C s p d) as [[s3 n]|]; [|reflexivity] end;
  cbn [alone]; match goal with |- context [RepaintAfterPrompt ?C ?s] => destruct (RepaintAfterPrompt C s) as [s5|]; reflexivity end.
Qed.
(** Executions from the front. *)
Lemma X_cons I c l c1 ls o : cstep I c l (Some c1) -> exec_to I c1 ls o -> exec_to I c (l :: ls) o.
Proof.
  intros Hs H. induction H as [c1|c1 ls c2 l' o H IH Hs'].
  - apply (X_step I c [] c l); [constructor|exact Hs].
  - specialize (IH Hs). exact (X_step I c (l :: ls) c2 l' o IH Hs').
Qed.
Lemma X_last I c l o : cstep I c l o -> exec_to I c [l] o.
Proof. intros H. apply (X_step I c [] c l o); [constructor|exact H]. Qed.
