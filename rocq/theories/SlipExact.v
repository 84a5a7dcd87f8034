(** The theorems of PSlip.v from SlipSess.v. *)
From Verif Require Import Base Utf8 Moji Color Prompt Buffer Commands KeyMap Session MojiFacts Abs AbsRef AbsSess AbsSafe AbsInv Plain SafetyFacts CmdFacts EditMore Spec SpecEditor SpecExact SpecUndoOnly SpecSlip EditorFacts SlipFacts SlipSess.
From Verif Require HistFacts Reach ExactFacts UndoOnly SafeSess.
From Verif Require Import Session Spec SpecEditor.
Ltac lia := unfold rune in *; Lia.lia.

Section Unjoined.
Variable S : scfg.
Notation C := (base S).
Notation E := (cE C).
Variables (default : str) (cur w : Z) (cl : option str) (es : list event).
Hypothesis HB : only_builtin S.
Hypothesis HP : pcolor0 C <> [].
Hypothesis Hre : joins E 65533 = false.
Hypothesis H34 : joins E 34 = false.
Hypothesis Hh : Forall (unjoined E) (hist C).
Hypothesis Hpr : forall t c, unjoined E (predictor C t c).
Hypothesis Hcur : 0 <= cur.
Hypothesis Hd : unjoined E default.
Hypothesis Hcl : forall t, cl = Some t -> unjoined E t.
Hypothesis Hes : Forall (unjoined_event S) es.
Notation Q := (fun _ : rune => True).
Lemma unj_of t : unjoined E t -> unj (off_s S) Q t. Proof. intros H r Hr. exact (conj (H r Hr) I). Qed.
Lemma unj_ev e : unjoined_event S e -> unj_event (off_s S) Q e.
Proof. destruct e as [k| |n|[t|]]; cbn; auto using unj_of. intros [H1 H2]. split; [now apply unj_of|]. split; [auto|]. intros k' Hk. now apply unj_of, H2. Qed.
Lemma hist_unj : Forall (unj (off_s S) Q) (hist C). Proof. eapply Forall_impl; [|exact Hh]. apply unj_of. Qed.
Lemma slip_some x : readline S default cur w cl es = Some x ->
  same_desk E x (fst (slip_of S default cur cl (scrolled S default cur w cl es) es)) /\ same_slip E x (snd (slip_of S default cur cl (scrolled S default cur w cl es) es)).
Proof.
  intros Hx.
  destruct (XR_readline S HP (Reach.only_builtin_keys S HB) Hre H34 Q I hist_unj (fun t c => unj_of _ (Hpr t c)) default cur w cl Hcur (unj_of _ Hd) (fun t Ht => unj_of _ (Hcl t Ht)) es x) as (Hl & H);
    [eapply Forall_impl; [|exact Hes]; apply unj_ev|exact Hx|].
  exact (XR_same S Q x _ H).
Qed.
Lemma slip_any x again : (forall k, In (EKey k) es -> LookupCommand (kmap S) (gmap S) k <> CForwardWord) -> List.length again = List.length es ->
  readline S default cur w cl es = Some x ->
  same_desk E x (fst (slip_of S default cur cl again es)) /\ same_slip E x (snd (slip_of S default cur cl again es)).
Proof.
  intros Hn Hl Hx. apply (XR_same S Q x).
  apply (XR_readline_any S HP (Reach.only_builtin_keys S HB) Hre H34 Q I hist_unj (fun t c => unj_of _ (Hpr t c)) default cur w cl Hcur (unj_of _ Hd) (fun t Ht => unj_of _ (Hcl t Ht)) es x again);
    [eapply Forall_impl; [|exact Hes]; apply unj_ev|exact Hn|exact Hl|exact Hx].
Qed.
End Unjoined.
Lemma all_unjoined S es : (forall r, joins (cE (base S)) r = false) -> Forall (unjoined_event S) es.
Proof. intros HJ. apply Forall_forall. intros [k| |n|[t|]] _; cbn; auto; unfold unjoined; auto. Qed.

(** Crashes. *)
Section Simple.
Variable S : scfg.
Notation C := (base S).
Notation E := (cE C).
Variables (default : str) (cur w : Z) (cl : option str).
Hypothesis HS : simple_editor S.
Hypothesis HP : pcolor0 C <> [].
Hypothesis Hd : simple_text E default.
Hypothesis Hcl : simple_clip E cl.
Hypothesis Hcur : 0 <= cur.
Hypothesis Hw : prompt_width C + 11 < w.
Notation Q := ExactFacts.notab.
Notation S0 := (off_s S).
Lemma simple_XR es x : Forall (simple_input S) es -> readline S default cur w cl es = Some x ->
  XR S Q (abss x) (slip_of S default cur cl (scrolled S default cur w cl es) es).
Proof.
  pose proof HS as (H1 & H2 & H3 & H4 & H5 & H6 & H7). destruct H6 as [H6|H6]; [now destruct HP|]. intros Hes Hx.
  apply (XR_readline S HP (Reach.only_builtin_keys S H1) H4 H5 Q ltac:(discriminate)); auto.
  - eapply Forall_impl; [|exact H7]. intros t Ht. exact (ExactFacts.simple_unj S0 t Ht).
  - intros t c. exact (ExactFacts.simple_unj S0 _ (H6 t c)).
  - exact (ExactFacts.simple_unj S0 _ Hd).
  - intros t Ht. exact (ExactFacts.simple_unj S0 _ (Hcl t Ht)).
  - eapply Forall_impl; [|exact Hes]. intros e He. exact (ExactFacts.simple_unj_event S0 e He).
Qed.
(** What UNDO does to a line that is on paper. *)
Lemma undo_ok s ds : XR S Q (ARunning MNormal (abs s)) ds -> exists p, fst ds = Editing p /\
  (aUndo C (abs s) = None <-> match changes p with c :: _ => 0 < c_new c /\ zlen (whole p) < c_place c + c_new c | [] => False end) /\
  (forall a', aUndo C (abs s) = Some a' -> 0 <= acur a' <= zlen (aline a')).
Proof.
  destruct ds as [d slip]. intros [H _]. cbn [fst bares RS] in H. destruct d as [p|p|l f i p|t r]; try contradiction. exists p. split; [reflexivity|].
  pose proof (undo_bare C (abs s)) as Hb. split.
  - rewrite <- (ExactFacts.undo_none S0 eq_refl Q _ p H). change (base S0) with (off C). rewrite Hb. destruct (aUndo C (abs s)); cbn; split; congruence.
  - intros a' Ha. rewrite Ha in Hb. cbn [ob] in Hb. pose proof (c_undo S0 eq_refl Q (bare (abs s)) p (bare a') H Hb) as K.
    pose proof (r_cur _ _ _ _ K) as K1. pose proof (r_line _ _ _ _ K) as K2. change (acur (bare a')) with (acur a') in K1. change (aline (bare a')) with (aline a') in K2.
    rewrite K1, K2, zlen_app, !zlen_map. pose proof (zlen_nonneg (before (take_back p))). pose proof (zlen_nonneg (after (take_back p))). lia.
Qed.
Lemma crash_iff es : Forall (simple_input S) es ->
  (readline S default cur w cl es = None <->
   exists es1 e es2, es = es1 ++ e :: es2 /\ readline S default cur w cl es1 <> None /\ undo_breaks S (fst (slip_of S default cur cl (scrolled S default cur w cl es1) es1)) e).
Proof.
  intros Hes. split.
  - intros Hr. destruct (UndoOnly.only_simple0 S default cur w cl es HS Hd Hcl Hes Hcur Hw Hr) as (be & k & af & s & He & Hk & Hb & Hst & Hno).
    pose proof (simple_XR be _ ltac:(rewrite He in Hes; apply Forall_app in Hes; apply Hes) Hb) as HX. exists be, (EKey k), af. split; [exact He|]. split; [rewrite Hb; discriminate|].
    cbn [abss] in HX. destruct (undo_ok s _ HX) as (p & Hp & N1 & N2). rewrite Hp. split; [exact Hk|]. apply N1.
    destruct (aUndo C (abs s)) as [a'|] eqn:Ha; [|reflexivity]. exfalso. apply Hno. intros b. exists (ARunning MNormal a'). split; [|exact (N2 a' eq_refl)].
    cbn [astep]. unfold akey_normal. rewrite Hk. cbn [aexec]. now rewrite Ha.
  - intros (es1 & e & es2 & He & _ & Hu). destruct (readline S default cur w cl es) as [x|] eqn:Hr; [|reflexivity]. exfalso.
    rewrite He in Hr. unfold readline in Hr. destruct (start S default cur w cl) as [x0|] eqn:Hs; [|discriminate]. rewrite HistFacts.run_app in Hr.
    destruct (run S es1 x0) as [x1|] eqn:H1; [|discriminate].
    assert (Hx1 : readline S default cur w cl es1 = Some x1) by (unfold readline; now rewrite Hs).
    pose proof (simple_XR es1 x1 ltac:(rewrite He in Hes; apply Forall_app in Hes; apply Hes) Hx1) as HX.
    cbn [run] in Hr. destruct (step S e x1) as [x2|] eqn:Hst; [|discriminate].
    destruct (step_ref S e x1 x2 (Reach.only_builtin_keys S (proj1 HS)) Hst) as [b Hb].
    destruct (slip_of S default cur cl _ es1) as [d slip] eqn:Hds. cbn [fst] in Hu. destruct d as [p|p|l f i p|t r], e as [k| |n|c]; try contradiction. destruct Hu as [Hk Hu].
    destruct x1 as [[| |ss] s|s t r]; try (destruct HX as [HX _]; cbn in HX; contradiction). cbn [abss] in HX. destruct (undo_ok s _ HX) as (p' & Hp & N1 & _). cbn [fst] in Hp. injection Hp as <-.
    apply N1 in Hu. cbn [abss astep] in Hb. unfold akey_normal in Hb. rewrite Hk in Hb. cbn [aexec] in Hb. rewrite Hu in Hb. discriminate Hb.
Qed.
End Simple.
