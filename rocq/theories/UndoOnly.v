(** Nothing but UNDO crashes: lemmas for PUndoOnly.v. *)
From Verif Require Import Base Utf8 Moji Color Prompt Buffer Commands KeyMap Session MojiFacts Abs AbsRef AbsSess AbsSafe AbsInv Safe SafeSess Plain SafetyFacts CmdFacts EditMore Spec ExactFacts.
From Verif Require Reach EditFacts.
From Verif Require Import Session Spec SpecExact SpecUndoOnly.
Ltac lia := unfold rune in *; Lia.lia.

Section WithCfg.
Variable C : cfg.
Notation E := (cE C).
Notation rng := (rng C).

Lemma rng_aupdate a : rng a -> rng (aupdate C a).
Proof. destruct (aupdate_shape C a) as [x ->]. exact (fun H => H). Qed.
Lemma rng_ajoin a : rng a -> rng (ajoin a).
Proof. unfold ExactFacts.rng. now rewrite EditFacts.ajoin_cur, EditFacts.ajoin_line, EditFacts.ajoin_hptr. Qed.
Lemma rng_delete a pos n a' : rng a -> 0 <= pos -> acur a <= zlen (aline a) - Z.max 0 n \/ acur a <= pos -> adelete a pos n = Some a' -> rng a'.
Proof.
  intros [Hc Hh] Hp Hl H. unfold adelete in H. destruct ((n <=? 0) || (zlen (aline a) <? pos + n)) eqn:Hx; [injection H as <-; now split|].
  destruct (slice _ _ _) as [d|]; [|discriminate]. rewrite sliceDelete_firstn in H by lia. injection H as <-.
  split; [|exact Hh]. cbn. rewrite zlen_app, zlen_firstn, zlen_skipn. lia.
Qed.
Lemma rng_ins a pos l a' c : rng a -> 0 <= pos <= zlen (aline a) -> c = pos + zlen l -> ains a pos l = Some a' -> rng (aset_cur a' c).
Proof.
  intros [Hc Hh] Hp -> H. rewrite ains_eq in H by exact Hp. injection H as <-. split; [|exact Hh]. cbn.
  rewrite !zlen_app, zlen_firstn, zlen_skipn. pose proof (zlen_nonneg l). lia.
Qed.
Lemma rng_replace a t a' : rng a -> areplace C a (acur a) t = Some a' -> rng a'.
Proof.
  intros Hr H. pose proof (proj1 Hr) as Hc. unfold areplace in H. rewrite CmdFacts.adelete_none in H by lia. cbn in H.
  destruct (ains a (acur a) (units E t)) as [a2|] eqn:Hi; [|discriminate]. injection H as <-. apply rng_aupdate, rng_ajoin. eapply rng_ins; eauto.
Qed.
Lemma rng_self_tail a k a' : rng a -> aself_tail C a k = Some a' -> rng a'.
Proof.
  intros Hr H. pose proof (proj1 Hr) as Hc. unfold aself_tail in H. destruct (ains a (acur a) (units E k)) as [a2|] eqn:Hi; [|discriminate].
  injection H as <-. apply rng_aupdate. eapply rng_ins; eauto. rewrite ains_eq in Hi by exact Hc. injection Hi as <-. reflexivity.
Qed.
Lemma rng_bdelete a a' : rng a -> aBackwardDelete C a = Some a' -> rng a'.
Proof.
  intros Hr H. split; [eapply aBackwardDelete_rng; [exact (proj1 Hr)|exact H]|].
  unfold aBackwardDelete in H. destruct (0 <? acur a); [|injection H as <-; apply Hr].
  destruct (adelete _ _ _) as [a1|] eqn:Ha; [|discriminate]. injection H as <-. destruct (aupdate_shape C a1) as [x ->]. cbn.
  unfold adelete in Ha. cbn in Ha. destruct (_ <? _); [injection Ha as <-; apply Hr|]. destruct (slice _ _ _); [|discriminate]. destruct (sliceDelete _ _ _); [|discriminate].
  injection Ha as <-. apply Hr.
Qed.
Lemma rng_self k a a' : rng a -> aselfInsert C k a = Some a' -> rng a'.
Proof.
  intros Hr H. unfold aselfInsert in H. destruct (AreZeroWidthJoin E (altgr k) && (0 <? acur a)).
  { destruct (index _ _) as [m|]; [|discriminate]. eapply rng_bdelete; [|exact H]. exact Hr. }
  destruct ((AreVariationSelectorLike E (altgr k) || AreEmojiModifier E (altgr k)) && (0 <? acur a)).
  { destruct (index _ _) as [m|]; [|discriminate]. cbn in H. destruct (aBackwardDelete C a) as [a1|] eqn:Ha; [|discriminate].
    eapply rng_self_tail; [|exact H]. eapply rng_bdelete; eauto. }
  destruct (apend a); eapply rng_self_tail; try exact H; exact Hr.
Qed.
Lemma rng_killwhole a : rng a -> rng (aKillWhole a).
Proof. intros [Hc Hh]. split; [|exact Hh]. cbn. pose proof (zlen_nonneg (@nil moji)). lia. Qed.
Lemma rng_set_cur a c : rng a -> 0 <= c <= zlen (aline a) -> rng (aset_cur a c).
Proof. intros [_ H] Hc. now split. Qed.
Lemma rng_show a a' : rng a -> ashow C a = Some a' -> rng a'.
Proof.
  intros Hr H. apply rng_killwhole in Hr. unfold ashow in H. destruct (agetHistory C (aKillWhole a)) as [t|]; [|discriminate]. cbn in H.
  destruct t as [|z t]; [now injection H as <-|].
  destruct (ains (aKillWhole a) 0 (units E (z :: t))) as [a2|] eqn:Hi; [|discriminate]. injection H as <-.
  eapply rng_ins; [exact Hr| | |exact Hi]; [split; [lia|apply zlen_nonneg]|]. rewrite ains_eq in Hi by (split; [lia|apply zlen_nonneg]). injection Hi as <-.
  cbn. now rewrite app_nil_r.
Qed.
Lemma rng_aswap l i j l' : aswap l i j = Some l' -> zlen l' = zlen l.
Proof.
  assert (G : forall (l : list moji) i x l', set_index l i x = Some l' -> zlen l' = zlen l) 
    by (intros l0 i0 x0 l0' H0; destruct (Z_lt_dec i0 0); [unfold set_index in H0; replace (0 <=? i0) with false in H0 by lia; discriminate|];
        destruct (Z_lt_dec i0 (zlen l0)); [|unfold set_index in H0; replace (i0 <? zlen l0) with false in H0 by lia; rewrite andb_false_r in H0; discriminate];
        destruct (split_at l0 i0 ltac:(lia)) as (p & t & -> & <-); destruct t as [|y t]; [rewrite zlen_app in *; cbn in *; unfold zlen in *; cbn in *; lia|];
        rewrite set_index_mid in H0; injection H0 as <-; rewrite !zlen_app, !zlen_cons; reflexivity).
  unfold aswap. intros H. opt H. apply G in H. apply G in Ev1. lia.
Qed.
Lemma rng_exec b c a a' r : c <> CUndo -> rng a -> aexec C b c a = Some (a', r) -> rng a'.
Proof.
  intros Hu Hr H. pose proof (proj1 Hr) as Hc. pose proof (proj2 Hr) as Hh.
  assert (G : forall o, (forall y, o = Some y -> rng y) -> acontinue o = Some (a', r) -> rng a') by (intros [y|] Hy Ho; [injection Ho as <- _; now apply Hy|discriminate]).
  pose proof (zlen_nonneg (aline a)) as Hz.
  destruct c; cbn [aexec] in H; try (injection H as <- _); try congruence; try discriminate; try exact Hr; try (now apply rng_aupdate);
    try (apply G in H; [exact H|clear H]; intros y H).
  - split; [|exact Hh]. cbn. pose proof (zlen_nonneg (@nil moji)). lia.
  - unfold aBackwardChar. destruct (_ <=? _) eqn:?; [exact Hr|]. apply rng_aupdate, rng_set_cur; [exact Hr|lia].
  - apply rng_set_cur; [exact Hr|lia].
  - unfold aForwardChar in H. destruct (_ <=? _) eqn:?; [|injection H as <-; apply rng_set_cur; [exact Hr|lia]].
    destruct (asuf a); [now injection H as <-|]. eapply rng_replace; eauto.
  - eapply rng_bdelete; eauto.
  - unfold aDelete in H. destruct (adelete _ _ _) as [a1|] eqn:Ha; [|discriminate]. injection H as <-. apply rng_aupdate.
    eapply rng_delete; [exact Hr| | |exact Ha]; [lia|right; lia].
  - destruct (_ <? _); [|injection H as <- _; exact Hr]. apply G in H; [exact H|clear H]. intros y H.
    unfold aDelete in H. destruct (adelete _ _ _) as [a1|] eqn:Ha; [|discriminate]. injection H as <-. apply rng_aupdate.
    eapply rng_delete; [exact Hr| | |exact Ha]; [lia|right; lia].
  - unfold aKillLine in H. opt H. injection H as <-. destruct (aclip_shape a (text l)) as [cl ->]. split; [|exact Hh]. cbn.
    pose proof (slice_split _ _ _ _ Ev0) as (p & q & Hs & Hp & Hq). lia.
  - now apply rng_killwhole.
  - unfold aWordRubout in H. opt H. injection H as <-. apply rng_aupdate.
    destruct (aclip_shape (aset_cur a (acur a - Z.of_nat (count_while IsSpaceMoji (rev l)))) (text l0)) as [cl Hcl]. rewrite Hcl in Ev2.
    pose proof (slice_split _ _ _ _ Ev) as (p & q & Hs & Hp & Hq).
    pose proof (count_while_le IsSpaceMoji (rev l)) as Hn. rewrite AbsInv.zlen_rev in Hn.
    set (k := Z.of_nat (count_while IsSpaceMoji (rev l))) in *. assert (0 <= k) by (subst k; lia).
    destruct (aWordTop_ok (aset_cur a (acur a - k))) as (z' & Hz' & Hzr); [cbn; lia|]. rewrite Ev0 in Hz'. injection Hz' as <-. cbn in Hzr.
    unfold adelete in Ev2. cbn [aline aset_clip aset_cur] in Ev2. destruct ((acur a - z <=? 0) || (zlen (aline a) <? z + (acur a - z))) eqn:Hx.
    + injection Ev2 as <-. split; [cbn; lia|exact Hh].
    + opt Ev2. rewrite sliceDelete_firstn in Ev4 by lia. injection Ev4 as <-. injection Ev2 as <-. split; [|exact Hh]. cbn. rewrite zlen_app, zlen_firstn, zlen_skipn. lia.
  - unfold aLineDiscard in H. opt H. injection H as <-. apply rng_aupdate. destruct (aclip_shape a (text l)) as [cl Hcl]. rewrite Hcl in Ev0.
    unfold adelete in Ev0. cbn [aline aset_clip] in Ev0. destruct ((acur a <=? 0) || (zlen (aline a) <? 0 + acur a)) eqn:Hx.
    + injection Ev0 as <-. split; [cbn; lia|exact Hh].
    + opt Ev0. injection Ev0 as <-. split; [cbn; split; [lia|apply zlen_nonneg]|exact Hh].
  - unfold aYank in H. destruct (aclip a); [|now injection H as <-]. eapply rng_replace; eauto.
  - unfold aYank in H. destruct (aclip a); [|now injection H as <-]. eapply rng_replace; eauto.
  - unfold aSwapChar in H. destruct (_ =? _) eqn:Hx.
    + destruct (_ <? _); [now injection H as <-|]. opt H. injection H as <-. apply rng_aswap in Ev0. split; [cbn; lia|exact Hh].
    + destruct (_ <? _); [now injection H as <-|]. opt H. injection H as <-. apply rng_aswap in Ev0. split; [cbn; lia|exact Hh].
  - unfold aBackwardWord in H. opt H. injection H as <-. apply rng_aupdate, rng_set_cur; [exact Hr|].
    pose proof (slice_split _ _ _ _ Ev) as (p & q & Hs & Hp & Hq).
    pose proof (count_while_le IsSpaceMoji (rev l)) as H1. pose proof (count_while_le (fun m => negb (IsSpaceMoji m)) (skipn (count_while IsSpaceMoji (rev l)) (rev l))) as H2.
    rewrite zlen_skipn in H2. rewrite AbsInv.zlen_rev in *. lia.
  - unfold aForwardWord in H. opt H. injection H as <-.
    assert (K : rng (aset_cur a (acur a + Z.of_nat (count_while (fun m => negb (IsSpaceMoji m)) l) + Z.of_nat (count_while IsSpaceMoji (skipn (count_while (fun m => negb (IsSpaceMoji m)) l) l))))).
    { apply rng_set_cur; [exact Hr|].
      pose proof (slice_split _ _ _ _ Ev) as (p & q & Hs & Hp & Hq).
      pose proof (count_while_le (fun m => negb (IsSpaceMoji m)) l) as H1. pose proof (count_while_le IsSpaceMoji (skipn (count_while (fun m => negb (IsSpaceMoji m)) l) l)) as H2.
      rewrite zlen_skipn in H2. lia. }
    destruct b; [now apply rng_aupdate|exact K].
  - unfold aPrevious in H. destruct (zlen (hist C) <=? 0) eqn:He; [now injection H as <-|]. destruct (ahptr a <=? 0) eqn:Hx; [destruct (negb (cycling C)); [now injection H as <-|]|].
    + destruct (asave_ok C (aset_hptr a (zlen (hist C) + 1))) as (mh & Hm); [cbn; lia|]. rewrite Hm in H. eapply rng_show; [|exact H]. split; [exact Hc|cbn; lia].
    + destruct (asave_ok C a) as (mh & Hm); [lia|]. rewrite Hm in H. eapply rng_show; [|exact H]. split; [exact Hc|cbn; lia].
  - unfold aNext in H. destruct (zlen (hist C) <=? 0); [now injection H as <-|]. destruct (zlen (hist C) <? ahptr a + 1) eqn:Hx; [now injection H as <-|].
    destruct (asave_ok C a) as (mh & Hm); [lia|]. rewrite Hm in H. eapply rng_show; [|exact H]. split; [exact Hc|cbn; lia].
  - eapply rng_self; eauto.
Qed.
End WithCfg.

Section WithScfg.
Variable S : scfg.
Notation C := (base S).
Notation E := (cE C).
Hypothesis HE : env_ok E.
Hypothesis HP : pred_ok C.
Hypothesis HB : builtin_keys S.
Notation fits := (SafeSess.fits S).
Notation new_width := SafeSess.new_width.

Definition srng (x : asess) : Prop :=
  match x with ARunning m a => mode_ok S m /\ rng C a | AFinished a _ _ => 0 <= acur a <= zlen (aline a) end.
(** The key runs UNDO here. *)
Definition undoes_here (e : event) (x : asess) : Prop :=
  match e, x with EKey k, ARunning MNormal _ => LookupCommand (kmap S) (gmap S) k = CUndo | _, _ => False end.
Lemma undoes_dec e x : undoes_here e x \/ ~ undoes_here e x.
Proof.
  destruct e as [k| |w|c]; cbn; try (right; exact (fun H => H)). destruct x as [[| |ss] a|a t r]; cbn; try (right; exact (fun H => H)).
  destruct (LookupCommand (kmap S) (gmap S) k); try (right; discriminate). now left.
Qed.
Lemma ss_start : ss_ok S (mkSearch [] [] (zlen (hist C) - 1)).
Proof. unfold ss_ok. cbn. pose proof (zlen_nonneg (hist C)). lia. Qed.
Lemma astep_total e x : srng x -> ~ undoes_here e x -> forall b, exists y, astep S b e x = Some y /\ srng y.
Proof.
  intros Hx Hn b. destruct x as [m a|a t r]; cbn [astep]; [|eauto]. destruct Hx as [Hm Hr].
  destruct e as [k| |w|c].
  - destruct m as [| |ss].
    + cbn [undoes_here] in Hn. unfold akey_normal. pose proof (HB k) as Hb.
      assert (G : forall c, builtin c -> c <> CUndo -> exists y, aafter (aexec C b c a) = Some y /\ srng y).
      { intros c Hc Hu. destruct (aexec_t C b c a Hc Hu Hr) as [[a' r] Hy]. rewrite Hy. pose proof (rng_exec C b c a a' r Hu Hr Hy) as Hr'. cbn.
        destruct r; eexists; split; try reflexivity; try exact (proj1 Hr'). split; [exact I|exact Hr']. }
      destruct (LookupCommand (kmap S) (gmap S) k) eqn:Hc; try (apply G; [exact Hb|discriminate]); try (now exfalso; apply Hn).
      * eexists. split; [reflexivity|]. split; [exact I|exact Hr].
      * eexists. split; [reflexivity|]. split; [exact ss_start|exact Hr].
    + destruct (aselfInsert_t C k a (proj1 Hr)) as [y Hy]. rewrite Hy. eexists. split; [reflexivity|]. split; [exact I|]. eapply rng_self; eauto.
    + unfold akey_search. destruct (search_key_ok S k ss Hm) as (act & -> & Ha). destruct act as [ss'| |].
      * eexists. split; [reflexivity|]. split; [now apply Ha|exact Hr].
      * unfold aaccept.
        assert (K : rng C (aset_cur (aset_line (apush a (mkUndo 0 0 (atext a))) []) 0)) by (apply (rng_killwhole C a), Hr).
        destruct (areplace_t C _ (ss_found ss) (proj1 K)) as [y Hy]. cbn [acur aset_cur] in Hy. rewrite Hy.
        eexists. split; [reflexivity|]. split; [exact I|]. eapply (rng_replace C _ (ss_found ss) y K). exact Hy.
      * eexists. split; [reflexivity|]. split; [exact I|exact Hr].
  - destruct m; eexists; (split; [reflexivity|]); try exact (proj1 Hr); split; try exact I; exact Hr.
  - destruct m; eexists; (split; [reflexivity|]); split; try exact I; try exact Hm; try exact Hr. now apply rng_aupdate.
  - eexists. split; [reflexivity|]. split; [exact Hm|exact Hr].
Qed.
Lemma repaint_in s s' : repaint C s = Some s' -> 0 <= cursor s <= zlen (cells s).
Proof.
  unfold repaint, repaintWithoutUpdateSuffix. intros H. destruct (getView2 C (updateSuffix C s)) as [v|] eqn:Hg; [|discriminate]. clear H.
  unfold getView2 in Hg. destruct (getView C (updateSuffix C s)) as [v'|]; [|discriminate]. cbn in Hg.
  destruct (slice (cells (updateSuffix C s)) (view (updateSuffix C s)) (cursor (updateSuffix C s))) as [l|] eqn:Hs; [|discriminate].
  assert (K : cells (updateSuffix C s) = cells s /\ cursor (updateSuffix C s) = cursor s) by (unfold updateSuffix; destruct (pcolor0 C); [now split|]; destruct (cells s) eqn:Hcs; split; cbn; congruence).
  destruct K as [K1 K2]. rewrite K1, K2 in Hs. apply slice_split in Hs as (p & q & Hl & Hp & Hz). rewrite Hl, !zlen_app.
  pose proof (zlen_nonneg p). pose proof (zlen_nonneg q). pose proof (zlen_nonneg l). lia.
Qed.
(** An UNDO that goes through leaves the cursor in the line. *)
Lemma undo_through k s x : rng C (abs s) -> LookupCommand (kmap S) (gmap S) k = CUndo -> step S (EKey k) (Running MNormal s) = Some x ->
  srng (abss x) /\ forall b, astep S b (EKey k) (ARunning MNormal (abs s)) = Some (abss x).
Proof.
  intros Hr Hk H. assert (Hall : forall b, astep S b (EKey k) (ARunning MNormal (abs s)) = Some (abss x)).
  { destruct (step_ref S (EKey k) _ _ HB H) as [b Hb]. cbn [abss] in Hb. intros b'. rewrite <- Hb. cbn [astep]. unfold akey_normal. rewrite Hk. reflexivity. }
  split; [|exact Hall]. cbn [step] in H. unfold key_normal in H. rewrite Hk in H. cbn [exec] in H.
  destruct (cmdUndo C (emit s [TCursorOff])) as [s'|] eqn:Hu; [|discriminate]. cbn [continue_ after_command] in H.
  assert (Hx : abss x = ARunning MNormal (abs s')) by (cbn in H; now injection H as <-). rewrite Hx. split; [exact I|]. clear Hx H.
  unfold cmdUndo in Hu. cbn [undoes emit] in Hu. destruct (undoes s) as [|u rest]; [injection Hu as <-; exact Hr|].
  match type of Hu with context [if ?c then ?x else ?y] => destruct (if c then x else y) as [l1|]; [|discriminate] end.
  match type of Hu with match ?o with _ => _ end = _ => destruct o as [s3|] eqn:H3; [|discriminate] end.
  pose proof (repaint_in _ _ Hu) as Hin. apply repaint_ref in Hu. rewrite Hu. apply rng_aupdate. rewrite abs_ResetViewStart. cbn in Hin. split.
  - cbn. now rewrite zlen_emojis.
  - assert (Hp : hptr s3 = hptr s).
    { destruct (u_text u); [now injection H3 as <-|]. destruct (sliceInsert _ _ _); [|discriminate]. now injection H3 as <-. }
    cbn. rewrite Hp. exact (proj2 Hr).
Qed.

(** What is shown fits the terminal at every wait. *)
Fixpoint roomy (w : Z) (x : asess) (es : list event) : Prop :=
  fits w x /\
  match es with
  | [] => True
  | e :: es' => forall b x', astep S b e x = Some x' -> roomy (new_width w e x) x' es'
  end.
Lemma roomy_here w x es : roomy w x es -> fits w x.
Proof. destruct es; intros H; apply H. Qed.
Lemma ranged_of y : srng y -> ranged y.
Proof. destruct y as [m a|a t r]; cbn; [intros [_ H]; apply H|exact (fun H => H)]. Qed.
(** UNDO has no answer that leaves the cursor in the line. *)
Definition stuck (k : str) (s : buf) : Prop :=
  step S (EKey k) (Running MNormal s) = None /\ ~ (forall b, exists y, astep S b (EKey k) (ARunning MNormal (abs s)) = Some y /\ ranged y).
Lemma only_run es : forall w x, SC S w x -> srng (abss x) -> roomy w (abss x) es -> run S es x = None ->
  exists before k after s, es = before ++ EKey k :: after /\ LookupCommand (kmap S) (gmap S) k = CUndo /\
    run S before x = Some (Running MNormal s) /\ stuck k s.
Proof.
  induction es as [|e es IH]; intros w x HS Hx Hro H; [discriminate|]. cbn [run] in H. cbn [roomy] in Hro. destruct Hro as [Hf Hn].
  assert (HN : forall b y, astep S b e (abss x) = Some y -> fits (new_width w e (abss x)) y) by (intros b y Hy; eapply roomy_here; eauto).
  assert (G : (exists x1, step S e x = Some x1 /\ SC S (new_width w e (abss x)) x1 /\ srng (abss x1)) ->
    exists before k after s, e :: es = before ++ EKey k :: after /\ LookupCommand (kmap S) (gmap S) k = CUndo /\
      run S before x = Some (Running MNormal s) /\ stuck k s).
  { intros (x1 & Hs & HS1 & Hx1). rewrite Hs in H. cbn in H. destruct (step_ref S e x x1 HB Hs) as [b Hb].
    destruct (IH _ x1 HS1 Hx1 (Hn b _ Hb) H) as (be & k & af & s & -> & Hk & Hr & Hst).
    exists (e :: be), k, af, s. split; [reflexivity|]. split; [exact Hk|]. split; [|exact Hst]. cbn [run]. now rewrite Hs. }
  destruct (undoes_dec e (abss x)) as [Hu|Hu].
  - destruct e as [k| |n|c]; try (now destruct Hu). destruct x as [[| |ss] s|s t r]; try (now destruct Hu). cbn in Hu.
    destruct (step S (EKey k) (Running MNormal s)) as [x1|] eqn:Hs.
    + apply G. exists x1. split; [reflexivity|]. destruct (undo_through k s x1 (proj2 Hx) Hu Hs) as [Hx1 Hall].
      destruct (step_safe_gen S HE HP HB w (EKey k) (Running MNormal s) HS) as (x1' & Hs' & HS1); [|exact Hf|exact HN|].
      * intros b. exists (abss x1). split; [apply Hall|now apply ranged_of].
      * rewrite Hs in Hs'. injection Hs' as <-. split; [exact HS1|exact Hx1].
    + exists [], k, es, s. split; [reflexivity|]. split; [exact Hu|]. split; [reflexivity|]. split; [exact Hs|]. intros HT.
      destruct (step_safe_gen S HE HP HB w (EKey k) (Running MNormal s) HS HT Hf HN) as (x1' & Hs' & _). congruence.
  - apply G. pose proof (astep_total e (abss x) Hx Hu) as HT.
    destruct (step_safe_gen S HE HP HB w e x HS) as (x1 & Hs & HS1); [|exact Hf|exact HN|].
    + intros b. destruct (HT b) as (y & Hy & Hy'). exists y. split; [exact Hy|now apply ranged_of].
    + exists x1. split; [exact Hs|]. split; [exact HS1|]. destruct (step_ref S e x x1 HB Hs) as [b Hb]. destruct (HT b) as (y & Hy & Hy'). congruence.
Qed.
Definition stuck_at default cur w cl es : Prop :=
  exists before k after s, es = before ++ EKey k :: after /\ LookupCommand (kmap S) (gmap S) k = CUndo /\
    readline S default cur w cl before = Some (Running MNormal s) /\ stuck k s.
Lemma stuck_crash default cur w cl es : stuck_at default cur w cl es -> crashes_in_undo S default cur w cl es.
Proof. intros (be & k & af & s & H1 & H2 & H3 & H4 & _). exists be, k, af, s. auto. Qed.
Lemma only_readline0 default cur w cl es : 0 <= cur -> roomy w (ARunning MNormal (astart S default cur cl)) es ->
  readline S default cur w cl es = None -> stuck_at default cur w cl es.
Proof.
  intros Hc Hro H. destruct (start_safe S HE HP default cur w cl Hc (roomy_here _ _ _ Hro)) as (x0 & Hs & HS).
  pose proof (start_ref S default cur w cl x0 Hs) as Ha. unfold readline in H. rewrite Hs in H. cbn in H. rewrite <- Ha in Hro.
  destruct (only_run es w x0 HS) as (be & k & af & s & He & Hk & Hr & Hst); auto.
  - rewrite Ha. split; [exact I|]. unfold astart. apply rng_aupdate. split; cbn.
    + pose proof (zlen_nonneg (units E default)). destruct (_ <? _) eqn:Hx; lia.
    + pose proof (zlen_nonneg (hist C)). lia.
  - exists be, k, af, s. split; [exact He|]. split; [exact Hk|]. split; [|exact Hst]. unfold readline. now rewrite Hs.
Qed.
Lemma only_readline default cur w cl es : 0 <= cur -> roomy w (ARunning MNormal (astart S default cur cl)) es ->
  readline S default cur w cl es = None -> crashes_in_undo S default cur w cl es.
Proof. intros H1 H2 H3. apply stuck_crash. now apply only_readline0. Qed.
End WithScfg.

(** Simple text, SWAPCHAR allowed. *)
Section Simple.
Variable S : scfg.
Notation C := (base S).
Notation E := (cE C).
Hypothesis HVe : joinlike E RuneError = false.
Hypothesis HV34 : plain_rune S 34.
Hypothesis Hpred : pcolor0 C = [] \/ forall t c, plain S (predictor C t c).
Hypothesis Hhist : Forall (plain S) (hist C).
Hypothesis Hrw : forall r, rw E r <= 8.
Definition swap_event (e : event) : Prop :=
  match e with
  | EKey k => plain S k /\ (forall k', LookupCommand (kmap S) (gmap S) k = CSelfInsert k' -> plain S k')
  | EKeyErr => True
  | EResize w => PW C + 3 + 8 < w
  | EClip c => match c with Some t => plain S t | None => True end
  end.
Lemma NS_step' b e x x' : NS S x -> swap_event e -> astep S b e x = Some x' -> NS S x'.
Proof.
  intros H He Hs. destruct x as [m a|a t r]; cbn [astep] in Hs; [|injection Hs as <-; exact H].
  destruct H as [H Hm]. destruct e as [k| |w|c].
  - destruct He as (Hk & Hself). destruct m as [| |ss].
    + unfold akey_normal in Hs. remember (LookupCommand (kmap S) (gmap S) k) as c eqn:Hc.
      assert (G : aafter (aexec C b c a) = Some x' -> NS S x').
      { apply NS_after. intros a0 r0 H0. eapply (NA_exec S HVe HV34 Hpred Hhist); [exact H| |exact H0]. exact Hself. }
      destruct c; try (apply G; exact Hs).
      * injection Hs as <-. split; [exact H|exact I].
      * injection Hs as <-. split; [exact H|]. split; [intros []|constructor].
    + opt Hs. injection Hs as <-. split; [|exact I]. eapply (NA_self S HVe Hpred); [exact H|exact Hk|exact Ev].
    + unfold akey_search in Hs. opt Hs. destruct s as [ss'| |].
      * injection Hs as <-. split; [exact H|]. eapply SSN_key; eauto.
      * opt Hs. injection Hs as <-. split; [|exact I].
        unfold aaccept in Ev0. destruct Hm as [_ Hf].
        eapply (NA_areplace S Hpred); [|exact Hf|exact Ev0]. exact (NA_KillWhole S a H).
      * injection Hs as <-. split; [exact H|exact I].
  - destruct m; injection Hs as <-; cbn; auto.
  - destruct m; injection Hs as <-; cbn; auto. split; [now apply NA_aupdate|exact I].
  - injection Hs as <-. split; [|exact Hm]. destruct H as (H1 & H2 & H3 & H4 & H5 & H6).
    repeat (split; [assumption|]). split; [|exact H6]. cbn. intros t ->. exact He.
Qed.
Lemma NS_roomy es : Forall swap_event es -> forall w x, PW C + 3 + 8 < w -> NS S x -> roomy S w x es.
Proof.
  induction 1 as [|e es He _ IH]; intros w x Hw H; destruct (NS_fits S Hrw w x Hw H) as [Hf _]; cbn [roomy]; split; auto.
  intros b x' Hx'. apply IH; [|eapply NS_step'; eauto]. destruct e as [k| |w'|c]; try exact Hw. destruct x as [[| |ss] a|a t r]; try exact Hw. exact He.
Qed.
End Simple.
Lemma only_simple0 S default cur w cl es : simple_editor S -> simple_text (cE (base S)) default -> simple_clip (cE (base S)) cl ->
  Forall (simple_input S) es -> 0 <= cur -> prompt_width (base S) + 11 < w ->
  readline S default cur w cl es = None -> stuck_at S default cur w cl es.
Proof.
  intros (H1 & H2 & H3 & H4 & H5 & H6 & H7) Hd Hcl Hes Hc Hw.
  assert (HVe : joinlike (cE (base S)) RuneError = false) by (now rewrite <- joins_like).
  assert (HV34 : plain_rune S 34) by (split; [lia|now rewrite <- joins_like]).
  assert (Hpred : pcolor0 (base S) = [] \/ forall t c, plain S (predictor (base S) t c)) by (destruct H6 as [H6|H6]; [now left|right]; intros t c; now apply simple_plain).
  assert (Hhist : Forall (plain S) (hist (base S))) by (eapply Forall_impl; [|exact H7]; apply simple_plain).
  apply only_readline0; auto using (pred_plain S Hpred).
  - now apply Reach.only_builtin_keys.
  - apply NS_roomy; auto.
    + eapply Forall_impl; [|exact Hes]. intros [k| |n|[t|]] He; cbn in *; auto.
      * destruct He as [He1 He2]. split; [now apply simple_plain|]. intros k' Hk. now apply simple_plain, He2.
      * unfold prompt_width, PW in *. lia.
      * now apply simple_plain, He.
    + unfold prompt_width, PW in *. lia.
    + split; [|exact I]. unfold astart. apply NA_aupdate; [exact Hpred|].
      split; [now apply plain_units, simple_plain|]. split; [repeat constructor|]. split; [reflexivity|].
      split; [intros k t []|]. split; [|constructor]. cbn. intros t ->. now apply simple_plain, Hcl.
Qed.
Lemma only_simple S default cur w cl es : simple_editor S -> simple_text (cE (base S)) default -> simple_clip (cE (base S)) cl ->
  Forall (simple_input S) es -> 0 <= cur -> prompt_width (base S) + 11 < w ->
  readline S default cur w cl es = None -> crashes_in_undo S default cur w cl es.
Proof. intros. apply stuck_crash. now apply only_simple0. Qed.
Lemma without_simple S default cur w cl es : simple_editor S -> simple_text (cE (base S)) default -> simple_clip (cE (base S)) cl ->
  Forall (simple_input S) es -> 0 <= cur -> prompt_width (base S) + 11 < w ->
  (forall k, In (EKey k) es -> LookupCommand (kmap S) (gmap S) k <> CUndo) -> exists x, readline S default cur w cl es = Some x.
Proof.
  intros HE Hd Hcl Hes Hc Hw Hn. destruct (readline S default cur w cl es) as [x|] eqn:Hr; [eauto|].
  destruct (only_simple S default cur w cl es HE Hd Hcl Hes Hc Hw Hr) as (be & k & af & s & -> & Hk & _).
  exfalso. apply (Hn k); [|exact Hk]. apply in_or_app. right. now left.
Qed.
