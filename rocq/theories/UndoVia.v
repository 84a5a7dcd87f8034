(** The undo records over a whole ReadLine, with the edits that are made in two steps. *)
From Verif Require Import Base Utf8 Moji Color Prompt Buffer Commands KeyMap Session MojiFacts
  Abs AbsRef AbsSess AbsSafe AbsInv Safe SafeSess Plain Spec SpecTabs SpecUndo TextFacts Reach SafetyFacts CmdFacts WordFacts
  EditFacts EditProps LineInv EditMore UndoFacts UndoSess.
From Verif Require HistFacts.

Lemma sub_app_skip {A} (pre l l' : list A) : subseq l l' -> subseq l (pre ++ l').
Proof. intros H. induction pre; cbn; [exact H|]. now constructor. Qed.

Section WithCfg.
Variable C : cfg.
Notation E := (cE C).

(** The records of [a1] lead back through some of [mids] (newest first) and then through
    the line of [a] and where the records of [a] lead. *)
Definition via (mids : list (list moji)) (a a1 : astate) : Prop :=
  forall tr, chain C (aline a) (aundo a) = Some tr ->
  exists tr', chain C (aline a1) (aundo a1) = Some tr' /\ subseq tr' (mids ++ aline a :: tr).

Lemma via_change a a1 : uchange C a a1 -> via [] a a1.
Proof.
  intros H tr Ht. destruct H as [[[H1 H2|u H1 H2]|u u0 u2 st H1 H2 _ _ _ _ H3]|u st H1 H2 H3]; cbn [app].
  - rewrite H1, H2. exists tr. split; [exact Ht|]. apply sub_cons, sub_refl.
  - rewrite H1. cbn [chain]. rewrite H2, Ht. eexists. split; [reflexivity|]. apply sub_refl.
  - rewrite H1 in Ht. rewrite H2. cbn [chain] in *. destruct (undo1 E u0 (aline a)) as [l0|]; [|discriminate].
    rewrite (H3 l0 eq_refl). destruct (chain C l0 st) as [r|]; [|discriminate]. injection Ht as <-.
    eexists. split; [reflexivity|]. apply sub_cons, sub_refl.
  - rewrite H1 in Ht. rewrite H2. cbn [chain] in *. rewrite H3 in Ht. destruct (chain C (aline a1) st) as [r|]; [|discriminate].
    injection Ht as <-. eexists. split; [reflexivity|]. apply sub_cons, sub_cons, sub_refl.
Qed.
Lemma via_more mids a a1 : via [] a a1 -> via mids a a1.
Proof. intros H tr Ht. destruct (H tr Ht) as (tr' & H1 & H2). exists tr'. split; [exact H1|]. now apply sub_app_skip. Qed.
Lemma via_two l a am a1 : change C a am -> aline am = l -> change C am a1 -> via [l] a a1.
Proof.
  intros H1 <- H2 tr Ht. destruct (via_change a am (uch_p C _ _ (pch_s C _ _ H1)) tr Ht) as (t1 & Ht1 & Hs1).
  destruct (via_change am a1 (uch_p C _ _ (pch_s C _ _ H2)) t1 Ht1) as (t2 & Ht2 & Hs2).
  exists t2. split; [exact Ht2|]. eapply sub_trans; [exact Hs2|]. cbn [app] in *. now constructor.
Qed.

Lemma change_from a0 a a1 : aline a0 = aline a -> aundo a0 = aundo a -> change C a0 a1 -> change C a a1.
Proof. intros Hl Hu [H1 H2|u H1 H2]; [apply ch_none|eapply ch_push]; rewrite <- ?Hl, <- ?Hu; eauto. Qed.

(** Browsing: the whole line goes, the entry comes. *)
Lemma via_show a0 a a1 : aline a0 = aline a -> aundo a0 = aundo a -> sane C a -> ashow C a0 = Some a1 -> via [[]] a a1.
Proof.
  intros Hl Hu (Hs & Hh & _) H. unfold ashow in H.
  assert (HK : change C a (aKillWhole a0)).
  { apply (change_from a0); auto. eapply ch_push; [reflexivity|]. cbn [aline aKillWhole aset_cur aset_line]. rewrite Hl.
    pose proof (undo1_put C [] (aline a) [] Hs Hh) as H0. rewrite !app_nil_r in H0. unfold atext. rewrite Hl. exact H0. }
  destruct (agetHistory C (aKillWhole a0)) as [t|]; [|discriminate]. destruct t as [|x t].
  - injection H as <-. apply via_more, via_change, uch_p, pch_s, HK.
  - set (ak := aKillWhole a0) in *. set (u := units E (x :: t)) in *.
    assert (Hi : ains ak 0 u = Some (apush (aset_line ak u) (mkUndo 0 (zlen u) []))).
    { unfold ains. pose proof (sliceInsert_spec [] [] u) as Hi. cbn [app] in Hi. change (zlen []) with 0 in Hi.
      change (aline ak) with (@nil moji). rewrite Hi, app_nil_r. reflexivity. }
    rewrite Hi in H. injection H as <-.
    apply (via_two [] a ak); [exact HK|reflexivity|]. apply change_cur. eapply ch_push; [reflexivity|].
    cbn [aline apush aset_line aset_undo]. pose proof (undo1_take C [] u []) as Ht. cbn [app] in Ht. rewrite app_nil_r in Ht. exact Ht.
Qed.
Lemma asave_same a a1 : asave C a = Some a1 -> aline a1 = aline a /\ aundo a1 = aundo a.
Proof.
  unfold asave. destruct (ahptr a <? zlen (hist C)).
  - destruct (index (hist C) (ahptr a)) as [h|]; [|discriminate]. destruct (str_eqb h (atext a)); intros [= <-]; auto.
  - intros [= <-]. auto.
Qed.
Lemma via_nothing mids a : via mids a a.
Proof. apply via_more, via_change, uch_p, pch_s. now apply ch_none. Qed.
Lemma via_previous a a1 : sane C a -> aPrevious C a = Some a1 -> via [[]] a a1.
Proof.
  intros Hs H. unfold aPrevious in H. cbn zeta in H.
  destruct (zlen (hist C) <=? 0); [injection H as <-; apply via_nothing|].
  destruct (ahptr a <=? 0).
  - destruct (negb (cycling C)); [injection H as <-; apply via_nothing|].
    destruct (asave C _) as [a2|] eqn:H2; [|discriminate]. apply asave_same in H2 as [H2 H3].
    eapply via_show; [| |exact Hs|exact H]; cbn [aline aundo aset_hptr]; [exact H2|exact H3].
  - destruct (asave C a) as [a2|] eqn:H2; [|discriminate]. apply asave_same in H2 as [H2 H3].
    eapply via_show; [| |exact Hs|exact H]; cbn [aline aundo aset_hptr]; [exact H2|exact H3].
Qed.
Lemma via_next a a1 : sane C a -> aNext C a = Some a1 -> via [[]] a a1.
Proof.
  intros Hs H. unfold aNext in H.
  destruct (zlen (hist C) <=? 0); [injection H as <-; apply via_nothing|].
  destruct (_ <? ahptr a + 1); [injection H as <-; apply via_nothing|].
  destruct (asave C a) as [a2|] eqn:H2; [|discriminate]. apply asave_same in H2 as [H2 H3].
  eapply via_show; [| |exact Hs|exact H]; cbn [aline aundo aset_hptr]; [exact H2|exact H3].
Qed.

(** Text that attaches to the unit before the cursor. *)
Definition awithout (k : str) (a : astate) : list (list moji) :=
  if joins E (first_rune (key_text k)) && (0 <? acur a) then
    [firstn (Z.to_nat (acur a - 1)) (aline a) ++ skipn (Z.to_nat (acur a)) (aline a)]
  else [].

Lemma sane_backdel a p m q : sane C a -> aline a = (p ++ [m]) ++ q ->
  sane C (aupdate C (aset_line (apush (aset_cur a (zlen p)) (mkUndo (zlen p) 0 (text [m]))) (p ++ q))).
Proof.
  intros (Hs & Hh & _) Hl. unfold sane, heads in *. rewrite Hl in Hs, Hh.
  destruct (aupdate_shape C (aset_line (apush (aset_cur a (zlen p)) (mkUndo (zlen p) 0 (text [m]))) (p ++ q))) as [x ->].
  cbn [aline aset_line acur aset_cur apush aset_undo aset_suf]. rewrite !Forall_app in *.
  destruct Hs as [[? ?] ?]. destruct Hh as [[? ?] ?]. split; [auto|]. split; [auto|].
  pose proof (zlen_nonneg p). rewrite zlen_app. pose proof (zlen_nonneg q). lia.
Qed.

Lemma via_self k a a1 : sane C a -> aselfInsert C k a = Some a1 -> via (awithout k a) a a1.
Proof.
  intros HA Ha. unfold awithout. change (key_text k) with (altgr k).
  destruct (joins E (first_rune (altgr k))) eqn:Hj.
  2: { cbn [andb]. apply via_change, uch_p, pch_s. eapply change_self; [exact HA|exact (UndoFacts.plain_first C k Hj)|exact Ha]. }
  cbn [andb]. destruct (0 <? acur a) eqn:Hp.
  2: { unfold aselfInsert in Ha. cbn zeta in Ha. rewrite Hp, !andb_false_r in Ha. apply via_change, uch_p, pch_s.
       destruct (apend a) as [|b t]; [now apply change_self_tail in Ha|].
       apply change_self_tail in Ha; [|exact HA]. destruct Ha as [ | ]; [eapply ch_none|eapply ch_push]; eauto. }
  unfold aselfInsert in Ha. cbn zeta in Ha. rewrite Hp, !andb_true_r in Ha.
  destruct (sane_split C a HA) as (p & q & Hl & Hc & _).
  destruct p as [|m p _] using rev_ind; [rewrite Hc in Hp; unfold zlen in Hp; cbn in Hp; discriminate|].
  destruct (AreZeroWidthJoin E (altgr k)).
  { destruct (index (aline a) (acur a - 1)); [|discriminate].
    apply via_more, via_change, uch_p, pch_s. eapply (change_from (aset_pend a _)); [reflexivity|reflexivity|].
    eapply change_backdel; [|exact Ha]. exact HA. }
  destruct (_ || _).
  - destruct (index (aline a) (acur a - 1)) as [m'|]; [|discriminate].
    destruct (aBackwardDelete C a) as [am|] eqn:Hd; [|discriminate]. pose proof (change_backdel C a am HA Hd) as HD.
    rewrite (aBackwardDelete_eq C a p m q Hl Hc) in Hd. injection Hd as <-.
    eapply via_two; [exact HD| |].
    + rewrite aupdate_line. cbn [aline aset_line]. rewrite Hc, Hl, zlen_snoc. replace (zlen p + 1 - 1) with (zlen p) by lia.
      unfold zlen. rewrite Nat2Z.id, <- app_assoc, firstn_app, Nat.sub_diag, firstn_all, app_nil_r. cbn [firstn app].
      replace (Z.to_nat (Z.of_nat (List.length p) + 1)) with (List.length (p ++ [m])) by (rewrite app_length; cbn; lia).
      change (m :: q) with ([m] ++ q). rewrite app_assoc, skipn_app, Nat.sub_diag, skipn_all. reflexivity.
    + eapply change_self_tail; [|exact Ha]. now apply sane_backdel.
  - apply via_more, via_change, uch_p, pch_s.
    destruct (apend a) as [|b t]; [now apply change_self_tail in Ha|].
    apply change_self_tail in Ha; [|exact HA]. destruct Ha as [ | ]; [eapply ch_none|eapply ch_push]; eauto.
Qed.
End WithCfg.

Section WithSess.
Variable S : scfg.
Notation C := (base S).
Notation E := (cE C).
Hypothesis HB : builtin_keys S.

Definition ahalf (e : event) (m : mode) (a : astate) : list (list moji) :=
  match e, m with
  | EKey k, MNormal =>
    match LookupCommand (kmap S) (gmap S) k with
    | CPreviousHistory | CNextHistory => [[]]
    | CSelfInsert k' => awithout C k' a
    | _ => []
    end
  | EKey k, MQuoted => awithout C k a
  | _, _ => []
  end.
Lemma ahalf_abs e m s : halfway S e (Running m s) = ahalf e m (abs s).
Proof. reflexivity. Qed.
Lemma ahalf_rev e m a : rev (ahalf e m a) = ahalf e m a.
Proof.
  assert (G : forall k, rev (awithout C k a) = awithout C k a) by (intros k; unfold awithout; now destruct (_ && _)).
  destruct e as [k| | |]; try reflexivity. destruct m; try reflexivity; [|apply G].
  cbn. destruct (LookupCommand _ _ k); try reflexivity. apply G.
Qed.

Lemma via_step b e m a m1 a1 : ~ bad_swap S e (ARunning m a) -> sane C a ->
  astep S b e (ARunning m a) = Some (ARunning m1 a1) -> via C (ahalf e m a) a a1.
Proof.
  intros Hsw HA Hs. cbn [astep] in Hs.
  assert (N : via C [] a a) by apply via_nothing.
  destruct e as [k| |w|c].
  - destruct m as [| |ss].
    + cbn [ahalf bad_swap] in *. unfold akey_normal in Hs.
      assert (G : forall c, LookupCommand (kmap S) (gmap S) k = c -> single_step C c a -> aafter (aexec C b c a) = Some (ARunning m1 a1) -> via C [] a a1).
      { intros c Hc Hi Ha. destruct (aexec C b c a) as [[a' r]|] eqn:Hx; [|discriminate]. cbn in Ha.
        assert (a' = a1) as -> by (destruct r; [|discriminate..]; now injection Ha).
        apply via_change. apply aexec_change in Hx; [|exact HA|exact Hi].
        destruct Hx as [H|[[_ H]|[_ H]]]; [apply uch_p, pch_s, H|apply uch_p, H|exact H]. }
      assert (G' : forall o, aafter (acontinue o) = Some (ARunning m1 a1) -> o = Some a1).
      { intros [a'|] Ha; [|discriminate]. cbn in Ha. injection Ha as _ <-. reflexivity. }
      destruct (LookupCommand (kmap S) (gmap S) k) eqn:Hk;
        try (injection Hs as <- <-; exact N);
        try (cbn in Hs; discriminate Hs);
        try (apply (G _ eq_refl); [exact I|exact Hs]).
      all: try (cbn [aexec] in Hs; apply G' in Hs; (now apply via_self) || (now apply via_previous) || (now apply via_next)).
      apply (G _ eq_refl); [|exact Hs]. cbn. intros Hx. apply Hsw. split; [reflexivity|exact Hx].
    + opt Hs. injection Hs as <- <-. cbn [ahalf]. now apply via_self.
    + cbn [ahalf]. unfold akey_search in Hs. opt Hs. destruct s.
      * injection Hs as <- <-. exact N.
      * opt Hs. injection Hs as <- <-. apply via_change, uch_p, pch_s. eapply change_accept; eauto.
      * injection Hs as <- <-. exact N.
  - destruct m; [discriminate| |]; injection Hs as <- <-; exact N.
  - destruct m; injection Hs as <- <-; try exact N. apply via_change, uch_p, pch_s, change_aupdate. now apply ch_none.
  - injection Hs as <- <-. apply via_change, uch_p, pch_s. destruct m; now apply ch_none.
Qed.

Fixpoint swaps_ok (x : sess) (es : list event) : Prop :=
  match es with
  | [] => True
  | e :: es' => no_swap_at_end S e x /\ forall y, step S e x = Some y -> swaps_ok y es'
  end.

Lemma not_bad_swap e x : no_swap_at_end S e x -> ~ bad_swap S e (abss x).
Proof.
  intros H Hb. destruct e as [k| |w|c]; cbn in Hb; try exact Hb. destruct x as [[| |] s|]; cbn in Hb; try exact Hb.
  destruct Hb as [Hk [Hc H2]]. specialize (H k s eq_refl eq_refl Hk). change (acur (abs s)) with (cursor s) in *.
  change (zlen (aline (abs s))) with (zlen (line s)) in Hc. unfold line in Hc. rewrite zlen_map in Hc. specialize (H Hc). lia.
Qed.

Lemma via_run es : forall m s m' s' past, swaps_ok (Running m s) es -> sInv S (ARunning m (abs s)) -> TI S past (abs s) ->
  Forall (clean E) (line s) -> Forall (Forall (clean E)) (lines_from S (Running m s) es) ->
  run S es (Running m s) = Some (Running m' s') ->
  sInv S (ARunning m' (abs s')) /\ TI S (rev (steps_from S (Running m s) es) ++ past) (abs s').
Proof.
  induction es as [|e es IH]; intros m s m' s' past He HI HT Hcl Hls H.
  - cbn in H. injection H as <- <-. cbn. auto.
  - cbn [run] in H. cbn [lines_from steps_from swaps_ok] in *. destruct He as [He0 He'].
    destruct (step S e (Running m s)) as [x|] eqn:Hx; [|discriminate].
    destruct x as [m1 s1|s1 t1 e1]; [|apply run_finished in H; discriminate].
    specialize (He' _ eq_refl).
    cbn [buf_of] in *. inversion Hls as [|? ? Hc1 Hls']; subst.
    apply step_ref in Hx as [b Hb]; [|exact HB]. cbn [abss] in Hb.
    assert (Hh : heads C (abs s)) by (apply heads_clean; [apply HI|exact Hcl]).
    pose proof (not_bad_swap e _ He0) as Hsw. cbn [abss] in Hsw.
    destruct (astep_ok S b e (ARunning m (abs s)) HB HI Hh Hsw) as (y & Hy & HI').
    rewrite Hb in Hy. injection Hy as <-.
    rewrite ahalf_abs. rewrite rev_app_distr. cbn [rev]. rewrite <- !app_assoc. cbn [app]. rewrite ahalf_rev.
    apply (IH m1 s1 m' s' (line s1 :: ahalf e m (abs s) ++ past) He' HI'); [|exact Hc1|exact Hls'|exact H].
    destruct HT as (rest & tr & -> & Hch & Hsub).
    pose proof (via_step b e m (abs s) m1 (abs s1) Hsw (sane_inv S _ (proj2 HI) Hh) Hb) as HV.
    destruct (HV tr Hch) as (tr' & Hch' & Hsub').
    exists (ahalf e m (abs s) ++ aline (abs s) :: rest), tr'. split; [reflexivity|]. split; [exact Hch'|].
    eapply sub_trans; [exact Hsub'|]. clear - Hsub. induction (ahalf e m (abs s)); cbn; [|now constructor]. now constructor.
Qed.

Lemma swaps_prefix es : forall x, (forall es1 e es2 y, es = es1 ++ e :: es2 -> run S es1 x = Some y -> no_swap_at_end S e y) -> swaps_ok x es.
Proof.
  induction es as [|e es IH]; intros x H; cbn; [exact I|]. split; [exact (H [] e es x eq_refl eq_refl)|].
  intros y Hy. apply IH. intros es1 e1 es2 z -> Hz. apply (H (e :: es1) e1 es2 z eq_refl). cbn. now rewrite Hy.
Qed.
End WithSess.

Lemma undo_steps S default cur w cl es m s : only_builtin S -> 0 <= cur ->
  (forall es1 e es2 x, es = es1 ++ e :: es2 -> readline S default cur w cl es1 = Some x -> no_swap_at_end S e x) ->
  Forall (Forall (clean (cE (base S)))) (session_lines S default cur w cl es) ->
  readline S default cur w cl es = Some (Running m s) ->
  exists trail, List.length trail = List.length (undoes s) /\
    subseq (line s :: trail) (rev (session_steps S default cur w cl es)) /\
    forall k s', undo_times (base S) k s = Some s' -> line s' = nth k (line s :: trail) [].
Proof.
  intros HB Hcur He Hcl H. apply only_builtin_keys in HB. unfold readline, session_lines, session_steps in *.
  destruct (start S default cur w cl) as [x|] eqn:Hst; [|discriminate].
  pose proof (start_ref S default cur w cl x Hst) as Ha. destruct x as [m0 s0|]; [|discriminate]. cbn [abss buf_of] in *.
  injection Ha as -> Ha.
  inversion Hcl as [|? ? _ Hcl1]; subst. inversion Hcl1 as [|? ? Hcl2 Hcl3]; subst.
  assert (HI0 : sInv S (ARunning MNormal (abs s0))).
  { split; [exact I|]. rewrite Ha. now apply astart_ok. }
  assert (HT0 : TI S [line s0; []] (abs s0)).
  { exists [[]], [[]]. split; [reflexivity|]. split; [|apply sub_refl].
    change (aundo (abs s0)) with (undoes s0). assert (Hu : undoes s0 = [mkUndo 0 (zlen (units (cE (base S)) default)) []] /\ line s0 = units (cE (base S)) default).
    { split; [change (aundo (abs s0) = [mkUndo 0 (zlen (units (cE (base S)) default)) []])|change (aline (abs s0) = units (cE (base S)) default)];
        rewrite Ha; unfold astart; [rewrite aupdate_undo|rewrite aupdate_line]; reflexivity. }
    destruct Hu as [Hu Hl]. change (aline (abs s0)) with (line s0). rewrite Hu, Hl. cbn [chain].
    pose proof (undo1_take (base S) [] (units (cE (base S)) default) []) as Ht. cbn [app] in Ht. rewrite app_nil_r in Ht.
    change (zlen []) with 0 in Ht. rewrite Ht. reflexivity. }
  pose proof (swaps_prefix S es (Running MNormal s0) He) as Hsw.
  destruct (via_run S HB es MNormal s0 m s [line s0; []] Hsw HI0 HT0 Hcl2 Hcl3 H) as [HI HT].
  destruct HT as (rest & tr & Hp & Hch & Hsub). exists tr. split; [eapply chain_length; exact Hch|]. split.
  - cbn [rev]. rewrite <- !app_assoc. cbn [app]. rewrite Hp. now constructor.
  - intros k s' Hk. apply (undo_times_line S k s s' tr) in Hk; [apply Hk|exact Hch|]. destruct HI as [_ ((_ & _ & HI) & _)]. exact HI.
Qed.

Lemma steps_lines S es : forall x, Forall (single_piece S) es -> steps_from S x es = lines_from S x es.
Proof.
  induction es as [|e es IH]; intros x H; cbn; [reflexivity|]. inversion H as [|? ? He Hes]; subst.
  destruct (step S e x) as [y|]; [|reflexivity]. rewrite IH by exact Hes.
  replace (halfway S e x) with (@nil (list moji)); [reflexivity|].
  destruct e as [k| | |]; try reflexivity. destruct He as (H1 & H2 & H3 & H4). destruct x as [[| |] s|]; try reflexivity.
  - unfold bound in *. cbn. destruct (LookupCommand (kmap S) (gmap S) k) eqn:Hk; try reflexivity; try (now exfalso).
    unfold without_previous. now rewrite (H3 _ eq_refl).
  - cbn. unfold without_previous. now rewrite H4.
Qed.
Lemma undo_trail_swap S default cur w cl es m s : only_builtin S -> 0 <= cur ->
  Forall (single_piece S) es ->
  (forall es1 e es2 x, es = es1 ++ e :: es2 -> readline S default cur w cl es1 = Some x -> no_swap_at_end S e x) ->
  Forall (Forall (clean (cE (base S)))) (session_lines S default cur w cl es) ->
  readline S default cur w cl es = Some (Running m s) ->
  exists trail, List.length trail = List.length (undoes s) /\
    subseq (line s :: trail) (rev (session_lines S default cur w cl es)) /\
    forall k s', undo_times (base S) k s = Some s' -> line s' = nth k (line s :: trail) [].
Proof.
  intros HB Hc Hs He Hcl H. pose proof (undo_steps S default cur w cl es m s HB Hc He Hcl H) as HU.
  unfold session_steps in HU. unfold session_lines. destruct (start S default cur w cl) as [x|]; [|exact HU].
  now rewrite steps_lines in HU by exact Hs.
Qed.
