(** The prediction beside tabs exactly, after events that bring no tab. *)
From Verif Require Import Base Utf8 Moji Color Prompt Buffer Commands KeyMap Session MojiFacts Abs AbsRef AbsSess
  AbsSafe AbsInv Safe Spec SpecUndo SpecScreen SpecTabScreen SpecTabScroll ScreenFacts ScreenPaint ScreenCmd TabScreen TabScroll SpecPredShown.
From Verif Require PredShown TabScrollSess PredTabs PredCut EditProps UndoFacts.
Ltac lia := unfold rune in *; Lia.lia.

Section Cmd.
Variable S : scfg.
Notation C := (base S).
Notation E := (cE C).
Hypothesis HE : env_ok E.
Notation laid := (laid E).
Notation fresh := (fresh C).
Notation ntab t := (Forall (fun m => tabfree m = true) (split E t)).

Lemma split_nt t : ntab t -> nt (StringToMoji E t).
Proof.
  unfold split. intros H. apply Forall_map in H. eapply Forall_impl; [|exact H]. cbn beta. intros m Hm.
  change (unit_of m) with (erase m) in Hm. rewrite <- has_tab_erase, tabfree_has, Hm. reflexivity.
Qed.
Definition cnt (s : buf) (t : str) : Prop := map c_moji (cells s) = counted E (line s) t.
Lemma cnt_fresh s t : cnt s t -> ntab t -> counted E (line s) t = laid 0 (line s).
Proof.
  intros Hc Ht. apply split_nt in Ht. unfold cnt, counted in *. cbv zeta in *. set (x := StringToMoji E t) in *. set (k := Z.to_nat (zlen (line s) - zlen x)) in *.
  assert (Hl : line s = firstn k (line s) ++ x).
  { assert (Hu : map unit_of (map c_moji (cells s)) = line s) by (unfold line; now rewrite map_map). rewrite Hc, map_app in Hu.
    assert (Hq : forall l c, map unit_of (laid c (map unit_of l)) = map unit_of l).
    { induction l as [|m l IH]; intros c; [reflexivity|]. cbn [map]. destruct m; cbn [unit_of laid map]; rewrite ?IH; try reflexivity. all: cbn [unit_of]; rewrite ?erase_idem; reflexivity. }
    assert (Hf : firstn k (line s) = map unit_of (map c_moji (firstn k (cells s)))) by (unfold line; rewrite firstn_map, map_map; reflexivity).
    rewrite Hf, Hq, <- Hf in Hu. rewrite (PredShown.nt_units x Ht) in Hu. symmetry. exact Hu. }
  rewrite Hl at 2. rewrite laid_app by first [exact HE|lia]. f_equal. symmetry. now apply laid_nt.
Qed.
Lemma fresh_end s0 s2 n t rest : fresh s0 -> 0 <= n <= zlen (cells s0) ->
  cells s2 = firstn (Z.to_nat n) (cells s0) ++ mojis2cells (StringToMoji E t) ++ rest -> cursor s2 = n + zlen (mojis2cells (StringToMoji E t)) ->
  cursor s2 = zlen (line s2) -> cnt s2 t.
Proof.
  intros Hf Hn Hc Hcu He. set (x := StringToMoji E t) in *.
  assert (ZL : zlen (line s2) = zlen (cells s2)) by apply zlen_map.
  assert (ZX : zlen (mojis2cells x) = zlen x) by (unfold mojis2cells; apply zlen_map).
  assert (rest = []).
  { rewrite ZL, Hc, !zlen_app, zlen_firstn in He. destruct rest; [reflexivity|]. rewrite zlen_cons in He. pose proof (zlen_nonneg rest). lia. }
  subst rest. rewrite app_nil_r in Hc. unfold cnt, counted. cbv zeta. fold x.
  assert (Hk : Z.to_nat (zlen (line s2) - zlen x) = Z.to_nat n) by lia. rewrite Hk.
  assert (Hx : map c_moji (mojis2cells x) = x) by (unfold mojis2cells; rewrite map_map; cbn [c_moji]; apply map_id).
  rewrite Hc, map_app, Hx. f_equal. unfold line. rewrite Hc, firstn_map, firstn_app, firstn_firstn, Nat.min_id.
  rewrite firstn_length_le by (unfold zlen in *; lia). rewrite Nat.sub_diag. cbn [firstn]. rewrite app_nil_r. now apply (fresh_prefix C s0 (Z.to_nat n)).
Qed.
Lemma fresh_cnt s : fresh s -> cnt s [].
Proof. intros H. unfold cnt, counted. cbv zeta. change (StringToMoji E []) with (@nil moji). rewrite app_nil_r. change (zlen (@nil moji)) with 0. rewrite Z.sub_0_r. unfold zlen. rewrite Nat2Z.id, firstn_all. exact H. Qed.
Lemma fresh_delete s pos n s1 w s2 : fresh s -> Delete C s pos n = Some (s1, w) -> cells s2 = cells s1 -> cursor s2 = pos -> cursor s2 = zlen (line s2) -> cnt s2 [].
Proof.
  intros Hf H Hc Hcu He. unfold Delete in H. destruct ((n <=? 0) || (zlen (cells s) <? pos + n)) eqn:Hg.
  - injection H as <- _. apply fresh_cnt. unfold TabScroll.fresh, line in *. now rewrite Hc.
  - opt H. injection H as <- _. cbn [cells push_undo set_undoes set_cells] in *. destruct (Z_le_dec 0 pos) as [H1|H1].
    + rewrite sliceDelete_firstn in Ev1 by lia. injection Ev1 as <-. apply (fresh_end s s2 pos [] (skipn (Z.to_nat (pos + n)) (cells s))); auto; [lia|cbn; rewrite Hcu; symmetry; apply Z.add_0_r].
    + pose proof (zlen_nonneg (line s2)). lia.
Qed.

(** [s'] comes from a repaint whose tabs already had their places. *)
Definition from (s1 s' : buf) : Prop := exists s2 ts, repaint C s1 = Some s2 /\ s' = emit s2 ts /\ vis ts = [].
Definition sharp (t : str) (s' : buf) : Prop := exists s1, from s1 s' /\ (cursor s1 = zlen (line s1) -> cnt s1 t).
Lemma sharp_quiet x s ts : sharp x s -> vis ts = [] -> sharp x (emit s ts).
Proof.
  intros (s1 & (s2 & t & H1 & -> & H2) & H4) H3. exists s1. split; [|exact H4]. exists s2, (t ++ ts). split; [exact H1|]. split; [unfold emit; cbn; now rewrite app_assoc|]. now rewrite vis_app, H2.
Qed.
Lemma repaint_sharp t s1 s2 : repaint C s1 = Some s2 -> (cursor s1 = zlen (line s1) -> cnt s1 t) -> sharp t s2.
Proof. intros H Hf. exists s1. split; [|exact Hf]. exists s2, []. split; [exact H|]. split; [|reflexivity]. destruct s2. unfold emit. cbn. now rewrite app_nil_r. Qed.
Lemma same_fresh s s0 : fresh s0 -> cells s = cells s0 -> cnt s [].
Proof. intros H Hc. apply fresh_cnt. unfold TabScroll.fresh, line in *. now rewrite Hc. Qed.
Ltac cutb H := match type of H with context [if ?b then _ else _] => destruct b end.
Ltac fdel Hf Ev := match type of Ev with Delete _ ?x ?p ?n = Some (?a, ?w) => assert (Rd : forall z0, cells z0 = cells a -> cursor z0 = p -> cursor z0 = zlen (line z0) -> cnt z0 []) by exact (fun z0 => fresh_delete x p n a w z0 Hf Ev) end.
Lemma backdel_sharp s s' : fresh s -> cmdBackwardDeleteChar C s = Some s' -> 0 < cursor s -> sharp [] s'.
Proof.
  intros Hf H H0. unfold cmdBackwardDeleteChar in H. replace (0 <? cursor s) with true in H by lia. opt H. fdel Hf Ev. apply Delete_shape in Ev as (l & us & -> & _).
  cbn [cursor view set_cursor set_cells set_undoes] in *. cutb H; (eapply repaint_sharp; [exact H|apply Rd; reflexivity]).
Qed.
Lemma insert_end s pos t s1 l s2 : fresh s -> 0 <= pos <= zlen (cells s) -> insertString C s pos t = Some (s1, l) -> cells s2 = cells s1 -> cursor s2 = pos + zlen l ->
  cursor s2 = zlen (line s2) -> cnt s2 t.
Proof.
  intros Hf Hp H Hc Hcu He. pose proof (insert_cells C _ _ _ _ _ H) as Hi. unfold insertString in H. opt H. injection H as <- <-.
  rewrite Hi in Hc. eapply fresh_end; eauto.
Qed.
Lemma tail_sharp s k s' : fresh s -> 0 <= cursor s <= zlen (cells s) -> self_insert_tail C s k = Some s' -> sharp k s'.
Proof.
  intros Hf Hc H. unfold self_insert_tail in H. opt H. pose proof (insert_shape C s _ _ _ _ Ev) as (l0 & us & Hb & _). cbv zeta in H.
  eapply repaint_sharp; [exact H|]. intros He. eapply (insert_end s (cursor s) k _ l); [exact Hf|exact Hc|exact Ev| | |exact He]; subst b; cutb He; reflexivity.
Qed.
Lemma self_sharp k s s' : fresh s -> 0 <= cursor s <= zlen (cells s) -> joins E (first_rune (key_text k)) = false -> selfInsert C k s = Some s' -> sharp (pending s ++ key_text k) s'.
Proof.
  intros Hf Hc Hj H. change (key_text k) with (altgr k) in *. destruct (UndoFacts.plain_first C k Hj) as (P1 & P2 & P3). unfold selfInsert in H. rewrite P1, P2, P3 in H. cbn [andb orb] in H.
  destruct (pending s) as [|p0 p] eqn:Hp.
  - eapply tail_sharp; [exact Hf|exact Hc|exact H].
  - eapply tail_sharp; [| |exact H]; [exact Hf|exact Hc].
Qed.
Lemma replace_sharp s pos t s' : fresh s -> cursor s <= zlen (cells s) -> ReplaceAndRepaint C s pos t = Some s' -> sharp t s'.
Proof.
  intros Hf Hc H. unfold ReplaceAndRepaint in H. opt H. unfold InsertString in Ev0. opt Ev0. injection Ev0 as <- <-.
  pose proof (insert_cells C _ _ _ _ _ Ev1) as Hi. pose proof (insert_shape C _ _ _ _ _ Ev1) as (l1 & us1 & Hb & Hp & _).
  assert (Hl : l = mojis2cells (StringToMoji E t)) by (unfold insertString in Ev1; opt Ev1; now injection Ev1 as _ <-).
  assert (Hfirst : 0 <= pos /\ firstn (Z.to_nat pos) (cells b) = firstn (Z.to_nat pos) (cells s) /\ pos <= zlen (cells s)).
  { change (line b) with (emojis (cells b)) in Hp. unfold emojis in Hp. rewrite zlen_map in Hp. split; [lia|]. unfold Delete in Ev. destruct ((cursor s - pos <=? 0) || (zlen (cells s) <? pos + (cursor s - pos))) eqn:Hg; [injection Ev as <- _; split; [reflexivity|lia]|].
    opt Ev. injection Ev as <- _. cbn [cells push_undo set_undoes set_cells] in *. rewrite sliceDelete_firstn in Ev3 by lia. injection Ev3 as <-. split; [|lia].
    rewrite firstn_app, firstn_firstn, Nat.min_id. rewrite firstn_length_le by (unfold zlen in *; lia). rewrite Nat.sub_diag. cbn [firstn]. apply app_nil_r. }
  destruct Hfirst as (F1 & F2 & F3). rewrite F2 in Hi. subst l.
  eapply repaint_sharp; [exact H|]. intros He.
  set (s3 := joinUndo _) in *. assert (J : cells s3 = cells b1 /\ cursor s3 = pos + zlen (mojis2cells (StringToMoji E t))).
  { unfold s3. match goal with |- context [joinUndo ?y] => destruct (joinUndo_shape y) as [us2 ->] end. split; reflexivity. }
  destruct J as [J1 J2]. eapply (fresh_end s (ResetViewStart C s3) pos t); [exact Hf|lia| |exact J2|exact He].
  change (cells (ResetViewStart C s3)) with (cells s3). rewrite J1, Hi. reflexivity.
Qed.
Lemma undo_sharp s s' u us : fresh s -> undoes s = u :: us -> cmdUndo C s = Some s' -> sharp (u_text u) s'.
Proof.
  intros Hf Hu H. unfold cmdUndo in H. rewrite Hu in H. cbv zeta in H. opt H. eapply repaint_sharp; [exact H|]. intros He.
  assert (Hl : (0 <= u_pos u <= zlen (cells s) -> firstn (Z.to_nat (u_pos u)) l = firstn (Z.to_nat (u_pos u)) (cells s)) /\ zlen l <= zlen (cells s) /\ (0 <= u_pos u -> exists rest, u_pos u <= zlen l -> l = firstn (Z.to_nat (u_pos u)) (cells s) ++ rest)).
  { cbn [cells set_undoes GotoHead emit] in Ev. destruct (0 <? u_del u) eqn:Hd.
    - destruct (Z_le_dec 0 (u_pos u)) as [H1|H1]; [destruct (Z_le_dec (u_pos u + u_del u) (zlen (cells s))) as [H2|H2]|]; [|rewrite sliceDelete_none in Ev by lia; discriminate..].
      rewrite sliceDelete_firstn in Ev by lia. injection Ev as <-. split; [|split].
      + intros _. rewrite firstn_app, firstn_firstn, Nat.min_id, firstn_length_le by (unfold zlen in *; lia). rewrite Nat.sub_diag. cbn [firstn]. apply app_nil_r.
      + rewrite zlen_app, zlen_firstn, zlen_skipn. lia.
      + intros _. eexists. intros _. reflexivity.
    - injection Ev as <-. split; [auto|]. split; [lia|]. intros _. exists (skipn (Z.to_nat (u_pos u)) (cells s)). intros _. symmetry. apply firstn_skipn. }
  destruct Hl as (L1 & L2 & L3).
  destruct (u_text u) as [|x t] eqn:Hut.
  - injection Ev0 as <-. change (cursor (ResetViewStart C _)) with (u_pos u) in He.
    assert (Hz : u_pos u = zlen l) by (rewrite He; apply zlen_map). pose proof (zlen_nonneg l). destruct (L3 ltac:(lia)) as [rest Hr].
    eapply (fresh_end s _ (u_pos u) [] rest); [exact Hf|lia|exact (Hr ltac:(lia))|cbn; symmetry; apply Z.add_0_r|exact He].
  - opt Ev0. injection Ev0 as <-. cbn [cells set_cells] in Ev1.
    destruct (Z_le_dec 0 (u_pos u)) as [H1|H1]; [destruct (Z_le_dec (u_pos u) (zlen l)) as [H2|H2]|]; [|rewrite sliceInsert_none in Ev1 by lia; discriminate..].
    rewrite sliceInsert_firstn in Ev1 by lia. injection Ev1 as <-. rewrite L1 in He |- * by lia.
    eapply (fresh_end s _ (u_pos u) (x :: t)); [exact Hf|lia|reflexivity|reflexivity|exact He].
Qed.
Lemma all_sharp s s' : fresh s -> RepaintAll C s = Some s' -> sharp [] s'.
Proof. unfold RepaintAll. intros Hf H. destruct (callPromptWriter _ _) as [t p]. eapply repaint_sharp; [exact H|]. intros _. now apply (same_fresh _ s Hf). Qed.
Lemma written_units l : written (map unit_of l) = written l.
Proof. unfold written. induction l as [|m l IH]; [reflexivity|]. cbn [map flat_map]. rewrite IH. f_equal. exact (write_erase m). Qed.
Lemma step_sharp e x s' : step S e x = Some (Running MNormal s') -> predicts_anew S e x -> single_piece S e -> 0 <= cursor (buf_of x) <= zlen (line (buf_of x)) -> fresh (buf_of x) ->
  PredShown.ends s' -> sharp (brought S e x) s'.
Proof.
  intros H He Hsp H0 Hf Hend. destruct x as [m s|]; [|destruct e; destruct He]. cbn [buf_of] in H0, Hf.
  assert (Hcc : 0 <= cursor s <= zlen (cells s)) by (rewrite <- (zlen_map (fun c => unit_of (c_moji c)) (cells s)); exact H0).
  assert (Q : forall x s1 r, after_command S (Some (s1, r)) = Some (Running MNormal s') -> (r = CONTINUE -> PredShown.ends s1 -> sharp x s1) -> sharp x s').
  { intros x s1 r Ha Hs. apply PredShown.after_running in Ha as (-> & -> & _). apply sharp_quiet; [|reflexivity]. apply sharp_quiet; [|reflexivity]. apply Hs; auto. }
  assert (QC : forall x o, after_command S (continue_ o) = Some (Running MNormal s') -> (forall s1, o = Some s1 -> PredShown.ends s1 -> sharp x s1) -> sharp x s').
  { intros x [s1|] Ha Hs; [|discriminate]. cbn [continue_] in Ha. eapply Q; [exact Ha|]. intros _. now apply Hs. }
  destruct e as [k| |w|c]; try destruct He.
  - destruct m as [| |ss].
    + cbn [step] in H. unfold key_normal in H. cbn [predicts_anew] in He. cbn [brought]. set (s0 := emit s [TCursorOff]) in *. assert (K0 : 0 <= cursor s0 <= zlen (cells s0)) by exact Hcc. assert (F0 : fresh s0) by exact Hf.
      destruct (LookupCommand (kmap S) (gmap S) k) eqn:Hk; try (destruct He; fail); cbn [exec] in H.
      * eapply QC; [exact H|]. intros s1 Hs1 _. unfold cmdForwardChar in Hs1. destruct He as [He1 He2].
        change (zlen (cells s0) <=? cursor s0) with (zlen (cells s) <=? cursor s) in Hs1. rewrite zlen_line in He1. replace (zlen (cells s) <=? cursor s) with true in Hs1 by lia.
        change (suffix s0) with (suffix s) in Hs1. unfold predicted in He2 |- *. destruct (suffix s) as [[|p0 p]|]; try contradiction. rewrite written_units. eapply replace_sharp; [exact F0|lia|exact Hs1].
      * eapply QC; [exact H|]. intros s1 Hs1 Hx. destruct (Z_lt_dec 0 (cursor s0)) as [Hp|Hp]; [eapply backdel_sharp; [exact F0|exact Hs1|exact Hp]|exfalso].
        unfold cmdBackwardDeleteChar in Hs1. replace (0 <? cursor s0) with false in Hs1 by lia. injection Hs1 as <-. destruct Hx as [X1 X2]. destruct (line s0); [congruence|]. rewrite zlen_cons in X1. pose proof (zlen_nonneg l). lia.
      * eapply QC; [exact H|]. intros s1 Hs1 _. unfold cmdDeleteChar in Hs1. opt Hs1. fdel F0 Ev. apply Delete_shape in Ev as (l & us & -> & _). eapply repaint_sharp; [exact Hs1|apply Rd; reflexivity].
      * unfold cmdDeleteOrAbort in H. destruct (0 <? zlen (cells s0)); [|eapply Q; [exact H|discriminate]]. destruct (cmdDeleteChar C s0) as [s1|] eqn:Hs1; [|discriminate].
        eapply Q; [exact H|]. intros _ _. unfold cmdDeleteChar in Hs1. opt Hs1. fdel F0 Ev. apply Delete_shape in Ev as (l & us & -> & _). eapply repaint_sharp; [exact Hs1|apply Rd; reflexivity].
      * eapply QC; [exact H|]. intros s1 Hs1 _. unfold cmdUnixWordRubout in Hs1. opt Hs1.
        match goal with H : context [clip_write ?x ?y] |- _ => destruct (clip_write_shape x y) as [cl Hcl]; rewrite Hcl in * end.
        fdel F0 Ev2. apply Delete_shape in Ev2 as (l2 & us & -> & _). cbv zeta in Hs1. cutb Hs1; (eapply repaint_sharp; [exact Hs1|apply Rd; reflexivity]).
      * eapply QC; [exact H|]. intros s1 Hs1 _. unfold cmdUnixLineDiscard in Hs1. opt Hs1.
        match goal with H : context [clip_write ?x ?y] |- _ => destruct (clip_write_shape x y) as [cl Hcl]; rewrite Hcl in * end.
        fdel F0 Ev0. apply Delete_shape in Ev0 as (l2 & us & -> & _). eapply repaint_sharp; [exact Hs1|apply Rd; reflexivity].
      * eapply QC; [exact H|]. intros s1 Hs1 _. eapply all_sharp; [|exact Hs1]. exact F0.
      * eapply QC; [exact H|]. intros s1 Hs1 _. eapply all_sharp; [|exact Hs1]. exact F0.
      * eapply QC; [exact H|]. intros s1 Hs1 _. unfold cmdYank in Hs1. change (clip s0) with (clip s) in Hs1. destruct (clip s); [|congruence]. eapply replace_sharp; [exact F0|lia|exact Hs1].
      * eapply QC; [exact H|]. intros s1 Hs1 _. unfold cmdYankWithQuote in Hs1. change (clip s0) with (clip s) in Hs1. destruct (clip s); [|congruence]. eapply replace_sharp; [exact F0|lia|exact Hs1].
      * eapply QC; [exact H|]. intros s1 Hs1 _. destruct (undoes s) as [|u us] eqn:Hu; [congruence|]. eapply undo_sharp; [exact F0|exact Hu|exact Hs1].
      * eapply QC; [exact H|]. intros s1 Hs1 _. apply (self_sharp key s0 s1 F0 K0); [|exact Hs1]. apply Hsp. exact Hk.
    + cbn [step] in H. unfold key_quoted in H. destruct (selfInsert C k s) as [s1|] eqn:Hs1; [|discriminate]. eapply Q; [exact H|]. intros _ _.
      apply sharp_quiet; [|reflexivity]. eapply self_sharp; [exact Hf|exact Hcc| |exact Hs1]. apply Hsp.
    + cbn [predicts_anew] in He. subst k. cbn [step] in H. cbn [brought]. unfold key_search in H. cbn in H. eapply QC; [exact H|]. intros s1 Hs1 _. unfold search_accept in Hs1.
      eapply replace_sharp; [| |exact Hs1]; [reflexivity|apply Z.le_refl].
  - destruct m; try destruct He. cbn [step] in H. opt H. injection H as <-. unfold on_resize, RepaintLastLine in Ev. eapply repaint_sharp; [exact Ev|]. intros _. now apply (same_fresh _ s Hf).
Qed.
End Cmd.

Section Sess.
Variable S : scfg.
Notation C := (base S).
Hypothesis HE : env_ok (cE C).
Hypothesis HB : only_builtin S.
Lemma repaint_counted other t s1 s' : repaint C s1 = Some s' -> Room C s' -> pcolor0 C <> [] -> cursor s' = zlen (line s') -> line s' <> [] -> counted_fits C t s' -> (cursor s1 = zlen (line s1) -> cnt S s1 t) ->
  forall sc, exists ts, out s' = out s1 ++ ts /\ shows_prediction_counted C t s' (display (cE C) other ts sc).
Proof.
  intros H HR Hpc Hend Hne Hroom Hfr sc. pose proof (repaint_shape C s1 s' H) as (l & ts & Hs' & He). unfold repaint in H.
  assert (Hl : line s' = line s1) by (rewrite Hs'; exact He).
  assert (Hu : updateSuffix C s1 = set_suffix s1 (Some (StringToMoji (cE C) (predictor C (buf_string s1) (cursor s1))))).
  { unfold updateSuffix. destruct (pcolor0 C); [congruence|]. destruct (cells s1) eqn:Hc; [|reflexivity]. exfalso. apply Hne. rewrite Hl. unfold line. now rewrite Hc. }
  rewrite Hu in H, Hs'. set (pl := StringToMoji (cE C) (predictor C (buf_string s1) (cursor s1))) in *.
  assert (F : view s' = view s1 /\ cursor s' = cursor s1 /\ topc s' = topc s1 /\ termw s' = termw s1) by (rewrite Hs'; repeat split).
  destruct F as (F1 & F2 & F3 & F4).
  assert (K : buf_string s1 = written (line s')) by (rewrite Hl; unfold buf_string; rewrite cell2string_text; reflexivity).
  assert (Hpl : StringToMoji (cE C) (predictor C (written (line s')) (cursor s')) = pl) by (unfold pl; now rewrite K, F2).
  assert (Hc1 : cursor s1 = zlen (line s1)) by (now rewrite <- Hl, <- F2).
  unfold counted_fits, shows_prediction_counted in *. rewrite Hpl in *. unfold ViewWidth in Hroom |- *. rewrite F1, F3, F4, Hl in Hroom. rewrite F1, F3, F4, Hl.
  destruct (PredCut.repaintW_counted C HE other (set_suffix s1 (Some pl)) s' pl (counted (cE C) (line s1) t) H) as (pred & rest & X1 & X2 & X3 & X).
  - apply (Room_same C s'); [symmetry; exact Hl|exact HR].
  - reflexivity.
  - exact Hpc.
  - exact Hc1.
  - exact (Hfr Hc1).
  - exact Hroom.
  - destruct (X sc) as (ts0 & O & Y1 & Y2). exists ts0. split; [exact O|]. exists pred, rest. split; [exact X1|]. split; [exact Y1|]. split; [exact Y2|]. split; [exact X2|exact X3].
Qed.
Lemma sharp_session default cur w cl es e x s :
  (forall x0, start S default cur w cl = Some x0 -> calm_scroll S (es ++ [e]) x0) ->
  readline S default cur w cl es = Some x -> step S e x = Some (Running MNormal s) -> predicts_anew S e x -> single_piece S e ->
  cursor s = zlen (line s) -> line s <> [] -> Room C s /\ sharp S (brought S e x) s.
Proof.
  intros Hc H Hst He Hnt Hcu Hl.
  assert (HH : (forall x0, start S default cur w cl = Some x0 -> calm_scroll S es x0) /\ tabs_apart S (Running MNormal s)).
  { unfold readline in H. destruct (start S default cur w cl) as [x0|] eqn:Hx0; [|discriminate]. destruct (PredTabs.calm_scroll_app S es e x0 x (Hc x0 eq_refl) H) as [H1 H2].
    split; [intros x1 [= <-]; exact H1|exact (H2 _ Hst)]. }
  destruct HH as [Hc0 HR]. destruct (TabScrollSess.readline_screen S HE (mkTerminal (fun _ sc => sc) (fun _ _ _ => Blank)) HB default cur w cl es x (mkScreen 0 (fun _ => Blank)) Hc0 H) as [HG _].
  split; [exact HR|]. eapply step_sharp; [exact Hst|exact He|exact Hnt| | |split; assumption].
    - destruct x as [m sx|sx t r]; [|destruct e; discriminate Hst]. destruct HG as [(_ & G1 & G2) _]. cbn [buf_of]. lia.
    - destruct x as [m sx|sx t r]; [|destruct e; discriminate Hst]. apply HG.
Qed.
Lemma counted_session default cur w cl es e x s :
  (forall x0, start S default cur w cl = Some x0 -> calm_scroll S (es ++ [e]) x0) ->
  readline S default cur w cl es = Some x -> step S e x = Some (Running MNormal s) -> predicts_anew S e x -> single_piece S e ->
  pcolor0 C <> [] -> cursor s = zlen (line s) -> line s <> [] -> counted_fits C (brought S e x) s ->
  forall other sc, shows_prediction_counted C (brought S e x) s (display (cE C) other (out s) sc).
Proof.
  intros Hc H Hst He Hnt Hpc Hcu Hl Hroom other sc. destruct (sharp_session default cur w cl es e x s Hc H Hst He Hnt Hcu Hl) as [HR Hsh].
  destruct Hsh as (s1 & (s2 & ts & H1 & -> & H2) & Hfr).
  destruct (repaint_counted other (brought S e x) s1 s2 H1 HR Hpc Hcu Hl Hroom Hfr (display (cE C) other (out s1) sc)) as (t & O & Sh).
  cbn [out emit]. rewrite O, !D_app, <- (D_vis C other ts), H2. exact Sh.
Qed.
Lemma counted_laid default cur w cl es e x s :
  (forall x0, start S default cur w cl = Some x0 -> calm_scroll S (es ++ [e]) x0) ->
  readline S default cur w cl es = Some x -> step S e x = Some (Running MNormal s) -> predicts_anew S e x -> brings_no_tab S e x ->
  cursor s = zlen (line s) -> line s <> [] -> counted (cE C) (line s) (brought S e x) = SpecTabScreen.laid (cE C) 0 (line s).
Proof.
  intros Hc H Hst He [Ht Hsp] Hcu Hl. destruct (sharp_session default cur w cl es e x s Hc H Hst He Hsp Hcu Hl) as [_ (s1 & (s2 & ts & H1 & -> & H2) & Hfr)].
  destruct (repaint_shape C s1 s2 H1) as (l & ts2 & Hs2 & Hl2). assert (E1 : line s2 = line s1) by (rewrite Hs2; exact Hl2). assert (E2 : cursor s2 = cursor s1) by (rewrite Hs2; unfold updateSuffix; destruct (pcolor0 C); [reflexivity|]; destruct (cells s1); reflexivity).
  cbn [line cells emit cursor] in *. change (line (emit s2 ts)) with (line s2). change (line (emit s2 ts)) with (line s2) in Hcu. rewrite E1. apply (cnt_fresh S HE); [|exact Ht]. apply Hfr. now rewrite <- E1, <- E2.
Qed.
Lemma exact_session default cur w cl es e x s :
  (forall x0, start S default cur w cl = Some x0 -> calm_scroll S (es ++ [e]) x0) ->
  readline S default cur w cl es = Some x -> step S e x = Some (Running MNormal s) -> predicts_anew S e x -> brings_no_tab S e x ->
  pcolor0 C <> [] -> cursor s = zlen (line s) -> line s <> [] -> line_fits C s ->
  forall other sc, shows_prediction_exactly C s (display (cE C) other (out s) sc).
Proof.
  intros Hc H Hst He Hnt Hpc Hcu Hl Hroom other sc. pose proof (counted_laid default cur w cl es e x s Hc H Hst He Hnt Hcu Hl) as K.
  pose proof (counted_session default cur w cl es e x s Hc H Hst He (proj2 Hnt) Hpc Hcu Hl) as G. unfold counted_fits, shows_prediction_counted in G. rewrite K in G. exact (G Hroom other sc).
Qed.
Lemma start_painted default cur w cl s : start S default cur w cl = Some (Running MNormal s) -> PredShown.painted S s.
Proof.
  intros H. unfold start in H. destruct (callPromptWriter _ _) as [t p]. opt H. injection H as <-. apply PredShown.painted_quiet; [|reflexivity]. unfold RepaintAfterPrompt in Ev0. eapply PredShown.repaint_painted; exact Ev0.
Qed.
Lemma cut_start default cur w cl s : start S default cur w cl = Some (Running MNormal s) -> tabs_apart S (Running MNormal s) ->
  pcolor0 C <> [] -> cursor s = zlen (line s) -> line s <> [] -> room_for_line C s ->
  forall other sc, shows_cut_prediction C s (display (cE C) other (out s) sc).
Proof. intros H HR Hpc Hcu Hl Hroom other sc. apply (PredCut.painted_cut S HE); auto. eapply start_painted; exact H. Qed.
End Sess.
