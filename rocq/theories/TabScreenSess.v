(** The screen through a whole session whose lines, tabs and all, fit the row. *)
From Verif Require Import Base Utf8 Moji Color Prompt Buffer Commands KeyMap Session MojiFacts Abs AbsRef AbsSess
  AbsSafe AbsInv Safe SafeSess Spec SpecScreen SpecTabScreen ScreenFacts ScreenPaint ScreenCmd TabScreen.
Ltac lia := unfold rune in *; Lia.lia.

Section Sess.
Variable S : scfg.
Notation C := (base S).
Notation E := (cE C).
Hypothesis HE : env_ok E.
Hypothesis HP : pcolor0 C = [].
Variable other : terminal.
Notation D := (display E other).
Notation W := (total_width E).
Notation ok := (Forall (fun m => 0 <= width E m)).
Notation shown := (shows_tabs E).
Notation laid := (laid E).
Notation inside := (inside E other).
Notation G := (TabScreen.G C).
Notation Fit := (Fit C).
Notation pw := (snd (callPromptWriter E (prompt C))).

Definition good (x : sess) (sc : screen) : Prop :=
  G (buf_of x) /\ tab_screen_right E x sc.
(** From the screen [sc] with state [s], the outcome [x] paints inside and rightly. *)
Definition P (sc : screen) (s : buf) (x : sess) : Prop :=
  exists ts, out (buf_of x) = out s ++ ts /\ inside (termw s - 3) sc ts /\ good x (D ts sc) /\ termw (buf_of x) = termw s.

Lemma P_pre s0 s x sc ts : out s = out s0 ++ ts -> inside (termw s0 - 3) sc ts -> termw s = termw s0 -> P (D ts sc) s x -> P sc s0 x.
Proof.
  intros H1 H2 H3 (t2 & O & I & Gd & T). exists (ts ++ t2). split; [rewrite O, H1; now rewrite app_assoc|]. split; [apply inside_app; [exact H2|rewrite <- H3; exact I]|].
  rewrite D_app. split; [exact Gd|congruence].
Qed.
Lemma quiet_in lim sc t : (forall m, t <> TMoji m) -> inside lim sc [t].
Proof. apply inside_other. Qed.
Lemma quiet_ins lim sc ts : vis ts = [] -> inside lim sc ts.
Proof. intros H. apply (inside_vis C). rewrite H. apply inside_nil. Qed.
Lemma quiet_D ts sc : vis ts = [] -> D ts sc = sc.
Proof. intros H. rewrite <- (D_vis C), H. reflexivity. Qed.
Lemma G_emit s ts : G s -> G (emit s ts). Proof. exact (fun H => H). Qed.
Lemma G_VW s : G s -> 0 < ViewWidth s.
Proof. intros [H _]. exact (proj2 (Fit_VW C HE s H)). Qed.

Lemma finish_P rc s x sc : G s -> finish S rc s = Some x -> P sc s x.
Proof.
  intros HG H. pose proof HG as (_ & _ & _ & _ & Hs). unfold finish in H. rewrite Hs in H. injection H as <-.
  exists [TLineFeed (result_code rc); TFlush; TCursorOn; TFlush]. split; [reflexivity|]. split; [|split; [split; [exact HG|exact I]|reflexivity]].
  change [TLineFeed (result_code rc); TFlush; TCursorOn; TFlush] with ([TLineFeed (result_code rc)] ++ [TFlush; TCursorOn; TFlush]). apply inside_app; [apply quiet_in; discriminate|now apply quiet_ins].
Qed.
Lemma after_P s r x sc : G s -> (r = CONTINUE -> shown s sc) -> after_command S (Some (s, r)) = Some x -> P sc s x.
Proof.
  intros HG Hsh H. unfold after_command in H.
  assert (Fin : finish S r (emit s [TCursorOn]) = Some x -> P sc s x).
  { intros Hf. apply (P_pre s (emit s [TCursorOn]) x sc [TCursorOn]); [reflexivity|now apply quiet_ins|reflexivity|]. eapply finish_P; [exact HG|exact Hf]. }
  destruct r; try (exact (Fin H)). injection H as <-. exists [TCursorOn; TFlush]. split; [cbn; now rewrite <- app_assoc|]. split; [now apply quiet_ins|].
  rewrite quiet_D by reflexivity. split; [split; [exact HG|exact (Hsh eq_refl)]|reflexivity].
Qed.
Lemma after_line s r x : after_command S (Some (s, r)) = Some x -> line (buf_of x) = line s /\ termw (buf_of x) = termw s.
Proof.
  unfold after_command. intros H.
  assert (Fin : finish S r (emit s [TCursorOn]) = Some x -> line (buf_of x) = line s /\ termw (buf_of x) = termw s).
  { intros Hf. unfold finish in Hf. opt Hf. injection Hf as <-. cbn [buf_of]. cbn [suffix emit] in Ev. destruct (suffix s).
    - apply repaintW_paints, paints_fields in Ev as (E1 & _ & _ & _ & _ & E6 & _). split; [exact E1|exact E6].
    - injection Ev as <-. split; reflexivity. }
  destruct r; try (exact (Fin H)). injection H as <-. split; reflexivity.
Qed.
Lemma search_paint_some l : forall vw w ts, w < vw -> search_paint S vw w l = Some ts ->
  exists n, ts = tm (firstn n l) /\ w + W (firstn n l) < vw /\ (firstn n l = l \/ vw <= w + W (firstn (Datatypes.S n) l)).
Proof.
  induction l as [|m l IH]; intros vw w ts Hw H; cbn [search_paint] in H.
  - injection H as <-. exists 0%nat. split; [reflexivity|]. split; [cbn; lia|now left].
  - destruct (vw <=? w + width E m) eqn:Hx; [injection H as <-; exists 0%nat; split; [reflexivity|]; split; [cbn; lia|right; cbn [firstn]; rewrite W_cons, W_nil; lia]|]. opt H. injection H as <-.
    destruct (IH vw (w + width E m) l0) as (n & -> & Hn & Hm); [lia|exact Ev0|]. exists (Datatypes.S n). split; [reflexivity|]. split; [cbn [firstn]; rewrite W_cons; lia|].
    destruct Hm as [Hm|Hm]; [left; cbn [firstn]; now rewrite Hm|right]. change (firstn (Datatypes.S (Datatypes.S n)) (m :: l)) with (m :: firstn (Datatypes.S n) l). rewrite W_cons. lia.
Qed.
Lemma search_wait_P ss s x sc : G s -> col sc = topc s -> search_wait S ss s = Some x -> P sc s x.
Proof.
  intros HG Hc H. pose proof (G_VW s HG) as HV. unfold search_wait in H. opt H. injection H as <-. exists (l ++ [TErase; TCursorOn; TFlush]). split; [reflexivity|].
  change (s2l "(i-search)[" ++ ss_str ss ++ s2l "]:" ++ ss_found ss) with (search_text ss) in Ev.
  destruct (search_paint_some _ _ _ _ HV Ev) as (n & -> & HW & Hmx). set (lp := firstn n (StringToMoji E (search_text ss))) in *.
  assert (Hok : ok lp) by apply (ok_any C HE).
  destruct (screen_row E other (topc s) lp sc (termw s - 3) Hok) as (S1 & S2 & S3); [pose proof (VW_lim s); lia|].
  assert (Hg : D [TGoto (topc s + 1)] sc = sc).
  { destruct sc as [c0 r0]. cbn in Hc |- *. subst c0. f_equal. lia. }
  rewrite D_app, Hg in S1, S2.
  change [TErase; TCursorOn; TFlush] with ([TErase] ++ [TCursorOn; TFlush]). rewrite app_assoc.
  split; [|split; [split; [exact HG|]|reflexivity]].
  - apply inside_app; [|now apply quiet_ins].
    intros x m y Hq. specialize (S3 (TGoto (topc s + 1) :: x) m y). change (TGoto (topc s + 1) :: x) with ([TGoto (topc s + 1)] ++ x) in S3. rewrite D_app, Hg in S3. apply S3. rewrite Hq. reflexivity.
  - rewrite D_app, quiet_D by reflexivity. exists n. fold lp. split; [exact S1|]. change (ViewWidth (emit s _)) with (ViewWidth s). split; [lia|exact Hmx].
Qed.
Lemma search_cancel_Q s s' : G s -> search_cancel S s = Some s' ->
  forall sc, col sc = topc s -> exists ts, out s' = out s ++ ts /\ inside (termw s - 3) sc ts /\ shown s' (D ts sc) /\ G s' /\ termw s' = termw s.
Proof.
  intros HG H sc Hc. pose proof HG as (HF & Hk & Hv & Hcu & Hs). destruct (Fit_VW C HE s HF) as [HW HV]. unfold search_cancel in H. opt H. subst.
  apply (getView2_T C HE) in Ev as (-> & _); auto.
  pose proof (paints_fields _ _ (puts_paints C _ _ _ _ Ev0)) as (F1 & F2 & F3 & F4 & F5 & F6 & F7 & _).
  apply (puts_T C HE) in Ev0 as (Em1 & _ & _ & Hk1); [|apply HF|apply HF].
  pose proof (paints_fields _ _ (puts_paints C _ _ _ _ H)) as (K1 & K2 & K3 & K4 & K5 & K6 & K7 & _).
  assert (L2 : line (GotoHead (eraseline b)) = line s) by exact F1.
  apply (puts_T C HE) in H as (Em2 & _ & _ & Hk2); [|rewrite L2; apply HF|rewrite L2; apply HF]. rewrite L2 in Em2. cbn [view cursor GotoHead eraseline emit] in Em2. rewrite F4, F5 in Em2.
  rewrite Hv in *. set (L := laid 0 (line s)) in *. rewrite <- (zlen_laid C (line s) 0) in Em1. fold L in Em1. rewrite part_all in Em1. rewrite part0 in Em2.
  set (a := firstn (Z.to_nat (cursor s)) L) in *. assert (Hab : L = a ++ skipn (Z.to_nat (cursor s)) L) by (symmetry; apply firstn_skipn).
  assert (HWL : W L <= W (line s)) by (apply (laid_W C HE); [lia|apply HF]).
  assert (Em : emits s s' ((tm L ++ [TErase]) ++ [TGoto (topc s + 1)] ++ tm a)).
  { rewrite <- !app_assoc. eapply emits_trans; [exact Em1|]. change ([TErase] ++ [TGoto (topc s + 1)] ++ tm a) with ([TErase; TGoto (topc s + 1)] ++ tm a).
    eapply emits_trans; [|exact Em2]. exists [TErase; TGoto (topc b + 1)]. split; [cbn; now rewrite <- app_assoc|]. cbn. rewrite F7. reflexivity. }
  destruct Em as (ts & O & V). exists ts. split; [exact O|].
  assert (Hg : D [TGoto (topc s + 1)] sc = sc).
  { destruct sc as [c0 r0]. cbn in Hc |- *. subst c0. f_equal. lia. }
  pose proof (VW_lim s) as Hlim.
  destruct (screen_repaint E other (topc s) a (skipn (Z.to_nat (cursor s)) L) sc (termw s - 3) (ok_any C HE _)) as (S1 & S2 & S3); [rewrite <- Hab; lia|].
  rewrite <- Hab in S1, S2, S3. rewrite <- !app_assoc in S1, S2, S3. rewrite D_app, Hg in S1, S2.
  assert (S3' : inside (termw s - 3) sc (tm L ++ [TErase] ++ [TGoto (topc s + 1)] ++ tm a)).
  { intros x m y Hq. specialize (S3 (TGoto (topc s + 1) :: x) m y). change (TGoto (topc s + 1) :: x) with ([TGoto (topc s + 1)] ++ x) in S3. rewrite D_app, Hg in S3. apply S3. rewrite Hq. reflexivity. }
  rewrite <- app_assoc in V. split; [apply (inside_vis C); rewrite V; exact S3'|]. rewrite <- (D_vis C), V.
  assert (FL : line s' = line s) by (exact (eq_trans K1 F1)). cbn [suffix view cursor topc termw GotoHead eraseline emit] in K3, K4, K5, K6, K7.
  split; [|split; [|congruence]].
  - split.
    + rewrite FL, K7, F7. exact S1.
    + rewrite FL, K7, F7, K5, F5. exact S2.
  - split; [apply (Fit_same C s); congruence|]. split; [exact (Hk2 (Hk1 Hk))|]. rewrite K4, K5, K3, FL, F3, F4, F5. auto.
Qed.

(** One event.  [paint_width]: the width painted to, new after a resize. *)
Hypothesis HB : only_builtin S.
Notation Room := (Room C).
Lemma fits_Room x : fits_tabs S x -> Room (buf_of x). Proof. exact (fun H => H). Qed.
Lemma Room_line s s' : line s' = line s -> termw s' = termw s -> Room s' -> Room s.
Proof. unfold TabScreen.Room. now intros -> ->. Qed.
Lemma step_P e x x' sc : step S e x = Some x' -> good x sc -> fits_tabs S x' -> steady_tabs S e x ->
  exists ts, out (buf_of x') = out (buf_of x) ++ ts /\ inside (termw (buf_of x') - 3) sc ts /\ good x' (D ts sc).
Proof.
  intros H Hg Hroom Hst. apply fits_Room in Hroom.
  assert (FromP : forall s, x = Running (match x with Running m _ => m | _ => MNormal end) s -> P sc s x' -> exists ts, out (buf_of x') = out (buf_of x) ++ ts /\ inside (termw (buf_of x') - 3) sc ts /\ good x' (D ts sc)).
  { intros s Hx (ts & O & I & Gd & T). exists ts. rewrite Hx. cbn [buf_of]. split; [exact O|]. split; [rewrite T; exact I|exact Gd]. }
  destruct x as [m s|s t r].
  2:{ cbn in H. injection H as <-. exists []. split; [now rewrite app_nil_r|]. split; [apply inside_nil|exact Hg]. }
  pose proof Hg as [HG Hm]. cbn [buf_of] in HG.
  assert (Same : forall ts, vis ts = [] -> good (Running m (emit s ts)) sc) by (intros ts _; split; [exact HG|]; destruct m; exact Hm).
  destruct e as [k| |w|c].
  - cbn [step] in H. destruct m as [| |ss].
    + apply (FromP s eq_refl). unfold key_normal in H. cbn [good] in Hm. set (s0 := emit s [TCursorOff]) in *.
      apply (P_pre s s0 x' sc [TCursorOff]); [reflexivity|now apply quiet_ins|reflexivity|]. rewrite quiet_D by reflexivity.
      cbn [steady_tabs] in Hst. pose proof (HB k) as Hbk.
      assert (Hexec : forall c, c = LookupCommand (kmap S) (gmap S) k -> after_command S (exec C c s0) = Some x' -> P sc s0 x').
      { intros c Hc Ha. destruct (exec C c s0) as [[s1 r]|] eqn:Hex; [|discriminate]. destruct (after_line _ _ _ Ha) as [AL AT].
        assert (Hci : c = CInterrupt \/ c <> CInterrupt) by (destruct c; (now left) || (right; discriminate)). destruct Hci as [Hci|Hci].
        - rewrite Hci in Hex. cbn in Hex. injection Hex as <- <-. set (s1 := set_undoes _ _) in *.
          assert (HG1 : G s1).
          { pose proof HG as (HF & _ & Hv & _ & Hs). split; [apply (Fit_nil C HE s _ HF); reflexivity|]. split; [constructor|]. cbn. repeat split; auto; apply Z.le_refl. }
          apply (P_pre s0 s1 x' sc []); [now rewrite app_nil_r|apply inside_nil|reflexivity|]. eapply after_P; [exact HG1| |exact Ha]. discriminate.
        - destruct (exec_T C HE HP other c s0 s1 r) as (HR & HG1 & HT1); auto.
          + intros f Hf. apply (Hbk f). congruence.
          + intros Hf. apply Hst. congruence.
          + apply (Room_line s1 (buf_of x')); auto.
          + destruct (HR sc Hm) as (ts & O & Sh & I). eapply P_pre; [exact O|exact I|exact HT1|]. eapply after_P; [exact HG1|auto|exact Ha]. }
      destruct (LookupCommand (kmap S) (gmap S) k) eqn:Hk; try (eapply Hexec; [reflexivity|exact H]).
      * injection H as <-. exists [TCursorOn; TFlush]. split; [reflexivity|]. split; [now apply quiet_ins|]. rewrite quiet_D by reflexivity. split; [split; [exact HG|exact Hm]|reflexivity].
      * apply (P_pre s0 (GotoHead s0) x' sc [TGoto (topc s0 + 1)]); [reflexivity|apply quiet_in; discriminate|reflexivity|]. eapply search_wait_P; [exact HG|cbn; lia|exact H].
    + apply (FromP s eq_refl). unfold key_quoted in H. destruct (selfInsert C k s) as [s1|] eqn:Hsi; [|discriminate]. destruct (after_line _ _ _ H) as [AL AT].
      destruct (selfInsert_T C HE HP other k s s1) as (HR & HG1 & HT1); auto.
      * apply (Room_line s1 (buf_of x')); auto.
      * destruct (HR sc Hm) as (ts & O & Sh & I). eapply P_pre; [exact O|exact I|exact HT1|].
        apply (P_pre s1 (emit s1 [TCursorOff]) x' _ [TCursorOff]); [reflexivity|now apply quiet_ins|reflexivity|]. rewrite quiet_D by reflexivity. eapply after_P; [exact HG1|auto|exact H].
    + apply (FromP s eq_refl). unfold key_search in H. cbv zeta in H. set (s1 := GotoHead (emit s [TCursorOff])) in *. opt H.
      apply (P_pre s s1 x' sc [TCursorOff; TGoto (topc s + 1)]); [unfold s1; cbn; now rewrite <- app_assoc| |reflexivity|].
      { change [TCursorOff; TGoto (topc s + 1)] with ([TCursorOff] ++ [TGoto (topc s + 1)]). apply inside_app; [now apply quiet_ins|apply quiet_in; discriminate]. }
      set (sc1 := D [TCursorOff; TGoto (topc s + 1)] sc). assert (C1 : col sc1 = topc s1) by (cbn; lia). assert (HG1 : G s1) by exact HG.
      destruct s0 as [ss'| |].
      * eapply search_wait_P; [exact HG1|exact C1|exact H].
      * destruct (search_accept S ss s1) as [s2|] eqn:Hsa; [|discriminate]. destruct (after_line _ _ _ H) as [AL AT]. unfold search_accept in Hsa.
        set (s3 := set_cursor _ 0) in Hsa. destruct HG1 as (G1 & G2 & G3 & G4 & G5).
        destruct (Replace_T C HE HP other s3 0 (ss_found ss) s2) as (HR & HG2 & HT2).
        -- apply G1.
        -- constructor.
        -- exact G5.
        -- exact Hsa.
        -- apply (Room_line s2 (buf_of x')); auto.
        -- destruct (HR sc1) as (ts & O & Sh & I). apply (P_pre s1 s2 x' sc1 ts); [exact O|exact I|exact HT2|]. eapply after_P; [exact HG2|auto|exact H].
      * destruct (search_cancel S s1) as [s2|] eqn:Hsc; [|discriminate].
        destruct (search_cancel_Q s1 s2 HG1 Hsc sc1 C1) as (ts & O & I & Sh & HG2 & HT2).
        eapply P_pre; [exact O|exact I|exact HT2|]. eapply after_P; [exact HG2|auto|exact H].
  - cbn [step] in H. destruct m as [| |ss].
    + injection H as <-. apply (FromP s eq_refl). exists [TCursorOn; TFlush]. split; [reflexivity|]. split; [now apply quiet_ins|]. split; [split; [exact HG|exact I]|reflexivity].
    + apply (FromP s eq_refl). apply (P_pre s (emit s [TCursorOff]) x' sc [TCursorOff]); [reflexivity|now apply quiet_ins|reflexivity|]. rewrite quiet_D by reflexivity. eapply after_P; [exact HG|intros _; exact Hm|exact H].
    + destruct Hst.
  - cbn [step] in H. destruct m as [| |ss]; [|injection H as <-; exists []; split; [now rewrite app_nil_r|]; split; [apply inside_nil|exact Hg]..].
    opt H. injection H as <-. cbn [buf_of] in *. unfold on_resize, RepaintLastLine in Ev.
    set (ts0 := [TFlush; TPrompt (last_line_prompt (prompt C))]) in Ev.
    change (repaint C (ResetViewStart C (emit (set_termw s w) ts0)) = Some b) in Ev.
    pose proof HG as (G1 & G2 & G3 & G4 & G5).
    destruct (reset_T C HE HP other (emit (set_termw s w) ts0) b Ev (proj1 (proj2 G1)) Hroom G2 G5) as (HR & HG1 & HT1).
    destruct (HR (D ts0 sc)) as (ts & O & Sh & I). exists (ts0 ++ ts). split; [rewrite O; cbn [out emit set_termw]; now rewrite app_assoc|]. split; [|split; [exact HG1|rewrite D_app; exact Sh]].
    apply inside_app; [|rewrite HT1; exact I]. change ts0 with ([TFlush] ++ [TPrompt (last_line_prompt (prompt C))]). apply inside_app; [now apply quiet_ins|apply quiet_in; discriminate].
  - cbn [step] in H. injection H as <-. exists []. split; [now rewrite app_nil_r|]. split; [apply inside_nil|]. destruct m; exact Hg.
Qed.

Lemma start_P default cur w cl x : start S default cur w cl = Some x -> fits_tabs S x ->
  termw (buf_of x) = w /\ forall sc, inside (w - 3) sc (out (buf_of x)) /\ good x (D (out (buf_of x)) sc).
Proof.
  intros H Hroom. apply fits_Room in Hroom. unfold start in H. destruct (callPromptWriter E (prompt C)) as [t p] eqn:Hpw. opt H. injection H as <-. cbn [buf_of] in *.
  set (s0 := mkBuf [] None 0 cur w 0 (zlen (hist C)) [] [] [] cl []) in *. set (s1 := set_topc (emit s0 [TPrompt t]) p) in *.
  set (s2 := if termw s1 - 3 <=? topc s1 then set_topc (emit s1 [TNewline]) 0 else s1) in *.
  unfold InsertString in Ev. opt Ev. injection Ev as <- <-. pose proof (units_le C HE _ _ _ _ _ Ev1) as HU. apply insert_shape in Ev1 as (l0 & us & -> & _).
  unfold RepaintAfterPrompt in Ev0. set (s4 := if zlen (cells _) <? _ then _ else _) in *. pose proof (repaint_line C HP _ _ Ev0) as (RL & RT & _).
  assert (T4 : termw s4 = w) by (unfold s4, s2; destruct (_ <=? _); destruct (_ <? _); reflexivity).
  assert (L4 : line s4 = line (set_undoes (set_cells s2 l0) us) /\ cells s4 = cells (set_undoes (set_cells s2 l0) us)) by (unfold s4; destruct (_ <? _); split; reflexivity). destruct L4 as [L4 K4].
  assert (T2 : s2 = s1).
  { unfold s2. destruct (termw s1 - 3 <=? topc s1) eqn:Hx; [|reflexivity]. exfalso. destruct Hroom as (_ & Hw & _). unfold PW in Hw. rewrite Hpw in Hw. cbn [snd termw emit] in Hw.
    change (termw (ResetViewStart C s4)) with (termw s4) in RT. pose proof (W_pos C HE (line (emit b0 [TCursorOn; TFlush]))). cbn in Hx. lia. }
  assert (T5 : topc s4 = p /\ suffix s4 = None /\ out s4 = [TPrompt t]) by (unfold s4; rewrite T2; match goal with |- context [if ?c then _ else _] => case c end; repeat split; reflexivity). destruct T5 as (T5 & T6 & T7).
  change (line (ResetViewStart C s4)) with (line s4) in RL.
  destruct HU as [HU _]; [rewrite <- L4, <- RL; apply Hroom|unfold s2; destruct (_ <=? _); constructor|].
  destruct (reset_T C HE HP other s4 b0 Ev0) as (HR & HG1 & HT1).
  - rewrite T5, Hpw. reflexivity.
  - exact Hroom.
  - rewrite K4. exact HU.
  - exact T6.
  - split; [cbn; congruence|]. intros sc. destruct (HR (D [TPrompt t] sc)) as (ts & O & Sh & I). cbn [out emit]. rewrite O, T7.
    change [TCursorOn; TFlush] with ([TCursorOn] ++ [TFlush]). split.
    + apply inside_app; [apply inside_app; [apply quiet_in; discriminate|rewrite T4 in I; exact I]|now apply quiet_ins].
    + rewrite !D_app. rewrite quiet_D by reflexivity. split; [exact HG1|exact Sh].
Qed.

Lemma calm_roomy es x : calm_tabs S es x -> fits_tabs S x. Proof. destruct es; cbn; tauto. Qed.
Lemma run_P es : forall x x' sc, run S es x = Some x' -> calm_tabs S es x -> good x (D (out (buf_of x)) sc) -> good x' (D (out (buf_of x')) sc).
Proof.
  induction es as [|e es IH]; intros x x' sc H Hc Hg; cbn [run] in H; [injection H as <-; exact Hg|]. opt H. destruct Hc as (_ & Hst & Hn).
  specialize (Hn _ Ev). destruct (step_P e x s _ Ev Hg (calm_roomy _ _ Hn) Hst) as (ts & O & _ & Gd). eapply IH; [exact H|exact Hn|]. rewrite O, D_app. exact Gd.
Qed.
Lemma readline_screen default cur w cl es x sc :
  (forall x0, start S default cur w cl = Some x0 -> calm_tabs S es x0) -> readline S default cur w cl es = Some x -> good x (D (out (buf_of x)) sc).
Proof.
  intros Hc H. unfold readline in H. opt H. specialize (Hc _ eq_refl). destruct (start_P default cur w cl s Ev (calm_roomy _ _ Hc)) as [_ Hs]. eapply run_P; [exact H|exact Hc|]. apply Hs.
Qed.
Lemma calm_app es e x x' : calm_tabs S (es ++ [e]) x -> run S es x = Some x' -> calm_tabs S es x /\ steady_tabs S e x' /\ forall x2, step S e x' = Some x2 -> fits_tabs S x2.
Proof.
  revert x. induction es as [|a es IH]; intros x H Hr; cbn [app calm_tabs run] in *.
  - injection Hr as <-. destruct H as (H1 & H2 & H3). split; [auto|]. split; [exact H2|]. intros x2 Hx. now apply H3 in Hx as [Hx _].
  - opt Hr. destruct H as (H1 & H2 & H3). destruct (IH s (H3 _ eq_refl) Hr) as (K1 & K2). split; [|exact K2]. split; [exact H1|]. split; [exact H2|].
    intros x0 Hx0; rewrite Ev in Hx0 || idtac; injection Hx0 as <-; exact K1.
Qed.
Lemma readline_inside default cur w cl es e x x' sc :
  (forall x0, start S default cur w cl = Some x0 -> calm_tabs S (es ++ [e]) x0) -> readline S default cur w cl es = Some x -> step S e x = Some x' ->
  exists ts, out (buf_of x') = out (buf_of x) ++ ts /\ inside (termw (buf_of x') - 3) (D (out (buf_of x)) sc) ts.
Proof.
  intros Hc H Hst. unfold readline in H. opt H. specialize (Hc _ eq_refl). destruct (calm_app es e s x Hc H) as (K1 & K2 & K3).
  assert (Hg : good x (D (out (buf_of x)) sc)) by (eapply readline_screen; [intros x0 Hx0; rewrite Ev in Hx0; injection Hx0 as <-; exact K1|unfold readline; rewrite Ev; exact H]).
  destruct (step_P e x x' _ Hst Hg (K3 _ Hst) K2) as (ts & O & I & _). exists ts. auto.
Qed.
Lemma start_inside default cur w cl x sc : start S default cur w cl = Some x -> fits_tabs S x -> inside (w - 3) sc (out (buf_of x)).
Proof. intros H Hr. now apply (start_P default cur w cl x H Hr). Qed.


(** Enter: the whole line stands there before the line feed. *)
Lemma readline_enter default cur w cl es k s x' sc :
  (forall x0, start S default cur w cl = Some x0 -> calm_tabs S es x0) -> readline S default cur w cl es = Some (Running MNormal s) ->
  LookupCommand (kmap S) (gmap S) k = CAcceptLine -> step S (EKey k) (Running MNormal s) = Some x' ->
  exists ts tl, out (buf_of x') = out s ++ ts ++ TLineFeed 1 :: tl /\ line (buf_of x') = line s /\ shown (buf_of x') (D (out s ++ ts) sc).
Proof.
  intros Hc H Hk Hst. destruct (readline_screen _ _ _ _ _ _ sc Hc H) as [HG Hsh]. cbn [buf_of tab_screen_right] in *. pose proof HG as (_ & _ & _ & _ & Hs).
  cbn [step] in Hst. unfold key_normal in Hst. rewrite Hk in Hst. cbn [exec] in Hst. unfold after_command, finish in Hst. cbn [suffix emit] in Hst. rewrite Hs in Hst. injection Hst as <-. cbn [buf_of].
  exists [TCursorOff; TCursorOn], [TFlush; TCursorOn; TFlush]. split; [cbn [out emit]; rewrite <- !app_assoc; reflexivity|]. split; [reflexivity|]. rewrite D_app, (quiet_D [TCursorOff; TCursorOn]) by reflexivity. exact Hsh.
Qed.
End Sess.
