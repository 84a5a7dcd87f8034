(** The screen through a whole session. *)
From Verif Require Import Base Utf8 Moji Color Prompt Buffer Commands KeyMap Session MojiFacts Abs AbsRef AbsSess
  AbsSafe AbsInv Safe SafeSess Spec SpecScreen ScreenFacts ScreenPaint ScreenCmd.
Ltac lia := unfold rune in *; Lia.lia.

Section Sess.
Variable S : scfg.
Notation C := (base S).
Notation E := (cE C).
Hypothesis HE : env_ok E.
Hypothesis HP : pcolor0 C = [] \/ forall t c, nt (StringToMoji E (predictor C t c)).
Variable other : terminal.
Notation D := (display E other).
Notation W := (total_width E).
Notation ok := (Forall (fun m => 0 <= width E m)).
Notation shown := (shown E).
Notation inside := (inside E other).
Notation G := (G C).
Notation pw := (snd (callPromptWriter E (prompt C))).

Definition good (x : sess) (sc : screen) : Prop :=
  G (buf_of x) /\ screen_right E x sc.
(** From the screen [sc] with state [s], the outcome [x] paints inside and rightly. *)
Definition P (sc : screen) (s : buf) (x : sess) : Prop :=
  exists ts, out (buf_of x) = out s ++ ts /\ inside (termw s - 3) sc ts /\ good x (D ts sc) /\ termw (buf_of x) = termw s.

Lemma P_pre s0 s x sc ts : out s = out s0 ++ ts -> inside (termw s0 - 3) sc ts -> termw s = termw s0 -> P (D ts sc) s x -> P sc s0 x.
Proof.
  intros H1 H2 H3 (t2 & O & I & Gd & T). exists (ts ++ t2). split; [rewrite O, H1; now rewrite app_assoc|]. split; [apply inside_app; [exact H2|rewrite <- H3; exact I]|].
  rewrite D_app. split; [exact Gd|congruence].
Qed.
Lemma quiet_in lim sc t : (forall m, t <> TMoji m) -> inside lim sc [t].
Proof. apply inside_other. Qed.
Lemma quiet_ins lim sc ts : vis ts = [] -> inside lim sc ts.
Proof. intros H. apply (inside_vis C). rewrite H. apply inside_nil. Qed.
Lemma quiet_D ts sc : vis ts = [] -> D ts sc = sc.
Proof. intros H. rewrite <- (D_vis C), H. reflexivity. Qed.
Lemma G_emit s ts : G s -> G (emit s ts). Proof. exact (fun H => H). Qed.
Lemma G_suffix s : G s -> G (set_suffix s None).
Proof. intros (H1 & H2 & H3 & H4 & H5 & H6 & H7). unfold ScreenCmd.G. repeat (split; [first [exact H1|exact H2|exact H3|exact H4|exact H5]|]). split; [constructor|exact H7]. Qed.
Lemma G_VW s : G s -> 0 < ViewWidth s.
Proof. intros (H1 & H2 & H3 & _). exact (proj1 (G_view C HE s H1 H2 H3)). Qed.

(** ReadLine's last repaint. *)
Lemma finish_R s s1 : G s -> match suffix s with None => Some s | Some _ => repaintWithoutUpdateSuffix C (set_suffix s None) end = Some s1 ->
  (suffix s <> None -> R0 C other (termw s - 3) s s1) /\ (suffix s = None -> s1 = s) /\ G s1 /\ termw s1 = termw s /\ suffix s1 = None /\ line s1 = line s.
Proof.
  intros HG H. destruct (suffix s) as [m|] eqn:Hs.
  - pose proof (G_suffix s HG) as HG1. pose proof HG1 as (H1 & H2 & H3 & H4 & H5 & H6 & H7).
    pose proof (repaintW_paints C _ _ H) as Hp. apply paints_fields in Hp as (P1 & P2 & P3 & P4 & P5 & P6 & P7 & _).
    split; [|split; [discriminate|split; [|split; [exact P6|split; [exact P3|exact P1]]]]].
    + intros _. apply (R0_same C other _ s (set_suffix s None)); [reflexivity|]. apply (repaintW_screen C HE HP other (set_suffix s None)); auto. now apply G_VW.
    + eapply (G_same C); [..|exact HG1]; auto.
  - injection H as <-. split; [intros X; now destruct X|]. split; [auto|]. split; [exact HG|]. split; [reflexivity|]. split; [exact Hs|reflexivity].
Qed.
Lemma finish_P rc s x sc : G s -> finish S rc s = Some x -> P sc s x.
Proof.
  intros HG H. unfold finish in H. destruct (match suffix s with None => Some s | Some _ => _ end) as [s1|] eqn:Hm; [|discriminate]. injection H as <-.
  destruct (finish_R s s1 HG Hm) as (F1 & F2 & F3 & F4 & F5 & _).
  set (tl := [TLineFeed (result_code rc); TFlush; TCursorOn; TFlush]).
  assert (HI : forall sc, inside (termw s - 3) sc tl).
  { intros sc0. change tl with ([TLineFeed (result_code rc)] ++ [TFlush; TCursorOn; TFlush]). apply inside_app; [apply quiet_in; discriminate|now apply quiet_ins]. }
  destruct (suffix s) as [m|] eqn:Hs.
  - destruct (F1 ltac:(discriminate) sc) as (ts & O & _ & I). exists (ts ++ tl). cbn [buf_of]. split; [cbn [out emit]; rewrite O; now rewrite <- app_assoc|].
    split; [apply inside_app; [exact I|apply HI]|]. split; [split; [exact F3|exact Logic.I]|exact F4].
  - rewrite (F2 eq_refl) in *. exists tl. split; [reflexivity|]. split; [apply HI|]. split; [split; [exact HG|exact Logic.I]|reflexivity].
Qed.
Lemma after_P s r x sc : G s -> (r = CONTINUE -> shown s sc) -> after_command S (Some (s, r)) = Some x -> P sc s x.
Proof.
  intros HG Hsh H. unfold after_command in H.
  assert (Fin : finish S r (emit s [TCursorOn]) = Some x -> P sc s x).
  { intros Hf. apply (P_pre s (emit s [TCursorOn]) x sc [TCursorOn]); [reflexivity|now apply quiet_ins|reflexivity|]. eapply finish_P; [exact HG|exact Hf]. }
  destruct r; try (exact (Fin H)). injection H as <-. exists [TCursorOn; TFlush]. split; [cbn; now rewrite <- app_assoc|]. split; [now apply quiet_ins|].
  rewrite quiet_D by reflexivity. split; [split; [exact HG|exact (Hsh eq_refl)]|reflexivity].
Qed.
Lemma after_line s r x : after_command S (Some (s, r)) = Some x -> line (buf_of x) = line s /\ termw (buf_of x) = termw s.
Proof.
  unfold after_command. intros H.
  assert (Fin : finish S r (emit s [TCursorOn]) = Some x -> line (buf_of x) = line s /\ termw (buf_of x) = termw s).
  { intros Hf. unfold finish in Hf. opt Hf. injection Hf as <-. cbn [buf_of]. cbn [suffix emit] in Ev. destruct (suffix s).
    - apply repaintW_paints, paints_fields in Ev as (E1 & _ & _ & _ & _ & E6 & _). split; [exact E1|exact E6].
    - injection Ev as <-. split; reflexivity. }
  destruct r; try (exact (Fin H)). injection H as <-. split; reflexivity.
Qed.
Lemma search_paint_some l : forall vw w ts, w < vw -> search_paint S vw w l = Some ts ->
  exists n, ts = tm (firstn n l) /\ w + W (firstn n l) < vw /\ (firstn n l = l \/ vw <= w + W (firstn (Datatypes.S n) l)).
Proof.
  induction l as [|m l IH]; intros vw w ts Hw H; cbn [search_paint] in H.
  - injection H as <-. exists 0%nat. split; [reflexivity|]. split; [cbn; lia|now left].
  - destruct (vw <=? w + width E m) eqn:Hx; [injection H as <-; exists 0%nat; split; [reflexivity|]; split; [cbn; lia|right; cbn [firstn]; rewrite W_cons, W_nil; lia]|]. opt H. injection H as <-.
    destruct (IH vw (w + width E m) l0) as (n & -> & Hn & Hm); [lia|exact Ev0|]. exists (Datatypes.S n). split; [reflexivity|]. split; [cbn [firstn]; rewrite W_cons; lia|].
    destruct Hm as [Hm|Hm]; [left; cbn [firstn]; now rewrite Hm|right]. change (firstn (Datatypes.S (Datatypes.S n)) (m :: l)) with (m :: firstn (Datatypes.S n) l). rewrite W_cons. lia.
Qed.
Lemma search_wait_P ss s x sc : G s -> col sc = topc s -> nt (StringToMoji E (search_text ss)) -> search_wait S ss s = Some x -> P sc s x.
Proof.
  intros HG Hc Hns H. pose proof (G_VW s HG) as HV. unfold search_wait in H. opt H. injection H as <-. exists (l ++ [TErase; TCursorOn; TFlush]). split; [reflexivity|].
  change (s2l "(i-search)[" ++ ss_str ss ++ s2l "]:" ++ ss_found ss) with (search_text ss) in Ev.
  destruct (search_paint_some _ _ _ _ HV Ev) as (n & -> & HW & Hmx). set (lp := firstn n (StringToMoji E (search_text ss))) in *.
  assert (Hok : ok lp).
  { apply (nt_ok C HE). unfold lp. unfold nt in *. rewrite <- (firstn_skipn n) in Hns. apply Forall_app in Hns. apply Hns. }
  destruct (screen_row E other (topc s) lp sc (termw s - 3) Hok) as (S1 & S2 & S3); [pose proof (VW_lim s); lia|].
  assert (Hg : D [TGoto (topc s + 1)] sc = sc).
  { destruct sc as [c0 r0]. cbn in Hc |- *. subst c0. f_equal. lia. }
  rewrite D_app, Hg in S1, S2.
  change [TErase; TCursorOn; TFlush] with ([TErase] ++ [TCursorOn; TFlush]). rewrite app_assoc.
  split; [|split; [split; [exact HG|]|reflexivity]].
  - apply inside_app; [|now apply quiet_ins].
    intros x m y Hq. specialize (S3 (TGoto (topc s + 1) :: x) m y). change (TGoto (topc s + 1) :: x) with ([TGoto (topc s + 1)] ++ x) in S3. rewrite D_app, Hg in S3. apply S3. rewrite Hq. reflexivity.
  - rewrite D_app, quiet_D by reflexivity. exists n. fold lp. split; [exact S1|]. change (ViewWidth (emit s _)) with (ViewWidth s). split; [lia|exact Hmx].
Qed.
Lemma search_cancel_Q s s' : G s -> search_cancel S s = Some s' ->
  forall sc, col sc = topc s -> exists ts, out s' = out s ++ ts /\ inside (termw s - 3) sc ts /\ shown s' (D ts sc) /\ G s' /\ termw s' = termw s.
Proof.
  intros HG H sc Hc. pose proof HG as (Hn & Ht & Hw & Hv & Hcu & Hs & HW). pose proof (G_VW s HG) as HV. unfold search_cancel in H. opt H. subst.
  apply (getView2_emits C HE) in Ev as (Hw1 & Hw2 & He1 & He2 & He3 & Hmax); auto.
  pose proof (paints_fields _ _ (puts_paints C _ _ _ _ Ev0)) as (F1 & F2 & F3 & F4 & F5 & F6 & F7 & _).
  apply puts_emits in Ev0 as (Em1 & _); [|exact Hn].
  pose proof (paints_fields _ _ (puts_paints C _ _ _ _ H)) as (K1 & K2 & K3 & K4 & K5 & K6 & K7 & _).
  assert (L2 : line (GotoHead (eraseline b)) = line s) by exact F1.
  apply puts_emits in H as (Em2 & _); [|rewrite L2; exact Hn]. rewrite L2 in Em2. cbn [view cursor GotoHead eraseline emit] in Em2. rewrite F4, F5 in Em2.
  assert (Hce : cursor s <= z) by (apply Hmax; [lia|exact HW]).
  set (a := part (line s) (view s) (cursor s)) in *. set (r := part (line s) (cursor s) z).
  assert (Hab : part (line s) (view s) z = a ++ r) by (unfold a, r; apply part_split; lia). rewrite Hab in *.
  assert (Hok : ok (a ++ r)) by (rewrite <- Hab; now apply (nt_ok C HE), nt_part).
  assert (Em : emits s s' ((tm (a ++ r) ++ [TErase]) ++ [TGoto (topc s + 1)] ++ tm a)).
  { rewrite <- !app_assoc. eapply emits_trans; [exact Em1|]. change ([TErase] ++ [TGoto (topc s + 1)] ++ tm a) with ([TErase; TGoto (topc s + 1)] ++ tm a).
    eapply emits_trans; [|exact Em2]. exists [TErase; TGoto (topc b + 1)]. split; [cbn; now rewrite <- app_assoc|]. cbn. rewrite F7. reflexivity. }
  destruct Em as (ts & O & V). exists ts. split; [exact O|].
  assert (Hg : D [TGoto (topc s + 1)] sc = sc).
  { destruct sc as [c0 r0]. cbn in Hc |- *. subst c0. f_equal. lia. }
  destruct (screen_repaint E other (topc s) a r sc (termw s - 3) Hok) as (S1 & S2 & S3); [pose proof (VW_lim s); lia|].
  rewrite <- !app_assoc in S1, S2, S3. rewrite D_app, Hg in S1, S2.
  assert (S3' : inside (termw s - 3) sc (tm (a ++ r) ++ [TErase] ++ [TGoto (topc s + 1)] ++ tm a)).
  { intros x m y Hq. specialize (S3 (TGoto (topc s + 1) :: x) m y). change (TGoto (topc s + 1) :: x) with ([TGoto (topc s + 1)] ++ x) in S3. rewrite D_app, Hg in S3. apply S3. rewrite Hq. reflexivity. }
  rewrite <- app_assoc in V. split; [apply (inside_vis C); rewrite V; exact S3'|]. rewrite <- (D_vis C), V.
  assert (FL : line s' = line s) by (exact (eq_trans K1 F1)). cbn [suffix view cursor topc termw GotoHead eraseline emit] in K3, K4, K5, K6, K7.
  assert (FV : ViewWidth s' = ViewWidth s) by (unfold ViewWidth; now rewrite K6, K7, F6, F7).
  split; [|split; [|congruence]].
  - exists z, []. unfold shows. rewrite app_nil_r, FL, FV, K4, K5, K7, F4, F5, F7, Hab. split; [lia|]. split; [now left|]. split; [exact S1|]. split; [exact S2|]. split; [lia|].
    destruct (Z.eq_dec z (zlen (line s))) as [He|He]; [now left|right]. destruct (Z_lt_dec (W (part (line s) (view s) (z + 1))) (ViewWidth s)) as [Hlt|Hge]; [|lia]. specialize (Hmax (z + 1) ltac:(lia) Hlt). lia.
  - eapply (G_same C); [..|exact HG]; congruence.
Qed.

(** One event.  [paint_width]: the width painted to, new after a resize. *)
Hypothesis HB : only_builtin S.
Lemma tabfree_nt l : Forall (fun m => tabfree m = true) l <-> nt l.
Proof.
  assert (H : forall m, has_tab m = negb (tabfree m)).
  { induction m; cbn; try reflexivity; rewrite IHm1, IHm2; now destruct (tabfree m1), (tabfree m2). }
  unfold nt. rewrite !Forall_forall. split; intros Hx m Hm; specialize (Hx m Hm); rewrite H in *; destruct (tabfree m); auto; discriminate.
Qed.
Lemma roomy_nt x : roomy S x -> nt (line (buf_of x)) /\ wide C (buf_of x) /\ forall ss s, x = Running (MSearch ss) s -> nt (StringToMoji E (search_text ss)).
Proof.
  intros (H1 & H2 & H3). assert (Hn : nt (line (buf_of x))) by (apply tabfree_nt; eapply Forall_impl; [|exact H2]; cbn; tauto).
  split; [exact Hn|]. split.
  - split; [exact H1|]. split; [eapply Forall_impl; [|exact H2]; cbn; tauto|now apply nt_lim].
  - intros ss s ->. now apply tabfree_nt.
Qed.
Lemma step_P e x x' sc : step S e x = Some x' -> good x sc -> roomy S x' -> steady S e x ->
  exists ts, out (buf_of x') = out (buf_of x) ++ ts /\ inside (termw (buf_of x') - 3) sc ts /\ good x' (D ts sc).
Proof.
  intros H Hg Hroom Hst. destruct (roomy_nt x' Hroom) as (Hn & Hw & Hss).
  assert (FromP : forall s, x = Running (match x with Running m _ => m | _ => MNormal end) s -> P sc s x' -> exists ts, out (buf_of x') = out (buf_of x) ++ ts /\ inside (termw (buf_of x') - 3) sc ts /\ good x' (D ts sc)).
  { intros s Hx (ts & O & I & Gd & T). exists ts. rewrite Hx. cbn [buf_of]. split; [exact O|]. split; [rewrite T; exact I|exact Gd]. }
  destruct x as [m s|s t r].
  2:{ cbn in H. injection H as <-. exists []. split; [now rewrite app_nil_r|]. split; [apply inside_nil|exact Hg]. }
  pose proof Hg as [HG Hm]. cbn [buf_of] in HG.
  assert (Same : forall ts, vis ts = [] -> good (Running m (emit s ts)) sc) by (intros ts _; split; [exact HG|]; destruct m; exact Hm).
  destruct e as [k| |w|c].
  - cbn [step] in H. destruct m as [| |ss].
    + apply (FromP s eq_refl). unfold key_normal in H. cbn [good] in Hm. set (s0 := emit s [TCursorOff]) in *.
      apply (P_pre s s0 x' sc [TCursorOff]); [reflexivity|now apply quiet_ins|reflexivity|]. rewrite quiet_D by reflexivity.
      cbn [steady] in Hst. destruct Hst as [Hst1 Hst2]. pose proof (HB k) as Hbk.
      assert (Hexec : forall c, c = LookupCommand (kmap S) (gmap S) k -> after_command S (exec C c s0) = Some x' -> P sc s0 x').
      { intros c Hc Ha. destruct (exec C c s0) as [[s1 r]|] eqn:Hex; [|discriminate]. destruct (after_line _ _ _ Ha) as [AL AT].
        assert (Hci : c = CInterrupt \/ c <> CInterrupt) by (destruct c; (now left) || (right; discriminate)). destruct Hci as [Hci|Hci].
        - rewrite Hci in Hex. cbn in Hex. injection Hex as <- <-. set (s1 := set_undoes _ _) in *.
          assert (HG1 : G s1).
          { pose proof HG as (G1 & G2 & G3 & G4 & G5 & G6 & G7). pose proof (G_VW s HG) as HVW. unfold ScreenCmd.G, Wv. unfold s1. cbn. split; [constructor|]. split; [exact G2|].
            split; [unfold wide; cbn; split; [apply G3|split; [constructor|now left]]|]. split; [lia|]. split; [unfold zlen; cbn; lia|]. split; [exact G6|exact HVW]. }
          apply (P_pre s0 s1 x' sc []); [now rewrite app_nil_r|apply inside_nil|reflexivity|]. eapply after_P; [exact HG1| |exact Ha]. discriminate.
        - destruct (exec_Q C HE HP other c s0 s1 r) as (HR & HG1 & HT1); auto.
          + intros f Hf. apply (Hbk f). congruence.
          + intros Hf. apply Hst1. congruence.
          + intros Hf. apply Hst2. congruence.
          + rewrite <- AL. exact Hn.
          + apply (wide_line C (buf_of x')); auto.
          + destruct (HR sc Hm) as (ts & O & Sh & I). eapply P_pre; [exact O|exact I|exact HT1|]. eapply after_P; [exact HG1|auto|exact Ha]. }
      destruct (LookupCommand (kmap S) (gmap S) k) eqn:Hk; try (eapply Hexec; [reflexivity|exact H]).
      * injection H as <-. exists [TCursorOn; TFlush]. split; [reflexivity|]. split; [now apply quiet_ins|]. rewrite quiet_D by reflexivity. split; [split; [exact HG|exact Hm]|reflexivity].
      * apply (P_pre s0 (GotoHead s0) x' sc [TGoto (topc s0 + 1)]); [reflexivity|apply quiet_in; discriminate|reflexivity|]. eapply search_wait_P; [exact HG|cbn; lia| |exact H]. unfold search_wait in H. opt H. injection H as <-. now eapply Hss.
    + apply (FromP s eq_refl). unfold key_quoted in H. destruct (selfInsert C k s) as [s1|] eqn:Hsi; [|discriminate]. destruct (after_line _ _ _ H) as [AL AT].
      destruct (selfInsert_Q C HE HP other k s s1) as (HR & HG1 & HT1); auto.
      * change (nt (line (emit s1 [TCursorOff]))). rewrite <- AL. exact Hn.
      * apply (wide_line C (buf_of x')); auto.
      * destruct (HR sc Hm) as (ts & O & Sh & I). eapply P_pre; [exact O|exact I|exact HT1|].
        apply (P_pre s1 (emit s1 [TCursorOff]) x' _ [TCursorOff]); [reflexivity|now apply quiet_ins|reflexivity|]. rewrite quiet_D by reflexivity. eapply after_P; [exact HG1|auto|exact H].
    + apply (FromP s eq_refl). unfold key_search in H. cbv zeta in H. set (s1 := GotoHead (emit s [TCursorOff])) in *. opt H.
      apply (P_pre s s1 x' sc [TCursorOff; TGoto (topc s + 1)]); [unfold s1; cbn; now rewrite <- app_assoc| |reflexivity|].
      { change [TCursorOff; TGoto (topc s + 1)] with ([TCursorOff] ++ [TGoto (topc s + 1)]). apply inside_app; [now apply quiet_ins|apply quiet_in; discriminate]. }
      set (sc1 := D [TCursorOff; TGoto (topc s + 1)] sc). assert (C1 : col sc1 = topc s1) by (cbn; lia). assert (HG1 : G s1) by exact HG.
      destruct s0 as [ss'| |].
      * eapply search_wait_P; [exact HG1|exact C1| |exact H]. unfold search_wait in H. opt H. injection H as <-. now eapply Hss.
      * destruct (search_accept S ss s1) as [s2|] eqn:Hsa; [|discriminate]. destruct (after_line _ _ _ H) as [AL AT]. unfold search_accept in Hsa.
        set (s3 := set_cursor _ 0) in Hsa. destruct HG1 as (G1 & G2 & G3 & G4 & G5 & G6 & G7).
        destruct (Replace_Q C HE HP other s3 0 (ss_found ss) s2) as (HR & HG2 & HT2).
        -- exact G6.
        -- exact G2.
        -- exact Hsa.
        -- rewrite <- AL. exact Hn.
        -- apply (wide_line C (buf_of x')); auto.
        -- destruct (HR sc1) as (ts & O & Sh & I). apply (P_pre s1 s2 x' sc1 ts); [exact O|exact I|exact HT2|]. eapply after_P; [exact HG2|auto|exact H].
      * destruct (search_cancel S s1) as [s2|] eqn:Hsc; [|discriminate].
        destruct (search_cancel_Q s1 s2 HG1 Hsc sc1 C1) as (ts & O & I & Sh & HG2 & HT2).
        eapply P_pre; [exact O|exact I|exact HT2|]. eapply after_P; [exact HG2|auto|exact H].
  - cbn [step] in H. destruct m as [| |ss].
    + injection H as <-. apply (FromP s eq_refl). exists [TCursorOn; TFlush]. split; [reflexivity|]. split; [now apply quiet_ins|]. split; [split; [exact HG|exact I]|reflexivity].
    + apply (FromP s eq_refl). apply (P_pre s (emit s [TCursorOff]) x' sc [TCursorOff]); [reflexivity|now apply quiet_ins|reflexivity|]. rewrite quiet_D by reflexivity. eapply after_P; [exact HG|intros _; exact Hm|exact H].
    + destruct Hst.
  - cbn [step] in H. destruct m as [| |ss]; [|injection H as <-; exists []; split; [now rewrite app_nil_r|]; split; [apply inside_nil|exact Hg]..].
    opt H. injection H as <-. cbn [buf_of] in *. unfold on_resize, RepaintLastLine in Ev.
    set (ts0 := [TFlush; TPrompt (last_line_prompt (prompt C))]) in Ev.
    change (repaint C (ResetViewStart C (emit (set_termw s w) ts0)) = Some b) in Ev.
    pose proof HG as (G1 & G2 & G3 & G4 & G5 & G6 & G7).
    destruct (reset_Q C HE HP other (emit (set_termw s w) ts0) b Ev Hn G2 Hw G6) as (HR & HG1 & HT1).
    destruct (HR (D ts0 sc)) as (ts & O & Sh & I). exists (ts0 ++ ts). split; [rewrite O; cbn [out emit set_termw]; now rewrite app_assoc|]. split; [|split; [exact HG1|rewrite D_app; exact Sh]].
    apply inside_app; [|rewrite HT1; exact I]. change ts0 with ([TFlush] ++ [TPrompt (last_line_prompt (prompt C))]). apply inside_app; [now apply quiet_ins|apply quiet_in; discriminate].
  - cbn [step] in H. injection H as <-. exists []. split; [now rewrite app_nil_r|]. split; [apply inside_nil|]. destruct m; exact Hg.
Qed.

Lemma start_P default cur w cl x : start S default cur w cl = Some x -> roomy S x ->
  termw (buf_of x) = w /\ forall sc, inside (w - 3) sc (out (buf_of x)) /\ good x (D (out (buf_of x)) sc).
Proof.
  intros H Hroom. destruct (roomy_nt x Hroom) as (Hn & Hw & _). unfold start in H. destruct (callPromptWriter E (prompt C)) as [t p] eqn:Hpw. opt H. injection H as <-. cbn [buf_of] in *.
  set (s0 := mkBuf [] None 0 cur w 0 (zlen (hist C)) [] [] [] cl []) in *. set (s1 := set_topc (emit s0 [TPrompt t]) p) in *.
  unfold InsertString in Ev. opt Ev. injection Ev as <- <-. apply insert_shape in Ev1 as (l0 & us & -> & _).
  unfold RepaintAfterPrompt in Ev0. set (s4 := if zlen (cells _) <? _ then _ else _) in *. pose proof (repaint_line C _ _ Ev0) as [RL RT].
  set (s2 := if termw s1 - 3 <=? topc s1 then set_topc (emit s1 [TNewline]) 0 else s1) in *.
  assert (T4 : termw s4 = w) by (unfold s4, s2; destruct (_ <=? _); destruct (_ <? _); reflexivity).
  assert (T2 : s2 = s1).
  { unfold s2. destruct (termw s1 - 3 <=? topc s1) eqn:Hx; [|reflexivity]. exfalso. destruct Hw as [Hw _]. unfold V, PW in Hw. rewrite Hpw in Hw. cbn [snd termw emit] in Hw.
    change (termw (ResetViewStart C s4)) with (termw s4) in RT. cbn in Hx. lia. }

  assert (T5 : topc s4 = p /\ suffix s4 = None /\ out s4 = [TPrompt t]) by (unfold s4; rewrite T2; match goal with |- context [if ?c then _ else _] => case c end; repeat split; reflexivity). destruct T5 as (T5 & T6 & T7).
  destruct (reset_Q C HE HP other s4 b0 Ev0) as (HR & HG1 & HT1).
  - exact Hn.
  - rewrite T5, Hpw. reflexivity.
  - exact Hw.
  - rewrite T6. constructor.
  - split; [cbn; congruence|]. intros sc. destruct (HR (D [TPrompt t] sc)) as (ts & O & Sh & I). cbn [out emit]. rewrite O, T7.
    change [TCursorOn; TFlush] with ([TCursorOn] ++ [TFlush]). split.
    + apply inside_app; [apply inside_app; [apply quiet_in; discriminate|rewrite T4 in I; exact I]|now apply quiet_ins].
    + rewrite !D_app. rewrite quiet_D by reflexivity. split; [exact HG1|exact Sh].
Qed.

Lemma calm_roomy es x : calm S es x -> roomy S x. Proof. destruct es; cbn; tauto. Qed.
Lemma run_P es : forall x x' sc, run S es x = Some x' -> calm S es x -> good x (D (out (buf_of x)) sc) -> good x' (D (out (buf_of x')) sc).
Proof.
  induction es as [|e es IH]; intros x x' sc H Hc Hg; cbn [run] in H; [injection H as <-; exact Hg|]. opt H. destruct Hc as (_ & Hst & Hn).
  specialize (Hn _ Ev). destruct (step_P e x s _ Ev Hg (calm_roomy _ _ Hn) Hst) as (ts & O & _ & Gd). eapply IH; [exact H|exact Hn|]. rewrite O, D_app. exact Gd.
Qed.
Lemma readline_screen default cur w cl es x sc :
  (forall x0, start S default cur w cl = Some x0 -> calm S es x0) -> readline S default cur w cl es = Some x -> good x (D (out (buf_of x)) sc).
Proof.
  intros Hc H. unfold readline in H. opt H. specialize (Hc _ eq_refl). destruct (start_P default cur w cl s Ev (calm_roomy _ _ Hc)) as [_ Hs]. eapply run_P; [exact H|exact Hc|]. apply Hs.
Qed.
Lemma calm_app es e x x' : calm S (es ++ [e]) x -> run S es x = Some x' -> calm S es x /\ steady S e x' /\ forall x2, step S e x' = Some x2 -> roomy S x2.
Proof.
  revert x. induction es as [|a es IH]; intros x H Hr; cbn [app calm run] in *.
  - injection Hr as <-. destruct H as (H1 & H2 & H3). split; [auto|]. split; [exact H2|]. intros x2 Hx. now apply H3 in Hx as [Hx _].
  - opt Hr. destruct H as (H1 & H2 & H3). destruct (IH s (H3 _ eq_refl) Hr) as (K1 & K2). split; [|exact K2]. split; [exact H1|]. split; [exact H2|].
    intros x0 Hx0; rewrite Ev in Hx0 || idtac; injection Hx0 as <-; exact K1.
Qed.
Lemma readline_inside default cur w cl es e x x' sc :
  (forall x0, start S default cur w cl = Some x0 -> calm S (es ++ [e]) x0) -> readline S default cur w cl es = Some x -> step S e x = Some x' ->
  exists ts, out (buf_of x') = out (buf_of x) ++ ts /\ inside (termw (buf_of x') - 3) (D (out (buf_of x)) sc) ts.
Proof.
  intros Hc H Hst. unfold readline in H. opt H. specialize (Hc _ eq_refl). destruct (calm_app es e s x Hc H) as (K1 & K2 & K3).
  assert (Hg : good x (D (out (buf_of x)) sc)) by (eapply readline_screen; [intros x0 Hx0; rewrite Ev in Hx0; injection Hx0 as <-; exact K1|unfold readline; rewrite Ev; exact H]).
  destruct (step_P e x x' _ Hst Hg (K3 _ Hst) K2) as (ts & O & I & _). exists ts. auto.
Qed.
Lemma start_inside default cur w cl x sc : start S default cur w cl = Some x -> roomy S x -> inside (w - 3) sc (out (buf_of x)).
Proof. intros H Hr. now apply (start_P default cur w cl x H Hr). Qed.

(** Enter: the prediction is gone and the whole line stands there. *)
Lemma enter_screen k s sc x' : good (Running MNormal s) sc -> LookupCommand (kmap S) (gmap S) k = CAcceptLine -> step S (EKey k) (Running MNormal s) = Some x' ->
  exists ts tl, out (buf_of x') = out s ++ ts ++ TLineFeed 1 :: tl /\ inside (termw s - 3) sc ts /\ exists k, shows E (buf_of x') (D ts sc) k [].
Proof.
  intros [HG Hsh] Hk H. cbn [step] in H. unfold key_normal in H. rewrite Hk in H. cbn [exec] in H. unfold after_command in H. set (s0 := emit (emit s [TCursorOff]) [TCursorOn]) in H.
  unfold finish in H. destruct (match suffix s0 with None => Some s0 | Some _ => _ end) as [s1|] eqn:Hm; [|discriminate]. injection H as <-. cbn [buf_of].
  destruct (finish_R s0 s1 HG Hm) as (F1 & F2 & F3 & F4 & F5 & F6).
  assert (Fin : forall ts, shown s1 (D ts sc) -> exists k, shows E (emit s1 [TLineFeed (result_code ENTER); TFlush; TCursorOn; TFlush]) (D ts sc) k []).
  { intros ts (k0 & pred & Hs). exists k0. pose proof Hs as (_ & [-> |(_ & _ & rest & Hr)] & _); [exact Hs|]. rewrite F5 in Hr. discriminate. }
  assert (O0 : out s0 = out s ++ [TCursorOff; TCursorOn]) by (unfold s0; cbn; now rewrite <- app_assoc).
  destruct (suffix s0) as [m|] eqn:Hs0.
  - destruct (F1 ltac:(discriminate) sc) as (ts & O & Sh & I). exists ([TCursorOff; TCursorOn] ++ ts), [TFlush; TCursorOn; TFlush].
    split; [cbn [out emit]; rewrite O, O0; cbn [result_code]; now rewrite <- !app_assoc|]. split; [apply inside_app; [now apply quiet_ins|rewrite quiet_D by reflexivity; exact I]|].
    apply Fin. rewrite D_app, (quiet_D [TCursorOff; TCursorOn]) by reflexivity. exact Sh.
  - rewrite (F2 eq_refl) in *. exists [TCursorOff; TCursorOn], [TFlush; TCursorOn; TFlush]. split; [change (out (emit s0 [TLineFeed 1; TFlush; TCursorOn; TFlush])) with (out s0 ++ [TLineFeed 1; TFlush; TCursorOn; TFlush]); rewrite O0; now rewrite <- app_assoc|]. split; [now apply quiet_ins|]. apply Fin.
    rewrite quiet_D by reflexivity. exact Hsh.
Qed.
Lemma readline_enter default cur w cl es k s x' sc :
  (forall x0, start S default cur w cl = Some x0 -> calm S es x0) -> readline S default cur w cl es = Some (Running MNormal s) ->
  LookupCommand (kmap S) (gmap S) k = CAcceptLine -> step S (EKey k) (Running MNormal s) = Some x' ->
  exists ts tl, out (buf_of x') = out s ++ ts ++ TLineFeed 1 :: tl /\ inside (termw s - 3) (D (out s) sc) ts /\ exists k, shows E (buf_of x') (D (out s ++ ts) sc) k [].
Proof.
  intros Hc H Hk Hst. pose proof (readline_screen _ _ _ _ _ _ sc Hc H) as Hg. destruct (enter_screen k s _ x' Hg Hk Hst) as (ts & tl & O & I & Sh).
  exists ts, tl. rewrite D_app. auto.
Qed.
End Sess.
