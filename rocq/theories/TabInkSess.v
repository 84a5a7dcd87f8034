(** The colours on the screen through a whole session whose lines, tabs and all, fit the row. *)
From Verif Require Import Base Utf8 Moji Color Prompt Buffer Commands KeyMap Session MojiFacts Abs AbsRef AbsSess
  AbsSafe AbsInv Safe SafeSess Plain Spec SpecScript Reach SafetyFacts SpecScreen SpecTabScreen ScreenFacts ScreenPaint ScreenCmd SpecLib SpecPaint PaintFacts ColorFacts TermFacts HistFacts
  SpecInk InkFacts InkPaint SpecTabInk TabInk.
From Verif Require TabScreenSess TabScreen.
From Verif Require Import Session Spec SpecScreen.
Ltac lia := unfold rune in *; Lia.lia.

Section Sess.
Variable S : scfg.
Notation C := (base S).
Notation E := (cE C).
Notation K := (ccol C).
Hypothesis HE : env_ok E.
Hypothesis HP : pcolor0 C = [].
Hypothesis HB : blind K.
Hypothesis HT : true_colours K.
Hypothesis HO : only_builtin S.
Variable other : iterminal.
Notation D := (idisplay E other).
Notation shown := (TabInk.shown C).
Notation G := (TabInk.G C).
Notation Room := (TabInk.Room C).
Notation inl l := (binked K (laid E 0 l)).
Definition right (x : sess) (sc : iscreen) : Prop :=
  match x with
  | Running (MSearch _) _ => True
  | Running _ s => shown s sc
  | Finished _ _ _ => True
  end.
(** From the screen [sc] with state [s], whatever ink is set, the outcome [x] is painted rightly. *)
Definition P (sc : iscreen) (s : buf) (x : sess) : Prop :=
  exists ts, out (buf_of x) = out s ++ ts /\ G (buf_of x) /\ forall k, right x (D (inkify k ts) sc).

Lemma P_pre s0 s x sc ts : out s = out s0 ++ ts -> (forall k, P (D (inkify k ts) sc) s x) -> P sc s0 x.
Proof.
  intros H1 H2. destruct (H2 Before) as (t2 & O & HG & _). exists (ts ++ t2). split; [rewrite O, H1; now rewrite app_assoc|]. split; [exact HG|].
  intros k. destruct (inkify_app ts k t2) as [k' Hk]. rewrite Hk, iD_app. destruct (H2 k) as (t3 & O3 & _ & G3).
  assert (t3 = t2) by (rewrite O in O3; now apply app_inv_head in O3). subst t3. apply G3.
Qed.
Lemma P_iemits s0 s x sc vs : iemits s0 s vs -> P (D vs sc) s x -> P sc s0 x.
Proof. intros (ts & O & Hk) H. apply (P_pre s0 s x sc ts O). intros k. now rewrite Hk. Qed.
Lemma P_quiet s0 s x sc ts : out s = out s0 ++ ts -> (forall k, inkify k ts = []) -> P sc s x -> P sc s0 x.
Proof. intros O H HI. eapply P_iemits; [exists ts; split; [exact O|exact H]|exact HI]. Qed.
Lemma P_same s0 s x sc : out s = out s0 -> P sc s x -> P sc s0 x.
Proof. intros O. apply P_quiet with (ts := []); [now rewrite app_nil_r|reflexivity]. Qed.

Lemma after_P s r x sc : G s -> (r = CONTINUE -> shown s sc) -> after_command S (Some (s, r)) = Some x -> P sc s x.
Proof.
  intros HG Hsh H. pose proof HG as (_ & _ & _ & _ & Hs). unfold after_command in H.
  assert (Fin : finish S r (emit s [TCursorOn]) = Some x -> P sc s x).
  { intros Hf. unfold finish in Hf. cbn [suffix emit] in Hf. rewrite Hs in Hf. injection Hf as <-. eexists. cbn [buf_of out emit]. rewrite <- !app_assoc. split; [reflexivity|]. split; [exact HG|intros k; exact I]. }
  destruct r; try (exact (Fin H)). injection H as <-. exists [TCursorOn; TFlush]. split; [cbn; now rewrite <- app_assoc|]. split; [exact HG|].
  intros k. exact (Hsh eq_refl).
Qed.
Lemma search_wait_P ss s x sc : G s -> search_wait S ss s = Some x -> P sc s x.
Proof. unfold search_wait. intros HG H. opt H. injection H as <-. eexists. split; [reflexivity|]. split; [exact HG|intros k; exact I]. Qed.
Lemma search_cancel_P s s' : G s -> search_cancel S s = Some s' ->
  forall sc, icol sc = topc s -> exists vs, iemits s s' vs /\ shown s' (D vs sc) /\ G s'.
Proof.
  intros HG H sc Hc. pose proof HG as (HF & Hk & Hv & Hcu & Hs). unfold search_cancel in H. opt H. subst.
  apply (getView2_T C HE) in Ev as (-> & _); auto.
  pose proof (paints_fields _ _ (puts_paints C _ _ _ _ Ev0)) as (F1 & F2 & F3 & F4 & F5 & F6 & F7 & _).
  apply (puts_T C HE HB HT) in Ev0 as (Em1 & _ & _ & Hk1); [|apply HF|apply HF|apply HF].
  pose proof (paints_fields _ _ (puts_paints C _ _ _ _ H)) as (K1 & K2 & K3 & K4 & K5 & K6 & K7 & _).
  assert (L2 : line (GotoHead (eraseline b)) = line s) by exact F1.
  apply (puts_T C HE HB HT) in H as (Em2 & _ & _ & Hk2); [|rewrite L2; apply HF|rewrite L2; apply HF|rewrite L2; apply HF]. rewrite L2 in Em2. cbn [view cursor GotoHead eraseline emit] in Em2. rewrite F4, F5 in Em2.
  rewrite Hv in *. rewrite <- (zlen_inl C (line s)) in Em1. rewrite ipart_all in Em1. rewrite ipart0 in Em2. set (L := inl (line s)) in *.
  set (a := firstn (Z.to_nat (cursor s)) L) in *. assert (Hab : L = a ++ skipn (Z.to_nat (cursor s)) L) by (symmetry; apply firstn_skipn).
  exists ((om L ++ [OErase]) ++ [OGoto (topc s + 1)] ++ om a). split.
  { rewrite <- !app_assoc. eapply iemits_trans; [exact Em1|]. change ([OErase] ++ [OGoto (topc s + 1)] ++ om a) with ([OErase; OGoto (topc s + 1)] ++ om a).
    eapply (iemits_trans b (GotoHead (eraseline b))); [|exact Em2]. exists [TErase; TGoto (topc b + 1)]. split; [cbn; now rewrite <- app_assoc|]. intros k. cbn. rewrite F7. reflexivity. }
  assert (Hg : D [OGoto (topc s + 1)] sc = sc).
  { destruct sc as [c0 r0]. cbn in Hc |- *. subst c0. f_equal. lia. }
  destruct (iscreen_repaint E other (topc s) a (skipn (Z.to_nat (cursor s)) L) sc (iok_any C HE _)) as (S1 & S2).
  rewrite <- Hab in S1, S2. rewrite <- !app_assoc in S1, S2. rewrite iD_app, Hg in S1, S2.
  assert (FL : line s' = line s) by (exact (eq_trans K1 F1)). cbn [suffix view cursor topc termw GotoHead eraseline emit] in K3, K4, K5, K6, K7.
  rewrite <- !app_assoc. split; [split|].
  - rewrite FL, K7, F7. exact S1.
  - rewrite FL, K7, F7, K5, F5, S2. unfold a, L. now rewrite IW_inl.
  - split; [apply (Fit_same C s); congruence|]. split; [exact (Hk2 (Hk1 Hk))|]. rewrite K4, K5, K3, FL, F3, F4, F5. auto.
Qed.
Lemma Room_line s s' : line s' = line s -> termw s' = termw s -> Room s' -> Room s.
Proof. unfold TabInk.Room. now intros -> ->. Qed.
Lemma step_P e x x' sc : step S e x = Some x' -> G (buf_of x) -> right x sc -> Room (buf_of x') -> steady_tabs S e x -> late_swap S e x -> P sc (buf_of x) x'.
Proof.
  intros H HG Hm Hroom Hst Hls. destruct x as [m s|s t r].
  2:{ cbn in H. injection H as <-. exists []. split; [now rewrite app_nil_r|]. split; [exact HG|intros k; exact I]. }
  cbn [buf_of] in HG |- *.
  destruct e as [k| |w|c].
  - cbn [step] in H. destruct m as [| |ss].
    + unfold key_normal in H. set (s0 := emit s [TCursorOff]) in *.
      apply (P_quiet s s0 x' sc [TCursorOff]); [reflexivity|reflexivity|].
      cbn [steady_tabs] in Hst. cbn [late_swap] in Hls. pose proof (HO k) as Hbk.
      assert (Hexec : forall c, c = LookupCommand (kmap S) (gmap S) k -> after_command S (exec C c s0) = Some x' -> P sc s0 x').
      { intros c Hc Ha. destruct (exec C c s0) as [[s1 r]|] eqn:Hex; [|discriminate]. destruct (TabScreenSess.after_line S _ _ _ Ha) as [AL AT].
        assert (Hci : c = CInterrupt \/ c <> CInterrupt) by (destruct c; (now left) || (right; discriminate)). destruct Hci as [Hci|Hci].
        - rewrite Hci in Hex. cbn in Hex. injection Hex as <- <-. set (s1 := set_undoes _ _) in *.
          assert (HG1 : G s1).
          { pose proof HG as (HF & _ & Hv & _ & Hs). split; [apply (Fit_nil C HE s _ HF); reflexivity|]. split; [constructor|]. cbn. repeat split; auto; apply Z.le_refl. }
          apply (P_same s0 s1); [reflexivity|]. eapply after_P; [exact HG1| |exact Ha]. discriminate.
        - destruct (exec_T C HE HP HB HT other c s0 s1 r) as (HR & HG1 & HT1); auto.
          + intros f Hf. apply (Hbk f). congruence.
          + intros Hf. rewrite Hf in Hc. split; [apply Hst; congruence|apply Hls; congruence].
          + apply (Room_line s1 (buf_of x')); auto.
          + destruct (HR sc Hm) as (vs & O & Sh). eapply P_iemits; [exact O|]. eapply after_P; [exact HG1|auto|exact Ha]. }
      destruct (LookupCommand (kmap S) (gmap S) k) eqn:Hk; try (eapply Hexec; [reflexivity|exact H]).
      * injection H as <-. exists [TCursorOn; TFlush]. split; [reflexivity|]. split; [exact HG|]. intros k0. exact Hm.
      * apply (P_pre s0 (GotoHead s0) x' sc [TGoto (topc s0 + 1)]); [reflexivity|]. intros k0. eapply search_wait_P; [exact HG|exact H].
    + unfold key_quoted in H. destruct (selfInsert C k s) as [s1|] eqn:Hsi; [|discriminate]. destruct (TabScreenSess.after_line S _ _ _ H) as [AL AT].
      destruct (selfInsert_T C HE HP HB HT other k s s1) as (HR & HG1 & HT1); auto.
      * apply (Room_line s1 (buf_of x')); auto.
      * destruct (HR sc Hm) as (vs & O & Sh). eapply P_iemits; [exact O|]. apply (P_quiet s1 (emit s1 [TCursorOff]) x' _ [TCursorOff]); [reflexivity|reflexivity|]. eapply after_P; [exact HG1|auto|exact H].
    + unfold key_search in H. cbv zeta in H. set (s1 := GotoHead (emit s [TCursorOff])) in *. opt H.
      apply (P_iemits s s1 x' sc [OGoto (topc s + 1)]); [exists [TCursorOff; TGoto (topc s + 1)]; split; [unfold s1; cbn; now rewrite <- app_assoc|reflexivity]|].
      set (sc1 := D [OGoto (topc s + 1)] sc). assert (C1 : icol sc1 = topc s1) by (cbn; lia). assert (HG1 : G s1) by exact HG.
      destruct s0 as [ss'| |].
      * eapply search_wait_P; [exact HG1|exact H].
      * destruct (search_accept S ss s1) as [s2|] eqn:Hsa; [|discriminate]. destruct (TabScreenSess.after_line S _ _ _ H) as [AL AT]. unfold search_accept in Hsa.
        set (s3 := set_cursor _ 0) in Hsa. destruct HG1 as (G1 & G2 & G3 & G4 & G5).
        destruct (Replace_T C HE HP HB HT other s3 0 (ss_found ss) s2) as (HR & HG2 & HT2).
        -- apply G1.
        -- constructor.
        -- exact G5.
        -- exact Hsa.
        -- apply (Room_line s2 (buf_of x')); auto.
        -- destruct (HR sc1) as (vs & O & Sh). apply (P_iemits s1 s2 x' sc1 vs O). eapply after_P; [exact HG2|auto|exact H].
      * destruct (search_cancel S s1) as [s2|] eqn:Hsc; [|discriminate].
        destruct (search_cancel_P s1 s2 HG1 Hsc sc1 C1) as (vs & O & Sh & HG2).
        eapply P_iemits; [exact O|]. eapply after_P; [exact HG2|auto|exact H].
  - cbn [step] in H. destruct m as [| |ss].
    + injection H as <-. exists [TCursorOn; TFlush]. split; [reflexivity|]. split; [exact HG|intros k; exact I].
    + apply (P_quiet s (emit s [TCursorOff]) x' sc [TCursorOff]); [reflexivity|reflexivity|]. eapply after_P; [exact HG|intros _; exact Hm|exact H].
    + destruct Hst.
  - cbn [step] in H. destruct m as [| |ss]; [|injection H as <-; exists []; split; [now rewrite app_nil_r|]; split; [exact HG|intros k; exact Hm]..].
    opt H. injection H as <-. cbn [buf_of] in *. unfold on_resize, RepaintLastLine in Ev.
    set (ts0 := [TFlush; TPrompt (last_line_prompt (prompt C))]) in Ev.
    change (repaint C (ResetViewStart C (emit (set_termw s w) ts0)) = Some b) in Ev.
    pose proof HG as (G1 & G2 & G3 & G4 & G5).
    destruct (reset_T C HE HP HB HT other (emit (set_termw s w) ts0) b Ev (proj1 (proj2 G1)) Hroom G2 G5) as (HR & HG1 & HT1).
    apply (P_pre s (emit (set_termw s w) ts0) _ sc ts0); [reflexivity|]. intros k. destruct (HR (D (inkify k ts0) sc)) as (vs & (ts & O & Ek) & Sh).
    exists ts. split; [exact O|]. split; [exact HG1|]. intros k0. rewrite Ek. exact Sh.
  - cbn [step] in H. injection H as <-. exists []. split; [now rewrite app_nil_r|]. split; [exact HG|]. intros k. destruct m; exact Hm.
Qed.
Lemma start_P default cur w cl x : start S default cur w cl = Some x -> Room (buf_of x) ->
  G (buf_of x) /\ forall k sc, right x (D (inkify k (out (buf_of x))) sc).
Proof.
  intros H Hroom. unfold start in H. destruct (callPromptWriter E (prompt C)) as [t p] eqn:Hpw. opt H. injection H as <-. cbn [buf_of] in *.
  set (s0 := mkBuf [] None 0 cur w 0 (zlen (hist C)) [] [] [] cl []) in *. set (s1 := set_topc (emit s0 [TPrompt t]) p) in *.
  set (s2 := if termw s1 - 3 <=? topc s1 then set_topc (emit s1 [TNewline]) 0 else s1) in *.
  unfold InsertString in Ev. opt Ev. injection Ev as <- <-. pose proof (TabScreen.units_le C HE _ _ _ _ _ Ev1) as HU. apply insert_shape in Ev1 as (l0 & us & -> & _).
  unfold RepaintAfterPrompt in Ev0. set (s4 := if zlen (cells _) <? _ then _ else _) in *. pose proof (TabScreen.repaint_line C HP _ _ Ev0) as (RL & RT & _).
  assert (T4 : termw s4 = w) by (unfold s4, s2; destruct (_ <=? _); destruct (_ <? _); reflexivity).
  assert (L4 : line s4 = line (set_undoes (set_cells s2 l0) us) /\ cells s4 = cells (set_undoes (set_cells s2 l0) us)) by (unfold s4; destruct (_ <? _); split; reflexivity). destruct L4 as [L4 K4].
  assert (T2 : s2 = s1).
  { unfold s2. destruct (termw s1 - 3 <=? topc s1) eqn:Hx; [|reflexivity]. exfalso. destruct Hroom as (_ & Hw & _). unfold PW in Hw. rewrite Hpw in Hw. cbn [snd termw emit] in Hw.
    change (termw (ResetViewStart C s4)) with (termw s4) in RT. pose proof (TabScreen.W_pos C HE (line (emit b0 [TCursorOn; TFlush]))). cbn in Hx. lia. }
  assert (T5 : topc s4 = p /\ suffix s4 = None /\ out s4 = [TPrompt t]) by (unfold s4; rewrite T2; match goal with |- context [if ?c then _ else _] => case c end; repeat split; reflexivity). destruct T5 as (T5 & T6 & T7).
  change (line (ResetViewStart C s4)) with (line s4) in RL.
  destruct HU as [HU _]; [rewrite <- L4, <- RL; apply Hroom|unfold s2; destruct (_ <=? _); constructor|].
  destruct (reset_T C HE HP HB HT other s4 b0 Ev0) as (HR & HG1 & HT1).
  - rewrite T5, Hpw. reflexivity.
  - exact Hroom.
  - rewrite K4. exact HU.
  - exact T6.
  - split; [exact HG1|]. intros k sc. destruct (HR (D (inkify k [TPrompt t]) sc)) as (vs & (ts & O & Ek) & Sh). cbn [out emit]. rewrite O, T7.
    rewrite <- app_assoc. destruct (inkify_app [TPrompt t] k (ts ++ [TCursorOn; TFlush])) as [k1 ->].
    destruct (inkify_app ts k1 [TCursorOn; TFlush]) as [k2 ->]. rewrite Ek. cbn [inkify]. rewrite app_nil_r, iD_app. exact Sh.
Qed.

Lemma heard_room x : reached S x -> fits_tabs S x -> plain_colours S x -> Room (buf_of x).
Proof.
  intros HR (H1 & H2 & H3) Hp. split; [exact H1|]. split; [exact H2|]. split; [exact H3|]. split; [|exact Hp]. apply (reached_valid S x); [now apply builtin_scripted|exact HR].
Qed.
Lemma heard_here es x : heard_run S es x -> plain_colours S x. Proof. destruct es; cbn; tauto. Qed.
Lemma run_P es : forall x x' sc k, reached S x -> run S es x = Some x' -> calm_tabs S es x -> heard_run S es x -> G (buf_of x) ->
  right x (D (inkify k (out (buf_of x))) sc) -> right x' (D (inkify k (out (buf_of x'))) sc).
Proof.
  induction es as [|e es IH]; intros x x' sc k HR H Hc Hh Hg Hi; cbn [run] in H; [injection H as <-; exact Hi|]. opt H.
  destruct Hc as (Hr & Hst & Hn). destruct Hh as (Hp & Hls & Hh). specialize (Hn _ Ev). specialize (Hh _ Ev).
  assert (HR' : reached S s) by (eapply reached_step; eauto).
  destruct (step_P e x s (D (inkify k (out (buf_of x))) sc) Ev Hg Hi) as (ts & O & Hg' & I2).
  - apply heard_room; [exact HR'|now apply (TabScreenSess.calm_roomy S es)|now apply (heard_here es)].
  - exact Hst.
  - exact Hls.
  - eapply (IH s x' sc k); eauto. rewrite O. destruct (inkify_app (out (buf_of x)) k ts) as [k' ->]. rewrite iD_app. apply I2.
Qed.
Lemma readline_P default cur w cl es x :
  (forall x0, start S default cur w cl = Some x0 -> calm_tabs S es x0 /\ heard_run S es x0) -> readline S default cur w cl es = Some x ->
  forall sc, right x (D (inkify Before (out (buf_of x))) sc).
Proof.
  intros Hc H sc. unfold readline in H. opt H. destruct (Hc _ eq_refl) as [Hcl Hh].
  assert (HR : reached S s) by (exists default, cur, w, cl, []; unfold readline; now rewrite Ev).
  destruct (start_P default cur w cl s Ev) as [Hg Hs].
  { apply heard_room; [exact HR|now apply (TabScreenSess.calm_roomy S es)|now apply (heard_here es)]. }
  eapply run_P; eauto.
Qed.
Lemma right_tabs x sc : reached S x -> right x sc -> tab_inks_right C x sc.
Proof.
  intros HR. assert (HV : Forall moji_valid (line (buf_of x))) by (apply (reached_valid S x); [now apply builtin_scripted|exact HR]).
  destruct x as [[| |ss] s|s t r]; cbn [right tab_inks_right buf_of] in *; auto;
    (intros [H1 H2]; split; [|exact H2]; now rewrite (inked_blind K HB) by (now apply valid_laid)).
Qed.
End Sess.

Lemma screen_ink_tabs S default cur w cl es x :
  sane_widths (cE (base S)) -> only_builtin S -> pcolor0 (base S) = [] -> blind (ccol (base S)) -> true_colours (ccol (base S)) ->
  (forall x0, start S default cur w cl = Some x0 -> calm_tabs S es x0 /\ heard_run S es x0) ->
  readline S default cur w cl es = Some x ->
  forall other sc, tab_inks_right (base S) x (idisplay (cE (base S)) other (inkify Before (out (buf_of x))) sc).
Proof.
  intros HE HO HP HB HT Hc H other sc. apply right_tabs; auto; [now exists default, cur, w, cl, es|]. eapply readline_P; eauto.
Qed.
