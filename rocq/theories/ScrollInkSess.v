(** The colours on the screen through a whole session of lines with tabs that may scroll. *)
From Verif Require Import Base Utf8 Moji Color Prompt Buffer Commands KeyMap Session MojiFacts Abs AbsRef AbsSess
  AbsSafe AbsInv Safe SafeSess Plain Spec SpecScript Reach SafetyFacts SpecScreen SpecTabScreen SpecTabScroll ScreenFacts ScreenPaint ScreenCmd SpecLib SpecPaint PaintFacts ColorFacts TermFacts HistFacts
  SpecInk InkFacts InkPaint SpecScrollInk ScrollInk.
From Verif Require TabScreen TabScroll TabScrollSess TabScreenSess TabInk TabInkSess InkSess.
From Verif Require Import Session Spec SpecScreen.
Ltac lia := unfold rune in *; Lia.lia.

Section Sess.
Variable S : scfg.
Notation C := (base S).
Notation E := (cE C).
Notation K := (ccol C).
Hypothesis HE : env_ok E.
Hypothesis HB : blind K.
Hypothesis HT : true_colours K.
Hypothesis HO : only_builtin S.
Variable other : iterminal.
Notation D := (idisplay E other).
Notation shown := (ScrollInk.shown C).
Notation G := (ScrollInk.G C).
Notation Room := (ScrollInk.Room C).
Notation inl l := (binked K (laid E 0 l)).
Definition fine (x : sess) : Prop := match x with Running _ s => G s | Finished _ _ _ => True end.
Definition right (x : sess) (sc : iscreen) : Prop :=
  match x with
  | Running (MSearch _) _ => True
  | Running _ s => shown s sc
  | Finished _ _ _ => True
  end.
(** From the screen [sc] with state [s], whatever ink is set, the outcome [x] is painted rightly. *)
Definition P (sc : iscreen) (s : buf) (x : sess) : Prop :=
  exists ts, out (buf_of x) = out s ++ ts /\ fine x /\ forall k, right x (D (inkify k ts) sc).

Lemma P_pre s0 s x sc ts : out s = out s0 ++ ts -> (forall k, P (D (inkify k ts) sc) s x) -> P sc s0 x.
Proof.
  intros H1 H2. destruct (H2 Before) as (t2 & O & HG & _). exists (ts ++ t2). split; [rewrite O, H1; now rewrite app_assoc|]. split; [exact HG|].
  intros k. destruct (inkify_app ts k t2) as [k' Hk]. rewrite Hk, iD_app. destruct (H2 k) as (t3 & O3 & _ & G3).
  assert (t3 = t2) by (rewrite O in O3; now apply app_inv_head in O3). subst t3. apply G3.
Qed.
Lemma P_iemits s0 s x sc vs : iemits s0 s vs -> P (D vs sc) s x -> P sc s0 x.
Proof. intros (ts & O & Hk) H. apply (P_pre s0 s x sc ts O). intros k. now rewrite Hk. Qed.
Lemma P_quiet s0 s x sc ts : out s = out s0 ++ ts -> (forall k, inkify k ts = []) -> P sc s x -> P sc s0 x.
Proof. intros O H HI. eapply P_iemits; [exists ts; split; [exact O|exact H]|exact HI]. Qed.

Lemma finish_P rc s x sc : finish S rc s = Some x -> P sc s x.
Proof. intros H. apply (InkSess.finish_out S) in H as (s1 & t & e & ts & -> & O). exists ts. split; [exact O|]. split; [exact I|intros k; exact I]. Qed.
Lemma after_P s r x sc : G s -> (r = CONTINUE -> shown s sc) -> after_command S (Some (s, r)) = Some x -> P sc s x.
Proof.
  intros HG Hsh H. unfold after_command in H.
  assert (Fin : finish S r (emit s [TCursorOn]) = Some x -> P sc s x).
  { intros Hf. apply (P_quiet s (emit s [TCursorOn]) x sc [TCursorOn]); [reflexivity|reflexivity|]. eapply finish_P; exact Hf. }
  destruct r; try (exact (Fin H)). injection H as <-. exists [TCursorOn; TFlush]. split; [cbn; now rewrite <- app_assoc|]. split; [exact HG|].
  intros k. exact (Hsh eq_refl).
Qed.
Lemma after_line s r x : after_command S (Some (s, r)) = Some x -> line (buf_of x) = line s.
Proof. intros H. now apply (TabScreenSess.after_line S) in H. Qed.
Lemma search_wait_P ss s x sc : G s -> search_wait S ss s = Some x -> P sc s x.
Proof. unfold search_wait. intros HG H. opt H. injection H as <-. eexists. split; [reflexivity|]. split; [exact HG|intros k; exact I]. Qed.
Lemma search_cancel_P s s' : G s -> search_cancel S s = Some s' ->
  forall sc, icol sc = topc s -> exists vs, iemits s s' vs /\ shown s' (D vs sc) /\ G s'.
Proof.
  intros HG H sc Hc. pose proof HG as (((HR & Hv & Hcu) & _) & Hn). assert (HR2 : Room s) by (split; assumption).
  assert (Gs' : G s').
  { destruct (TabScrollSess.search_cancel_Q S HE (mkTerminal (fun _ sc => sc) (fun _ _ _ => Blank)) s s' (proj1 HG) H (mkScreen (topc s) (fun _ => Blank)) eq_refl) as (_ & _ & _ & X). split; [exact X|].
    unfold search_cancel in H. opt H. subst. pose proof (paints_fields _ _ (puts_paints C _ _ _ _ Ev0)) as (F1 & _). pose proof (paints_fields _ _ (puts_paints C _ _ _ _ H)) as (K1 & _).
    assert (FL : line s' = line s) by (exact (eq_trans K1 F1)). now rewrite FL. }
  unfold search_cancel in H. opt H. subst.
  pose proof (paints_fields _ _ (puts_paints C _ _ _ _ Ev0)) as (F1 & F2 & F3 & F4 & F5 & F6 & F7 & _).
  apply (puts_I C HE HB HT) in Ev0 as (Em1 & B1 & B2); [|exact HR2].
  pose proof (paints_fields _ _ (puts_paints C _ _ _ _ H)) as (K1 & K2 & K3 & K4 & K5 & K6 & K7 & _).
  assert (L2 : line (GotoHead (eraseline b)) = line s) by exact F1.
  apply (puts_I C HE HB HT) in H as (Em2 & B3 & B4); [|apply (Room_same C s); [exact L2|exact HR2]]. rewrite L2 in Em2. cbn [view cursor GotoHead eraseline emit] in Em2, B3. rewrite F4, F5 in Em2.
  set (L := inl (line s)) in *.
  match type of Em1 with iemits _ _ (om (ipart L (view s) ?e)) => set (en := e) in * end.
  set (a := ipart L (view s) (cursor s)) in *.
  exists ((om (ipart L (view s) en) ++ [OErase]) ++ [OGoto (topc s + 1)] ++ om a). split.
  { rewrite <- !app_assoc. eapply iemits_trans; [exact Em1|]. change ([OErase] ++ [OGoto (topc s + 1)] ++ om a) with ([OErase; OGoto (topc s + 1)] ++ om a).
    eapply (iemits_trans b (GotoHead (eraseline b))); [|exact Em2]. exists [TErase; TGoto (topc b + 1)]. split; [cbn; now rewrite <- app_assoc|]. intros k. cbn. rewrite F7. reflexivity. }
  assert (Hg : D [OGoto (topc s + 1)] sc = sc).
  { destruct sc as [c0 r0]. cbn in Hc |- *. subst c0. f_equal. lia. }
  destruct (iscreen_row E other (topc s) (ipart L (view s) en) sc (TabInk.iok_any C HE _)) as (S1 & S2). rewrite iD_app, Hg in S1, S2.
  rewrite !iD_app in *. set (sc1 := D [OErase] _) in *.
  assert (FL : line s' = line s) by (exact (eq_trans K1 F1)). cbn [suffix view cursor topc termw GotoHead eraseline emit] in K3, K4, K5, K6, K7.
  split; [|exact Gs'].
  exists (Z.max en (cursor s)), []. rewrite FL, K7, F7, K4, F4, K5, F5, app_nil_r. fold L. split; [lia|]. split; [now left|]. split.
  - apply (over C HE); try lia; [exact S1|cbn; lia].
  - rewrite icol_tm. cbn. fold a. lia.
Qed.
Lemma Room_line s s' : line s' = line s -> Room s' -> Room s.
Proof. intros H. apply (Room_same C). now symmetry. Qed.
Lemma step_P e x x' sc : step S e x = Some x' -> fine x -> right x sc -> Room (buf_of x') -> steady_scroll S e x -> late_swap S e x -> P sc (buf_of x) x'.
Proof.
  intros H HG Hm Hroom Hst Hls. destruct x as [m s|s t r].
  2:{ cbn in H. injection H as <-. exists []. split; [now rewrite app_nil_r|]. split; [exact I|intros k; exact I]. }
  cbn [buf_of fine] in HG |- *.
  destruct e as [k| |w|c].
  - cbn [step] in H. destruct m as [| |ss].
    + unfold key_normal in H. set (s0 := emit s [TCursorOff]) in *.
      apply (P_quiet s s0 x' sc [TCursorOff]); [reflexivity|reflexivity|].
      cbn [steady_scroll] in Hst. cbn [late_swap] in Hls. pose proof (HO k) as Hbk.
      assert (Hexec : forall c, c = LookupCommand (kmap S) (gmap S) k -> after_command S (exec C c s0) = Some x' -> P sc s0 x').
      { intros c Hc Ha. destruct (exec C c s0) as [[s1 r]|] eqn:Hex; [|discriminate]. pose proof (after_line _ _ _ Ha) as AL.
        assert (Hci : c = CInterrupt \/ c <> CInterrupt) by (destruct c; (now left) || (right; discriminate)). destruct Hci as [Hci|Hci].
        - rewrite Hci in Hex. cbn in Hex. injection Hex as <- <-. set (s1 := set_undoes _ _) in *.
          unfold after_command in Ha. apply (InkSess.finish_out S) in Ha as (s2 & t & e & ts & -> & O). exists ([TCursorOn] ++ ts). split; [cbn [buf_of]; rewrite O; cbn; now rewrite <- app_assoc|]. split; [exact I|intros k0; exact I].
        - destruct (exec_I C HE HB HT other c s0 s1 r) as (HR & HG1); auto.
          + intros f Hf. apply (Hbk f). congruence.
          + intros Hf. rewrite Hf in Hc. split; [apply Hst; congruence|apply Hls; congruence].
          + apply (Room_line s1 (buf_of x')); auto.
          + destruct (HR sc Hm) as (vs & O & Sh). eapply P_iemits; [exact O|]. eapply after_P; [exact HG1|auto|exact Ha]. }
      destruct (LookupCommand (kmap S) (gmap S) k) eqn:Hk; try (eapply Hexec; [reflexivity|exact H]).
      * injection H as <-. exists [TCursorOn; TFlush]. split; [reflexivity|]. split; [exact HG|]. intros k0. exact Hm.
      * apply (P_pre s0 (GotoHead s0) x' sc [TGoto (topc s0 + 1)]); [reflexivity|]. intros k0. eapply search_wait_P; [exact HG|exact H].
    + unfold key_quoted in H. destruct (selfInsert C k s) as [s1|] eqn:Hsi; [|discriminate]. pose proof (after_line _ _ _ H) as AL.
      assert (R1 : Room s1) by (apply (Room_line s1 (buf_of x')); auto).
      pose proof (selfInsert_I C HE HB HT other k s s1 HG Hsi R1) as HR.
      assert (HG1 : G s1).
      { split; [|apply R1]. apply (TabScroll.selfInsert_S C HE (mkTerminal (fun _ sc => sc) (fun _ _ _ => Blank)) k s s1); [apply HG|exact Hsi|apply R1]. }
      destruct (HR sc Hm) as (vs & O & Sh). eapply P_iemits; [exact O|]. apply (P_quiet s1 (emit s1 [TCursorOff]) x' _ [TCursorOff]); [reflexivity|reflexivity|]. eapply after_P; [exact HG1|auto|exact H].
    + unfold key_search in H. cbv zeta in H. set (s1 := GotoHead (emit s [TCursorOff])) in *. opt H.
      apply (P_iemits s s1 x' sc [OGoto (topc s + 1)]); [exists [TCursorOff; TGoto (topc s + 1)]; split; [unfold s1; cbn; now rewrite <- app_assoc|reflexivity]|].
      set (sc1 := D [OGoto (topc s + 1)] sc). assert (C1 : icol sc1 = topc s1) by (cbn; lia). assert (HG1 : G s1) by exact HG.
      destruct s0 as [ss'| |].
      * eapply search_wait_P; [exact HG1|exact H].
      * destruct (search_accept S ss s1) as [s2|] eqn:Hsa; [|discriminate]. pose proof (after_line _ _ _ H) as AL. unfold search_accept in Hsa.
        set (s3 := set_cursor _ 0) in Hsa. assert (R2 : Room s2) by (apply (Room_line s2 (buf_of x')); auto).
        pose proof (Replace_I C HE HB HT other s3 0 (ss_found ss) s2 Hsa R2) as HR.
        assert (HG2 : G s2).
        { split; [|apply R2]. apply (TabScroll.Replace_S C HE (mkTerminal (fun _ sc => sc) (fun _ _ _ => Blank)) s3 0 (ss_found ss) s2 Hsa (proj1 R2)). }
        destruct (HR sc1) as (vs & O & Sh). apply (P_iemits s1 s2 x' sc1 vs O). eapply after_P; [exact HG2|auto|exact H].
      * destruct (search_cancel S s1) as [s2|] eqn:Hsc; [|discriminate].
        destruct (search_cancel_P s1 s2 HG1 Hsc sc1 C1) as (vs & O & Sh & HG2).
        eapply P_iemits; [exact O|]. eapply after_P; [exact HG2|auto|exact H].
  - cbn [step] in H. destruct m as [| |ss].
    + injection H as <-. exists [TCursorOn; TFlush]. split; [reflexivity|]. split; [exact I|intros k; exact I].
    + apply (P_quiet s (emit s [TCursorOff]) x' sc [TCursorOff]); [reflexivity|reflexivity|]. eapply after_P; [exact HG|intros _; exact Hm|exact H].
    + destruct Hst.
  - cbn [step] in H. destruct m as [| |ss]; [|injection H as <-; exists []; split; [now rewrite app_nil_r|]; split; [exact HG|intros k; exact Hm]..].
    opt H. injection H as <-. cbn [buf_of] in *. unfold on_resize, RepaintLastLine in Ev.
    set (ts0 := [TFlush; TPrompt (last_line_prompt (prompt C))]) in Ev.
    change (repaint C (ResetViewStart C (emit (set_termw s w) ts0)) = Some b) in Ev.
    pose proof (repaint_I C HE HB HT other _ _ Ev Hroom (TabScroll.ready_reset C _)) as HR.
    assert (HG1 : G b).
    { split; [|apply Hroom]. apply (TabScroll.repaint_S C HE (mkTerminal (fun _ sc => sc) (fun _ _ _ => Blank)) _ _ Ev (proj1 Hroom) (TabScroll.ready_reset C _)). }
    apply (P_pre s (emit (set_termw s w) ts0) _ sc ts0); [reflexivity|]. intros k. destruct (HR (D (inkify k ts0) sc)) as (vs & (ts & O & Ek) & Sh).
    exists ts. split; [exact O|]. split; [exact HG1|]. intros k0. rewrite Ek. exact Sh.
  - cbn [step] in H. injection H as <-. exists []. split; [now rewrite app_nil_r|]. split; [exact HG|]. intros k. destruct m; exact Hm.
Qed.
Lemma start_P default cur w cl x : start S default cur w cl = Some x -> Room (buf_of x) ->
  fine x /\ forall k sc, right x (D (inkify k (out (buf_of x))) sc).
Proof.
  intros H Hroom. unfold start in H. destruct (callPromptWriter E (prompt C)) as [t p] eqn:Hpw. opt H. injection H as <-. cbn [buf_of fine] in *.
  set (s0 := mkBuf [] None 0 cur w 0 (zlen (hist C)) [] [] [] cl []) in *. set (s1 := set_topc (emit s0 [TPrompt t]) p) in *.
  set (s2 := if termw s1 - 3 <=? topc s1 then set_topc (emit s1 [TNewline]) 0 else s1) in *.
  unfold InsertString in Ev. opt Ev. injection Ev as <- <-. apply insert_shape in Ev1 as (l0 & us & -> & _).
  unfold RepaintAfterPrompt in Ev0. set (s4 := if zlen (cells _) <? _ then _ else _) in *.
  assert (R0' : Room b0) by exact Hroom.
  pose proof (repaint_I C HE HB HT other _ b0 Ev0 R0' (TabScroll.ready_reset C _)) as HR.
  split.
  - split; [|apply Hroom]. apply (TabScroll.repaint_S C HE (mkTerminal (fun _ sc => sc) (fun _ _ _ => Blank)) _ b0 Ev0 (proj1 R0') (TabScroll.ready_reset C _)).
  - intros k sc. set (o4 := out (ResetViewStart C s4)) in *. destruct (HR (D (inkify k o4) sc)) as (vs & (ts & O & Ek) & Sh). cbn [out emit]. rewrite O.
    fold o4. rewrite <- app_assoc. destruct (inkify_app o4 k (ts ++ [TCursorOn; TFlush])) as [k1 ->].
    destruct (inkify_app ts k1 [TCursorOn; TFlush]) as [k2 ->]. rewrite Ek. cbn [inkify]. rewrite app_nil_r, iD_app. exact Sh.
Qed.

Lemma heard_room x : reached S x -> tabs_apart S x -> plain_colours S x -> Room (buf_of x).
Proof.
  intros HR H1 Hp. split; [exact H1|]. split; [|exact Hp]. apply (reached_valid S x); [now apply builtin_scripted|exact HR].
Qed.
Lemma run_P es : forall x x' sc k, reached S x -> run S es x = Some x' -> calm_scroll S es x -> heard_run S es x -> fine x ->
  right x (D (inkify k (out (buf_of x))) sc) -> right x' (D (inkify k (out (buf_of x'))) sc).
Proof.
  induction es as [|e es IH]; intros x x' sc k HR H Hc Hh Hg Hi; cbn [run] in H; [injection H as <-; exact Hi|]. opt H.
  destruct Hc as (Hr & Hst & Hn). destruct Hh as (Hp & Hls & Hh). specialize (Hn _ Ev). specialize (Hh _ Ev).
  assert (HR' : reached S s) by (eapply reached_step; eauto).
  destruct (step_P e x s (D (inkify k (out (buf_of x))) sc) Ev Hg Hi) as (ts & O & Hg' & I2).
  - apply heard_room; [exact HR'|now apply (TabScrollSess.calm_roomy S es)|now apply (TabInkSess.heard_here S es)].
  - exact Hst.
  - exact Hls.
  - eapply (IH s x' sc k); eauto. rewrite O. destruct (inkify_app (out (buf_of x)) k ts) as [k' ->]. rewrite iD_app. apply I2.
Qed.
Lemma readline_P default cur w cl es x :
  (forall x0, start S default cur w cl = Some x0 -> calm_scroll S es x0 /\ heard_run S es x0) -> readline S default cur w cl es = Some x ->
  forall sc, right x (D (inkify Before (out (buf_of x))) sc).
Proof.
  intros Hc H sc. unfold readline in H. opt H. destruct (Hc _ eq_refl) as [Hcl Hh].
  assert (HR : reached S s) by (exists default, cur, w, cl, []; unfold readline; now rewrite Ev).
  destruct (start_P default cur w cl s Ev) as [Hg Hs].
  { apply heard_room; [exact HR|now apply (TabScrollSess.calm_roomy S es)|now apply (TabInkSess.heard_here S es)]. }
  eapply run_P; eauto.
Qed.
Lemma right_scroll x sc : reached S x -> right x sc -> scroll_inks_right C x sc.
Proof.
  intros HR. assert (HV : Forall moji_valid (line (buf_of x))) by (apply (reached_valid S x); [now apply builtin_scripted|exact HR]).
  destruct x as [[| |ss] s|s t r]; cbn [right scroll_inks_right buf_of] in *; auto;
    (intros (k & pr & H1 & H2 & H3 & H4); exists k, pr; rewrite (inked_blind K HB) by (now apply TabInk.valid_laid); split; [exact H1|]; split; [exact H2|]; split; [exact H3|]; rewrite <- IW_ipart; exact H4).
Qed.
End Sess.

Lemma screen_ink_scroll S default cur w cl es x :
  sane_widths (cE (base S)) -> only_builtin S -> blind (ccol (base S)) -> true_colours (ccol (base S)) ->
  (forall x0, start S default cur w cl = Some x0 -> calm_scroll S es x0 /\ heard_run S es x0) ->
  readline S default cur w cl es = Some x ->
  forall other sc, scroll_inks_right (base S) x (idisplay (cE (base S)) other (inkify Before (out (buf_of x))) sc).
Proof.
  intros HE HO HB HT Hc H other sc. apply right_scroll; auto; [now exists default, cur, w, cl, es|]. eapply readline_P; eauto.
Qed.
