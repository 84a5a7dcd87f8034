(** The screen through a whole session of lines with tabs that may scroll. *)
From Verif Require Import Base Utf8 Moji Color Prompt Buffer Commands KeyMap Session MojiFacts Abs AbsRef AbsSess
  AbsSafe AbsInv Safe SafeSess Spec SpecScreen SpecTabScreen SpecTabScroll ScreenFacts ScreenPaint ScreenCmd TabScreen TabScroll.
From Verif Require TabScreenSess InkSess.
Ltac lia := unfold rune in *; Lia.lia.

Section Sess.
Variable S : scfg.
Notation C := (base S).
Notation E := (cE C).
Hypothesis HE : env_ok E.
Variable other : terminal.
Notation D := (display E other).
Notation W := (total_width E).
Notation shown := (shows_scrolled E).
Notation laid := (laid E).
Notation G := (TabScroll.G C).
Notation Room := (TabScroll.Room C).

Definition good (x : sess) (sc : screen) : Prop := (match x with Running _ s => G s | Finished _ _ _ => True end) /\ scrolled_right E x sc.
(** From the screen [sc] with state [s], the outcome [x] paints rightly. *)
Definition P (sc : screen) (s : buf) (x : sess) : Prop := exists ts, out (buf_of x) = out s ++ ts /\ good x (D ts sc).
Lemma P_pre s0 s x sc ts : out s = out s0 ++ ts -> P (D ts sc) s x -> P sc s0 x.
Proof. intros H1 (t2 & O & Gd). exists (ts ++ t2). split; [rewrite O, H1; now rewrite app_assoc|]. rewrite D_app. exact Gd. Qed.
Lemma quiet_D ts sc : vis ts = [] -> D ts sc = sc.
Proof. intros H. rewrite <- (D_vis C), H. reflexivity. Qed.

Lemma finish_P rc s x sc : finish S rc s = Some x -> P sc s x.
Proof.
  intros H. apply (InkSess.finish_out S) in H as (s1 & t & e & ts & -> & O). exists ts. split; [exact O|]. split; exact I.
Qed.
Lemma after_P s r x sc : G s -> (r = CONTINUE -> shown s sc) -> after_command S (Some (s, r)) = Some x -> P sc s x.
Proof.
  intros HG Hsh H. unfold after_command in H.
  assert (Fin : finish S r (emit s [TCursorOn]) = Some x -> P sc s x).
  { intros Hf. apply (P_pre s (emit s [TCursorOn]) x sc [TCursorOn]); [reflexivity|]. eapply finish_P; exact Hf. }
  destruct r; try (exact (Fin H)). injection H as <-. exists [TCursorOn; TFlush]. split; [cbn; now rewrite <- app_assoc|].
  rewrite quiet_D by reflexivity. split; [exact HG|exact (Hsh eq_refl)].
Qed.
Lemma after_line s r x : after_command S (Some (s, r)) = Some x -> line (buf_of x) = line s.
Proof. intros H. now apply (TabScreenSess.after_line S) in H. Qed.
Lemma head_same sc c : col sc = c -> D [TGoto (c + 1)] sc = sc.
Proof. intros Hc. destruct sc as [c0 r0]. cbn in Hc |- *. subst c0. f_equal. lia. Qed.
Lemma search_wait_P ss s x sc : G s -> col sc = topc s -> search_wait S ss s = Some x -> P sc s x.
Proof.
  intros HG Hc H. unfold search_wait in H. opt H. injection H as <-. exists (l ++ [TErase; TCursorOn; TFlush]). split; [reflexivity|]. split; [exact HG|]. cbn [scrolled_right].
  change (ViewWidth (emit s _)) with (ViewWidth s). intros HV.
  change (s2l "(i-search)[" ++ ss_str ss ++ s2l "]:" ++ ss_found ss) with (search_text ss) in Ev.
  destruct (TabScreenSess.search_paint_some S _ _ _ _ HV Ev) as (n & -> & HW & Hmx). set (lp := firstn n (StringToMoji E (search_text ss))) in *.
  destruct (screen_row E other (topc s) lp sc _ (ok_any C HE lp) (Z.le_refl _)) as (S1 & _ & _). rewrite D_app, (head_same sc (topc s) Hc) in S1.
  change [TErase; TCursorOn; TFlush] with ([TErase] ++ [TCursorOn; TFlush]). rewrite app_assoc, D_app, quiet_D by reflexivity.
  exists n. fold lp. split; [exact S1|]. change (ViewWidth (emit s _)) with (ViewWidth s). split; [lia|exact Hmx].
Qed.
Lemma search_cancel_Q s s' : G s -> search_cancel S s = Some s' ->
  forall sc, col sc = topc s -> exists ts, out s' = out s ++ ts /\ shown s' (D ts sc) /\ G s'.
Proof.
  intros HG H sc Hc. pose proof HG as ((HR & Hv & Hcu) & _). unfold search_cancel in H. opt H. subst.
  pose proof (paints_fields _ _ (puts_paints C _ _ _ _ Ev0)) as (F1 & F2 & F3 & F4 & F5 & F6 & F7 & _).
  apply (puts_S C HE) in Ev0 as (Em1 & B1 & B2 & _); [|exact HR].
  pose proof (paints_fields _ _ (puts_paints C _ _ _ _ H)) as (K1 & K2 & K3 & K4 & K5 & K6 & K7 & _).
  assert (L2 : line (GotoHead (eraseline b)) = line s) by exact F1.
  apply (puts_S C HE) in H as (Em2 & B3 & B4 & Hfr); [|apply (Room_same C s); [exact L2|exact HR]]. rewrite L2 in Em2. cbn [view cursor GotoHead eraseline emit] in Em2, B3. rewrite F4, F5 in Em2.
  set (L := laid 0 (line s)) in *. assert (ZL : zlen L = zlen (line s)) by apply zlen_laid.
  match type of Em1 with emits _ _ (tm (part L (view s) ?e)) => set (en := e) in * end.
  assert (Em : emits s s' ((tm (part L (view s) en) ++ [TErase]) ++ [TGoto (topc s + 1)] ++ tm (part L (view s) (cursor s)))).
  { rewrite <- !app_assoc. eapply emits_trans; [exact Em1|]. change ([TErase] ++ [TGoto (topc s + 1)] ++ ?a) with ([TErase; TGoto (topc s + 1)] ++ a).
    eapply emits_trans; [|exact Em2]. exists [TErase; TGoto (topc b + 1)]. split; [cbn; now rewrite <- app_assoc|]. cbn. rewrite F7. reflexivity. }
  destruct Em as (ts & O & V). exists ts. split; [exact O|].
  rewrite <- (D_vis C), V.
  destruct (screen_row E other (topc s) (part L (view s) en) sc _ (ok_any C HE _) (Z.le_refl _)) as (S1 & S2 & _). rewrite D_app, (head_same sc (topc s) Hc) in S1, S2.
  rewrite !D_app in *. rewrite D_goto. set (sc1 := D [TErase] _) in *.
  assert (FL : line s' = line s) by (exact (eq_trans K1 F1)). cbn [suffix view cursor topc termw GotoHead eraseline emit] in K3, K4, K5, K6, K7.
  split.
  - exists (Z.max en (cursor s)), []. rewrite FL, K7, F7, K4, F4, K5, F5, app_nil_r. fold L. split; [lia|]. split; [now left|]. split.
    + apply (over C HE); try lia; [exact S1|reflexivity].
    + rewrite col_tm. reflexivity.
  - split; [|exact Hfr]. split; [apply (Room_same C s); [exact FL|exact HR]|]. rewrite K4, K5, FL, F4, F5. auto.
Qed.

(** One event. *)
Hypothesis HB : only_builtin S.
Lemma Room_line s s' : line s' = line s -> Room s' -> Room s.
Proof. unfold TabScroll.Room. now intros ->. Qed.
Lemma step_P e x x' sc : step S e x = Some x' -> good x sc -> tabs_apart S x' -> steady_scroll S e x -> P sc (buf_of x) x'.
Proof.
  intros H Hg Hroom Hst. change (Room (buf_of x')) in Hroom.
  destruct x as [m s|s t r].
  2:{ cbn in H. injection H as <-. exists []. split; [now rewrite app_nil_r|]. exact Hg. }
  pose proof Hg as [HG Hm]. cbn [buf_of] in *.
  destruct e as [k| |w|c].
  - cbn [step] in H. destruct m as [| |ss].
    + unfold key_normal in H. cbn [scrolled_right] in Hm. set (s0 := emit s [TCursorOff]) in *.
      apply (P_pre s s0 x' sc [TCursorOff]); [reflexivity|]. rewrite quiet_D by reflexivity.
      cbn [steady_scroll] in Hst. pose proof (HB k) as Hbk.
      assert (Hexec : forall c, c = LookupCommand (kmap S) (gmap S) k -> after_command S (exec C c s0) = Some x' -> P sc s0 x').
      { intros c Hc Ha. destruct (exec C c s0) as [[s1 r]|] eqn:Hex; [|discriminate]. pose proof (after_line _ _ _ Ha) as AL.
        assert (Hci : c = CInterrupt \/ c <> CInterrupt) by (destruct c; (now left) || (right; discriminate)). destruct Hci as [Hci|Hci].
        - rewrite Hci in Hex. cbn in Hex. injection Hex as <- <-. set (s1 := set_undoes _ _) in *.
          unfold after_command in Ha. apply (InkSess.finish_out S) in Ha as (s2 & t & e & ts & -> & O). exists ([TCursorOn] ++ ts). split; [cbn [buf_of]; rewrite O; cbn; now rewrite <- app_assoc|]. split; exact I.
        - destruct (exec_S C HE other c s0 s1 r) as (HR & HG1); auto.
          + intros f Hf. apply (Hbk f). congruence.
          + intros Hf. apply Hst. congruence.
          + apply (Room_line s1 (buf_of x')); auto.
          + destruct (HR sc Hm) as (ts & O & Sh). eapply P_pre; [exact O|]. eapply after_P; [exact HG1|auto|exact Ha]. }
      destruct (LookupCommand (kmap S) (gmap S) k) eqn:Hk; try (eapply Hexec; [reflexivity|exact H]).
      * injection H as <-. exists [TCursorOn; TFlush]. split; [reflexivity|]. rewrite quiet_D by reflexivity. split; [exact HG|exact Hm].
      * apply (P_pre s0 (GotoHead s0) x' sc [TGoto (topc s0 + 1)]); [reflexivity|]. eapply search_wait_P; [exact HG|cbn; lia|exact H].
    + unfold key_quoted in H. destruct (selfInsert C k s) as [s1|] eqn:Hsi; [|discriminate]. pose proof (after_line _ _ _ H) as AL.
      destruct (selfInsert_S C HE other k s s1) as (HR & HG1); auto.
      * apply (Room_line s1 (buf_of x')); auto.
      * destruct (HR sc Hm) as (ts & O & Sh). eapply P_pre; [exact O|].
        apply (P_pre s1 (emit s1 [TCursorOff]) x' _ [TCursorOff]); [reflexivity|]. rewrite quiet_D by reflexivity. eapply after_P; [exact HG1|auto|exact H].
    + unfold key_search in H. cbv zeta in H. set (s1 := GotoHead (emit s [TCursorOff])) in *. opt H.
      apply (P_pre s s1 x' sc [TCursorOff; TGoto (topc s + 1)]); [unfold s1; cbn; now rewrite <- app_assoc|].
      set (sc1 := D [TCursorOff; TGoto (topc s + 1)] sc). assert (C1 : col sc1 = topc s1) by (cbn; lia). assert (HG1 : G s1) by exact HG.
      destruct s0 as [ss'| |].
      * eapply search_wait_P; [exact HG1|exact C1|exact H].
      * destruct (search_accept S ss s1) as [s2|] eqn:Hsa; [|discriminate]. pose proof (after_line _ _ _ H) as AL. unfold search_accept in Hsa.
        set (s3 := set_cursor _ 0) in Hsa. 
        destruct (Replace_S C HE other s3 0 (ss_found ss) s2) as (HR & HG2).
        -- exact Hsa.
        -- apply (Room_line s2 (buf_of x')); auto.
        -- destruct (HR sc1) as (ts & O & Sh). apply (P_pre s1 s2 x' sc1 ts); [exact O|]. eapply after_P; [exact HG2|auto|exact H].
      * destruct (search_cancel S s1) as [s2|] eqn:Hsc; [|discriminate].
        destruct (search_cancel_Q s1 s2 HG1 Hsc sc1 C1) as (ts & O & Sh & HG2).
        eapply P_pre; [exact O|]. eapply after_P; [exact HG2|auto|exact H].
  - cbn [step] in H. destruct m as [| |ss].
    + injection H as <-. exists [TCursorOn; TFlush]. split; [reflexivity|]. split; exact I.
    + apply (P_pre s (emit s [TCursorOff]) x' sc [TCursorOff]); [reflexivity|]. rewrite quiet_D by reflexivity. eapply after_P; [exact HG|intros _; exact Hm|exact H].
    + destruct Hst.
  - cbn [step] in H. destruct m as [| |ss]; [|injection H as <-; exists []; split; [now rewrite app_nil_r|exact Hg]..].
    opt H. injection H as <-. cbn [buf_of] in *. unfold on_resize, RepaintLastLine in Ev.
    set (ts0 := [TFlush; TPrompt (last_line_prompt (prompt C))]) in Ev.
    change (repaint C (ResetViewStart C (emit (set_termw s w) ts0)) = Some b) in Ev.
    destruct (repaint_S C HE other _ _ Ev Hroom (ready_reset C _)) as (HR & HG1).
    destruct (HR (D ts0 sc)) as (ts & O & Sh). exists (ts0 ++ ts). split; [cbn [buf_of]; rewrite O; cbn [out emit set_termw]; now rewrite app_assoc|]. split; [exact HG1|rewrite D_app; exact Sh].
  - cbn [step] in H. injection H as <-. exists []. split; [now rewrite app_nil_r|]. destruct m; exact Hg.
Qed.

Lemma start_P default cur w cl x : start S default cur w cl = Some x -> tabs_apart S x -> forall sc, good x (D (out (buf_of x)) sc).
Proof.
  intros H Hroom sc. change (Room (buf_of x)) in Hroom. unfold start in H. destruct (callPromptWriter E (prompt C)) as [t p] eqn:Hpw. opt H. injection H as <-. cbn [buf_of] in *.
  set (s0 := mkBuf [] None 0 cur w 0 (zlen (hist C)) [] [] [] cl []) in *. set (s1 := set_topc (emit s0 [TPrompt t]) p) in *.
  set (s2 := if termw s1 - 3 <=? topc s1 then set_topc (emit s1 [TNewline]) 0 else s1) in *.
  unfold InsertString in Ev. opt Ev. injection Ev as <- <-. apply insert_shape in Ev1 as (l0 & us & -> & _).
  unfold RepaintAfterPrompt in Ev0. set (s4 := if zlen (cells _) <? _ then _ else _) in *.
  destruct (repaint_S C HE other _ b0 Ev0 Hroom (ready_reset C _)) as (HR & HG1).
  split; [exact HG1|]. destruct (HR (D (out (ResetViewStart C s4)) sc)) as (ts & O & Sh). cbn [scrolled_right out emit buf_of]. rewrite O, !D_app, quiet_D by reflexivity. exact Sh.
Qed.

Lemma calm_roomy es x : calm_scroll S es x -> tabs_apart S x. Proof. destruct es; cbn; tauto. Qed.
Lemma run_P es : forall x x' sc, run S es x = Some x' -> calm_scroll S es x -> good x (D (out (buf_of x)) sc) -> good x' (D (out (buf_of x')) sc).
Proof.
  induction es as [|e es IH]; intros x x' sc H Hc Hg; cbn [run] in H; [injection H as <-; exact Hg|]. opt H. destruct Hc as (_ & Hst & Hn).
  specialize (Hn _ Ev). destruct (step_P e x s _ Ev Hg (calm_roomy _ _ Hn) Hst) as (ts & O & Gd). eapply IH; [exact H|exact Hn|]. rewrite O, D_app. exact Gd.
Qed.
Lemma readline_screen default cur w cl es x sc :
  (forall x0, start S default cur w cl = Some x0 -> calm_scroll S es x0) -> readline S default cur w cl es = Some x -> good x (D (out (buf_of x)) sc).
Proof.
  intros Hc H. unfold readline in H. opt H. specialize (Hc _ eq_refl). eapply run_P; [exact H|exact Hc|]. apply (start_P default cur w cl s Ev (calm_roomy _ _ Hc)).
Qed.
End Sess.
