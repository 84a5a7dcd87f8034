(** The editor goes by the width of the window it was told last, and by the width of the prompt. *)
From Verif Require Import Base Utf8 Moji Color Prompt Buffer Commands KeyMap Session Spec SpecWindow AbsRef Safe.
From Verif Require VtFacts SpecScreen SpecScreen ScreenProps.
Ltac lia := unfold rune in *; Lia.lia.

Ltac cas := repeat (cbv zeta in *; match goal with
  | H : Some _ = Some _ |- _ => injection H; clear H; intros; subst
  | H : None = Some _ |- _ => discriminate H
  | H : (match ?o with _ => _ end) = Some _ |- _ => destruct o eqn:?; try discriminate H
  end).
Ltac fin := repeat match goal with H : _ /\ _ |- _ => destruct H end;
  repeat match goal with
  | H : context [clip_write ?x ?y] |- _ => let cl := fresh in let Hcl := fresh in destruct (clip_write_shape x y) as [cl Hcl]; rewrite Hcl in *; clear Hcl
  | H : context [joinUndo ?x] |- _ => let cl := fresh in let Hcl := fresh in destruct (joinUndo_shape x) as [cl Hcl]; rewrite Hcl in *; clear Hcl
  | |- context [clip_write ?x ?y] => let cl := fresh in let Hcl := fresh in destruct (clip_write_shape x y) as [cl Hcl]; rewrite Hcl in *; clear Hcl
  end;
  repeat match goal with
  | H : context [termw (if ?b then _ else _)] |- _ => destruct b
  | H : context [topc (if ?b then _ else _)] |- _ => destruct b
  | H : context [termw (set_view (if ?b then _ else _) _)] |- _ => destruct b
  | H : context [termw (set_cursor (if ?b then _ else _) _)] |- _ => destruct b
  end;
  cbn [termw topc set_cells set_suffix set_view set_cursor set_topc set_hptr set_undoes set_pending set_modh set_clip emit push_undo GotoHead eraseline ResetViewStart] in *.

Section W.
Variable C : cfg.
Notation E := (cE C).
Definition pwid : Z := snd (callPromptWriter E (prompt C)).
Definition same (s s' : buf) : Prop := termw s' = termw s /\ topc s' = topc s.
Definition kept (s s' : buf) : Prop := termw s' = termw s /\ (topc s' = topc s \/ topc s' = pwid).

Lemma paints_same s s' : paints s s' -> same s s'.
Proof. intros (l & ts & -> & _). split; reflexivity. Qed.
Lemma puts_same s a b s' : puts C s a b = Some s' -> same s s'.
Proof. intros H. eapply paints_same, puts_paints; exact H. Qed.
Lemma repaintW_same s s' : repaintWithoutUpdateSuffix C s = Some s' -> same s s'.
Proof. intros H. apply paints_same. eapply repaintW_paints; exact H. Qed.
Lemma repaint_same s s' : repaint C s = Some s' -> same s s'.
Proof. unfold repaint. intros H. apply repaintW_same in H. destruct (updateSuffix_fields C s) as [x Hx]. rewrite Hx in H. exact H. Qed.
Lemma Delete_same s p n s' w : Delete C s p n = Some (s', w) -> same s s'.
Proof. unfold Delete. intros H. cas; split; reflexivity. Qed.
Lemma insertS_same s p t s' l : insertString C s p t = Some (s', l) -> same s s'.
Proof. unfold insertString, insert. intros H. cas. split; reflexivity. Qed.
Lemma InsertS_same s p t s' l : InsertString C s p t = Some (s', l) -> same s s'.
Proof. unfold InsertString. intros H. cas. eapply insertS_same; eauto. Qed.

Ltac prims := repeat match goal with
  | H : puts _ _ _ _ = Some _ |- _ => apply puts_same in H
  | H : repaint _ _ = Some _ |- _ => apply repaint_same in H
  | H : repaintWithoutUpdateSuffix _ _ = Some _ |- _ => apply repaintW_same in H
  | H : Delete _ _ _ _ = Some _ |- _ => apply Delete_same in H
  | H : insertString _ _ _ _ = Some _ |- _ => apply insertS_same in H
  | H : InsertString _ _ _ _ = Some _ |- _ => apply InsertS_same in H
  end.
Ltac done := unfold same, kept, pwid in *; fin; split; first [congruence|left; congruence|right; congruence|idtac].
Lemma Replace_same s p t s' : ReplaceAndRepaint C s p t = Some s' -> same s s'.
Proof. unfold ReplaceAndRepaint. intros H. cas. prims. done. Qed.
Lemma backdel_same s s' : cmdBackwardDeleteChar C s = Some s' -> same s s'.
Proof. unfold cmdBackwardDeleteChar. intros H. cas; prims; done. Qed.
Lemma tail_same s k s' : self_insert_tail C s k = Some s' -> same s s'.
Proof. unfold self_insert_tail. intros H. cas; prims; done. Qed.
Lemma self_same k s s' : selfInsert C k s = Some s' -> same s s'.
Proof.
  unfold selfInsert. intros H. cas; repeat match goal with H : cmdBackwardDeleteChar _ _ = Some _ |- _ => apply backdel_same in H | H : self_insert_tail _ _ _ = Some _ |- _ => apply tail_same in H end; done.
Qed.
Lemma eol_same s s' : cmdEndOfLine C s = Some s' -> same s s'.
Proof. unfold cmdEndOfLine. intros H. cas; prims; done. Qed.
Lemma show_same s s' : show_history C s = Some s' -> same s s'.
Proof.
  unfold show_history, cmdKillWholeLine. intros H. cas; prims; repeat match goal with H : cmdEndOfLine _ _ = Some _ |- _ => apply eol_same in H end; done.
Qed.
Lemma save_same s s' : saveModifiedHistory C s = Some s' -> same s s'.
Proof. unfold saveModifiedHistory. intros H. cas; done. Qed.
Lemma all_kept s s' : RepaintAll C s = Some s' -> kept s s'.
Proof. unfold RepaintAll, kept, pwid. intros H. destruct (callPromptWriter E (prompt C)) as [t w] eqn:Hp. apply repaint_same in H as [H1 H2]. cbn in *. split; [exact H1|]. right. exact H2. Qed.
Lemma same_kept s s' : same s s' -> kept s s'.
Proof. intros [H1 H2]. split; auto. Qed.
Lemma exec_kept c s s' r : (forall f, c <> CUser f) -> exec C c s = Some (s', r) -> kept s s'.
Proof.
  intros Hc H. destruct c; cbn [exec] in H; unfold continue_ in H; cas;
    repeat match goal with
    | H : cmdClearScreen _ _ = Some _ |- _ => unfold cmdClearScreen in H; apply all_kept in H; exact H
    | H : cmdRepaintOnNewline _ _ = Some _ |- _ => unfold cmdRepaintOnNewline in H; apply all_kept in H; exact H
    end; try (apply same_kept;
    unfold cmdInterrupt, cmdBeginningOfLine, cmdBackwardChar, cmdForwardChar, cmdDeleteOrAbort, cmdDeleteChar, cmdKillLine, cmdKillWholeLine, cmdUnixWordRubout, cmdUnixLineDiscard,
      cmdYank, cmdYankWithQuote, cmdSwapChar, cmdBackwardWord, cmdForwardWord, cmdUndo, cmdPreviousHistory, cmdNextHistory, InsertAndRepaint in *; cas; prims;
    repeat match goal with
    | H : ReplaceAndRepaint _ _ _ _ = Some _ |- _ => apply Replace_same in H
    | H : cmdBackwardDeleteChar _ _ = Some _ |- _ => apply backdel_same in H
    | H : selfInsert _ _ _ = Some _ |- _ => apply self_same in H
    | H : cmdEndOfLine _ _ = Some _ |- _ => apply eol_same in H
    | H : show_history _ _ = Some _ |- _ => apply show_same in H
    | H : saveModifiedHistory _ _ = Some _ |- _ => apply save_same in H
    end; done; fail).
  exfalso. eapply Hc. reflexivity.
Qed.
End W.

Section S.
Variable S : scfg.
Notation C := (base S).
Hypothesis HB : only_builtin S.
Notation kept := (kept C).
Lemma kept_trans a b c : kept a b -> kept b c -> kept a c.
Proof. intros [H1 H2] [H3 H4]. split; [congruence|]. destruct H4 as [H4|H4]; [|now right]. rewrite H4. exact H2. Qed.
Lemma kept_emit s s' ts : kept s s' -> kept s (emit s' ts).
Proof. intros H. exact H. Qed.
Lemma finish_kept rc s x : finish S rc s = Some x -> kept s (buf_of x).
Proof.
  unfold finish. intros H. destruct (suffix s).
  - destruct (repaintWithoutUpdateSuffix C (set_suffix s None)) as [s1|] eqn:H1; [|discriminate]. injection H as <-. apply repaintW_same in H1. apply same_kept. exact H1.
  - injection H as <-. apply same_kept. split; reflexivity.
Qed.
Lemma after_kept s0 o x : after_command S o = Some x -> (forall s r, o = Some (s, r) -> kept s0 s) -> kept s0 (buf_of x).
Proof.
  intros H Hk. destruct o as [[s r]|]; [|discriminate]. specialize (Hk s r eq_refl). cbn [after_command] in H. destruct r; try (apply finish_kept in H; eapply kept_trans; [exact Hk|exact H]).
  injection H as <-. exact Hk.
Qed.
Lemma wait_kept ss s x : search_wait S ss s = Some x -> kept s (buf_of x).
Proof. unfold search_wait. intros H. cas. apply same_kept. split; reflexivity. Qed.
Lemma step_kept e x x' : step S e x = Some x' -> (forall w, e <> EResize w) -> kept (buf_of x) (buf_of x').
Proof.
  intros H Hr. assert (R : forall s, kept s s) by (intros s; apply same_kept; split; reflexivity).
  destruct x as [m s|s t r]; [|injection H as <-; apply R]. destruct e as [k| |w|c]; cbn [step] in H.
  - destruct m as [| |ss]; cbn [buf_of].
    + unfold key_normal in H. pose proof (HB k) as Hk. destruct (LookupCommand (kmap S) (gmap S) k) eqn:Hc;
        try (eapply after_kept; [exact H|]; intros s1 r1 He; eapply (exec_kept C _ _ _ _ Hk) in He; exact He).
      * injection H as <-. apply same_kept. split; reflexivity.
      * apply wait_kept in H. exact H.
    + eapply after_kept; [exact H|]. intros s1 r1 He. cas. apply self_same in Heqo. apply same_kept. exact Heqo.
    + unfold key_search in H. destruct (search_key S k ss) as [[ss'| |]|]; [| | |discriminate].
      * apply wait_kept in H. exact H.
      * eapply after_kept; [exact H|]. intros s1 r1 He. unfold continue_, search_accept in He. cas. apply Replace_same in Heqo. apply same_kept. exact Heqo.
      * eapply after_kept; [exact H|]. intros s1 r1 He. unfold continue_, search_cancel in He. cas. repeat match goal with H : puts _ _ _ _ = Some _ |- _ => apply puts_same in H; destruct H end. apply same_kept. split; cbn in *; congruence.
  - destruct m; [injection H as <-; exact (R s)|..]; (eapply after_kept; [exact H|]); intros s1 r1 [= <- <-]; exact (R s).
  - now specialize (Hr w).
  - injection H as <-. exact (R s).
Qed.
Lemma resize_kept w m s x' : step S (EResize w) (Running m s) = Some x' ->
  termw (buf_of x') = (match m with MNormal => w | _ => termw s end) /\ topc (buf_of x') = topc s.
Proof.
  cbn [step]. intros H. destruct m; [|injection H as <-; split; reflexivity..]. unfold on_resize, RepaintLastLine in H. destruct (repaint C _) as [s1|] eqn:H1; [|discriminate]. injection H as <-.
  apply repaint_same in H1. exact H1.
Qed.
Lemma run_window es : forall x w x', run S es x = Some x' -> termw (buf_of x) = w -> termw (buf_of x') = told S es x w.
Proof.
  induction es as [|e es IH]; intros x w x' H Hw; cbn [run told] in *; [injection H as <-; exact Hw|].
  destruct (step S e x) as [x1|] eqn:H1; [|discriminate]. apply IH; auto.
  destruct e as [k| |w'|c]; try (apply step_kept in H1; [|discriminate]; rewrite (proj1 H1); exact Hw).
  destruct x as [m s|s t r]; [|injection H1 as <-; exact Hw]. apply resize_kept in H1 as [H1 _]. rewrite H1. destruct m; auto.
Qed.
Lemma run_prompt es : forall x x', run S es x = Some x' -> topc (buf_of x) = pwid C -> topc (buf_of x') = pwid C.
Proof.
  induction es as [|e es IH]; intros x x' H Hw; cbn [run] in *; [injection H as <-; exact Hw|].
  destruct (step S e x) as [x1|] eqn:H1; [|discriminate]. apply (IH _ _ H).
  destruct e as [k| |w'|c]; try (apply step_kept in H1; [|discriminate]; destruct H1 as [_ [->|H1]]; assumption).
  destruct x as [m s|s t r]; [|injection H1 as <-; exact Hw]. apply resize_kept in H1 as [_ ->]. exact Hw.
Qed.
Lemma start_window default cur w cl x : start S default cur w cl = Some x -> termw (buf_of x) = w /\ (pwid C < w - 3 -> topc (buf_of x) = pwid C).
Proof.
  unfold start, pwid. intros H. destruct (callPromptWriter (cE C) (prompt C)) as [t p] eqn:Hp. cbn [snd].
  set (s2 := if _ <=? _ then _ else _) in H. assert (T2 : termw s2 = w /\ (p < w - 3 -> topc s2 = p)).
  { unfold s2. destruct (_ <=? _) eqn:Hc; cbn in *; split; auto. intros. exfalso. lia. }
  clearbody s2. destruct (InsertString C s2 0 default) as [[s3 n]|] eqn:H3; [|discriminate]. cbv zeta in H. destruct (RepaintAfterPrompt C _) as [s5|] eqn:H5; [|discriminate]. injection H as <-.
  apply InsertS_same in H3 as [A1 A2]. unfold RepaintAfterPrompt in H5. apply repaint_same in H5 as [A3 A4]. cbn [buf_of emit termw topc ResetViewStart set_view] in *.
  destruct T2 as [T1 T2]. destruct (_ <? _); cbn [termw topc set_cursor] in *; split; [congruence| |congruence|]; intros Hl; specialize (T2 Hl); congruence.
Qed.
Lemma session_window default cur w cl es x : readline S default cur w cl es = Some x -> termw (buf_of x) = window S default cur w cl es.
Proof.
  unfold readline, window. intros H. destruct (start S default cur w cl) as [x0|] eqn:H0; [|discriminate]. eapply run_window; [exact H|apply (start_window _ _ _ _ _ H0)].
Qed.
Lemma session_prompt default cur w cl es x : sane_widths (cE C) -> prompt_width C + 3 < w -> readline S default cur w cl es = Some x -> topc (buf_of x) = prompt_width C.
Proof.
  intros HW Hw H. assert (Hn : 0 <= pwid C) by (apply (VtFacts.pw_nn S); exact HW). assert (Hp : prompt_width C = pwid C) by (unfold prompt_width; fold (pwid C); lia). rewrite Hp in *.
  unfold readline in H. destruct (start S default cur w cl) as [x0|] eqn:H0; [|discriminate]. eapply run_prompt; [exact H|]. apply (start_window _ _ _ _ _ H0). lia.
Qed.
End S.
Lemma session_room S default cur w cl es x : only_builtin S -> sane_widths (cE (base S)) -> prompt_width (base S) + 3 < w ->
  readline S default cur w cl es = Some x -> ViewWidth (buf_of x) = window S default cur w cl es - prompt_width (base S) - 3.
Proof. intros HB HW Hw H. unfold ViewWidth. rewrite (session_window S HB _ _ _ _ _ _ H), (session_prompt S HB _ _ _ _ _ _ HW Hw H). reflexivity. Qed.
Lemma readline_snoc S default cur w cl es e x x' : readline S default cur w cl es = Some x -> step S e x = Some x' -> readline S default cur w cl (es ++ [e]) = Some x'.
Proof.
  unfold readline. destruct (start S default cur w cl) as [x0|]; [|discriminate]. revert x0. induction es as [|a es IH]; intros x0 H He; cbn [run app] in *; [injection H as ->; now rewrite He|].
  destruct (step S a x0); [|discriminate]. now apply IH.
Qed.
Lemma inside_window S default cur w cl es e x x' :
  sane_widths (cE (base S)) -> only_builtin S ->
  (pcolor0 (base S) = [] \/ forall t c, Forall (fun m => SpecScreen.tabfree m = true) (StringToMoji (cE (base S)) (predictor (base S) t c))) ->
  (forall x0, start S default cur w cl = Some x0 -> SpecScreen.calm S (es ++ [e]) x0) ->
  readline S default cur w cl es = Some x -> step S e x = Some x' ->
  forall other sc, exists ts, out (buf_of x') = out (buf_of x) ++ ts /\
    SpecScreen.inside (cE (base S)) other (window S default cur w cl (es ++ [e]) - 3) (SpecScreen.display (cE (base S)) other (out (buf_of x)) sc) ts.
Proof.
  intros HW HB HP Hc H He. rewrite <- (session_window S HB _ _ _ _ _ _ (readline_snoc _ _ _ _ _ _ _ _ _ H He)). exact (ScreenProps.inside_calm S default cur w cl es e x x' HW HB HP Hc H He).
Qed.
