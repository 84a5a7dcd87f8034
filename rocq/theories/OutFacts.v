(** The output only grows.  Intermediate step of the proofs. *)
From Verif Require Import Base Utf8 Moji Color Prompt Buffer Commands KeyMap Session AbsRef.

Definition ext (s s' : buf) : Prop := exists l, out s' = out s ++ l.
Lemma ext_refl s : ext s s. Proof. exists []. now rewrite app_nil_r. Qed.
Lemma ext_eq s s' : out s' = out s -> ext s s'. Proof. intros H. exists []. now rewrite app_nil_r. Qed.
Lemma ext_trans a b c : ext a b -> ext b c -> ext a c.
Proof. intros [l H] [l' H']. exists (l ++ l'). rewrite H', H. now rewrite app_assoc. Qed.
Lemma ext_emit s l : ext s (emit s l). Proof. now exists l. Qed.
Lemma ext_emit_r s s' l : ext s s' -> ext s (emit s' l).
Proof. intros H. eapply ext_trans; [exact H|apply ext_emit]. Qed.
(** [ext] looks only at [out]. *)
Lemma ext_out a a' b b' : out a = out a' -> out b = out b' -> ext a' b' -> ext a b.
Proof. unfold ext. intros -> ->. auto. Qed.

Section WithCfg.
Variable C : cfg.
Notation E := (cE C).

Ltac same := match goal with |- ext ?a ?b => apply ext_eq; reflexivity end.

Lemma ext_insert s pos l s' : insert s pos l = Some s' -> ext s s'.
Proof. unfold insert. intros H. opt H. injection H as <-. same. Qed.
Lemma ext_insertString s pos t s' l : insertString C s pos t = Some (s', l) -> ext s s'.
Proof. unfold insertString. intros H. opt H. injection H as <- <-. eapply ext_insert; eauto. Qed.
Lemma ext_InsertString s pos t s' n : InsertString C s pos t = Some (s', n) -> ext s s'.
Proof. unfold InsertString. intros H. opt H. injection H as <- <-. eapply ext_insertString; eauto. Qed.
Lemma ext_Delete s pos n s' w : Delete C s pos n = Some (s', w) -> ext s s'.
Proof. unfold Delete. intros H. destruct (_ || _); [injection H as <- <-; apply ext_refl|]. opt H. injection H as <- <-. same. Qed.
Lemma ext_joinUndo s : ext s (joinUndo s).
Proof. unfold joinUndo. destruct (undoes s) as [|u [|u' r]]; try apply ext_refl. destruct (join2 u' u); [same|apply ext_refl]. Qed.
Lemma ext_refreshColor s s' : refreshColor C s = Some s' -> ext s s'.
Proof. unfold refreshColor. intros H. opt H. injection H as <-. same. Qed.
Lemma ext_puts s a b s' : puts C s a b = Some s' -> ext s s'.
Proof. unfold puts. intros H. opt H. injection H as <-. apply ext_emit_r. eapply ext_refreshColor; eauto. Qed.
Lemma ext_repaintW s s' : repaintWithoutUpdateSuffix C s = Some s' -> ext s s'.
Proof.
  unfold repaintWithoutUpdateSuffix. intros H. opt H. apply ext_puts in Ev0, H.
  assert (G : ext b b0).
  { destruct (pcolor0 C); [injection Ev1 as <-; apply ext_refl|].
    destruct (suffix b) as [[|]|]; [injection Ev1 as <-; apply ext_refl| |injection Ev1 as <-; apply ext_refl].
    opt Ev1. injection Ev1 as <-. apply ext_emit. }
  eapply ext_trans; [apply (ext_emit_r s s); apply ext_refl|]. eapply ext_trans; [exact Ev0|].
  eapply ext_trans; [exact G|]. eapply ext_trans; [|exact H]. apply ext_emit_r, ext_emit.
Qed.
Lemma ext_repaint s s' : repaint C s = Some s' -> ext s s'.
Proof.
  unfold repaint. intros H. apply ext_repaintW in H. eapply ext_trans; [|exact H].
  unfold updateSuffix. destruct (pcolor0 C); [apply ext_refl|]. destruct (cells s); same.
Qed.
Lemma ext_Replace s pos t s' : ReplaceAndRepaint C s pos t = Some s' -> ext s s'.
Proof.
  unfold ReplaceAndRepaint. intros H. opt H. apply ext_Delete in Ev. apply ext_InsertString in Ev0. apply ext_repaint in H.
  eapply ext_trans; [exact Ev|]. eapply ext_trans; [exact Ev0|]. eapply ext_trans; [|exact H].
  eapply ext_trans; [|apply ext_eq; reflexivity]. eapply ext_trans; [|apply ext_joinUndo]. same.
Qed.
Lemma ext_RepaintAll s s' : RepaintAll C s = Some s' -> ext s s'.
Proof.
  unfold RepaintAll. destruct (callPromptWriter E (prompt C)) as [t w]. intros H. apply ext_repaint in H.
  eapply ext_trans; [|exact H]. eapply ext_trans; [apply ext_emit|]. same.
Qed.
Lemma ext_RepaintLastLine s s' : RepaintLastLine C s = Some s' -> ext s s'.
Proof. unfold RepaintLastLine. intros H. apply ext_repaint in H. eapply ext_trans; [apply ext_emit|exact H]. Qed.
Lemma ext_EndOfLine s s' : cmdEndOfLine C s = Some s' -> ext s s'.
Proof.
  unfold cmdEndOfLine. intros H. opt H. injection H as <-. apply ext_emit_r. destruct (_ <? _).
  - opt Ev0. injection Ev0 as <-. apply ext_puts in Ev1. exact Ev1.
  - opt Ev0. injection Ev0 as <-. apply ext_puts in Ev2. eapply ext_trans; [apply ext_emit|]. exact Ev2.
Qed.
Lemma ext_BackwardDelete s s' : cmdBackwardDeleteChar C s = Some s' -> ext s s'.
Proof.
  unfold cmdBackwardDeleteChar. intros H. destruct (_ <? _); [|injection H as <-; apply ext_refl]. opt H.
  apply ext_Delete in Ev. apply ext_repaint in H. eapply ext_trans; [exact Ev|]. eapply ext_trans; [|exact H]. destruct (_ <? _); same.
Qed.
Lemma ext_DeleteChar s s' : cmdDeleteChar C s = Some s' -> ext s s'.
Proof. unfold cmdDeleteChar. intros H. opt H. eapply ext_trans; [eapply ext_Delete; eauto|now apply ext_repaint]. Qed.
Lemma ext_self_tail s k s' : self_insert_tail C s k = Some s' -> ext s s'.
Proof.
  unfold self_insert_tail. intros H. opt H. apply ext_insertString in Ev. apply ext_repaint in H.
  eapply ext_trans; [exact Ev|]. eapply ext_trans; [|exact H]. destruct (_ <=? _); same.
Qed.
Lemma ext_selfInsert k s s' : selfInsert C k s = Some s' -> ext s s'.
Proof.
  unfold selfInsert. intros H. destruct (_ && _); [opt H; apply ext_BackwardDelete in H; exact H|]. destruct (_ && _).
  - opt H. eapply ext_trans; [eapply ext_BackwardDelete; eauto|]. eapply ext_self_tail; eauto.
  - destruct (pending s); eapply ext_self_tail in H; exact H.
Qed.
Lemma ext_clip s t : ext s (clip_write s t).
Proof. unfold clip_write. destruct (clip s); [same|apply ext_refl]. Qed.
Lemma ext_KillWhole s s' : cmdKillWholeLine s = Some s' -> ext s s'.
Proof. unfold cmdKillWholeLine. intros H. injection H as <-. eexists. cbn. rewrite <- app_assoc. reflexivity. Qed.
Lemma ext_save s s' : saveModifiedHistory C s = Some s' -> ext s s'.
Proof.
  unfold saveModifiedHistory. intros H. destruct (_ <? _); [|injection H as <-; same]. opt H.
  destruct (str_eqb _ _); injection H as <-; [apply ext_refl|same].
Qed.
Lemma ext_show s s' : show_history C s = Some s' -> ext s s'.
Proof.
  unfold show_history. intros H. opt H. apply ext_KillWhole in Ev. destruct s0.
  - injection H as <-. exact Ev.
  - opt H. apply ext_InsertString in Ev1. apply ext_EndOfLine in H. eapply ext_trans; [exact Ev|]. eapply ext_trans; [exact Ev1|exact H].
Qed.

Lemma ext_exec c s s' r : builtin c -> exec C c s = Some (s', r) -> ext s s'.
Proof.
  intros Hb H. destruct c; cbn [exec] in H; unfold continue_ in H; try (now destruct Hb); try (injection H as <- <-; apply ext_refl); try (opt H; injection H as <- <-).
  - same.
  - apply ext_repaint in Ev. exact Ev.
  - unfold cmdBackwardChar in Ev. destruct (_ <=? _); [injection Ev as <-; apply ext_refl|]. apply ext_repaint in Ev.
    eapply ext_trans; [|exact Ev]. destruct (_ <? _); same.
  - now apply ext_EndOfLine.
  - unfold cmdForwardChar in Ev. destruct (_ <=? _).
    + destruct (suffix s) as [[|]|]; try (injection Ev as <-; apply ext_refl). now apply ext_Replace in Ev.
    + opt Ev. injection Ev as <-. destruct (_ <? _); [now apply ext_puts in Ev1|]. opt Ev1. injection Ev1 as <-. apply ext_emit_r.
      match goal with H : puts _ _ _ _ = Some _ |- _ => apply ext_puts in H; eapply ext_trans; [|exact H] end. eapply ext_trans; [apply ext_emit|]. destruct (_ <? _); same.
  - now apply ext_BackwardDelete.
  - now apply ext_DeleteChar.
  - unfold cmdDeleteOrAbort in H. destruct (_ <? _); [|injection H as <- <-; apply ext_refl]. opt H. injection H as <- <-. now apply ext_DeleteChar.
  - unfold cmdKillLine in Ev. opt Ev. injection Ev as <-. eapply ext_trans; [apply (ext_clip s s0)|]. eexists. cbn. reflexivity.
  - now apply ext_KillWhole.
  - unfold cmdUnixWordRubout in Ev. opt Ev. apply ext_Delete in Ev3. apply ext_repaint in Ev.
    eapply ext_trans; [|exact Ev]. eapply ext_trans; [|destruct (_ <? _); same]. eapply ext_trans; [|eapply ext_trans; [exact Ev3|same]].
    eapply ext_trans; [|apply ext_clip]. same.
  - unfold cmdUnixLineDiscard in Ev. opt Ev. apply ext_Delete in Ev1. apply ext_repaint in Ev.
    eapply ext_trans; [|exact Ev]. eapply ext_trans; [|eapply ext_trans; [exact Ev1|same]]. apply ext_clip.
  - unfold cmdClearScreen in Ev. eapply ext_trans; [apply ext_emit|]. eapply ext_RepaintAll; eauto.
  - unfold cmdRepaintOnNewline in Ev. eapply ext_trans; [apply ext_emit|]. eapply ext_RepaintAll; eauto.
  - unfold cmdYank in Ev. destruct (clip s); [now apply ext_Replace in Ev|injection Ev as <-; apply ext_refl].
  - unfold cmdYankWithQuote in Ev. destruct (clip s); [now apply ext_Replace in Ev|injection Ev as <-; apply ext_refl].
  - unfold cmdSwapChar in Ev. destruct (_ =? _).
    + destruct (_ <? _); [injection Ev as <-; apply ext_refl|]. opt Ev. apply ext_puts in Ev. eapply ext_trans; [|exact Ev].
      eexists. cbn. reflexivity.
    + destruct (_ <? _); [injection Ev as <-; apply ext_refl|]. opt Ev. apply ext_puts in Ev. eapply ext_trans; [|exact Ev].
      eapply ext_trans; [apply (ext_emit s [TGoto (topc s + 1)])|]. destruct (_ <=? _); same.
  - unfold cmdBackwardWord in Ev. opt Ev. apply ext_repaint in Ev. eapply ext_trans; [|exact Ev]. destruct (_ <? _); same.
  - unfold cmdForwardWord in Ev. opt Ev. destruct (_ <? _).
    + opt Ev. injection Ev as <-. apply ext_puts in Ev2. exact Ev2.
    + apply ext_repaint in Ev. exact Ev.
  - unfold cmdUndo in Ev. destruct (undoes s) as [|u rest]; [injection Ev as <-; apply ext_emit|]. opt Ev.
    apply ext_repaint in Ev. eapply ext_trans; [|exact Ev]. eapply ext_trans; [apply (ext_emit s [TGoto (topc s + 1)])|].
    destruct (u_text u); [injection Ev1 as <-; same|]. opt Ev1. injection Ev1 as <-. same.
  - unfold cmdPreviousHistory in Ev. destruct (_ <=? _); [injection Ev as <-; apply ext_refl|]. destruct (_ <=? _).
    + destruct (negb _); [injection Ev as <-; apply ext_refl|]. opt Ev. apply ext_save in Ev0. apply ext_show in Ev. eapply ext_trans; [exact Ev0|exact Ev].
    + opt Ev. apply ext_save in Ev0. apply ext_show in Ev. eapply ext_trans; [exact Ev0|exact Ev].
  - unfold cmdNextHistory in Ev. destruct (_ <=? _); [injection Ev as <-; apply ext_refl|]. destruct (_ <? _); [injection Ev as <-; apply ext_refl|].
    opt Ev. apply ext_save in Ev0. apply ext_show in Ev. eapply ext_trans; [exact Ev0|exact Ev].
  - now apply ext_selfInsert in Ev.
Qed.
End WithCfg.
