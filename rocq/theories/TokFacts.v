(** What simple sessions write: the units are single plain characters, the cursor goes to
    the column after the prompt only, and so on. *)
From Verif Require Import Base Utf8 Moji Color Prompt Buffer Commands KeyMap Session MojiFacts Abs AbsRef AbsSess
  AbsSafe AbsInv Safe SafeSess Plain Spec Reach SafetyFacts ScreenSimple.
Ltac lia := unfold rune in *; Lia.lia.

Section WithSess.
Variable S : scfg.
Notation C := (base S).
Notation E := (cE C).
Hypothesis HS : simple_editor S.
Hypothesis Hlow : forall r, 0 <= r < 128 -> joins E r = false.
Notation pm := (pm S).
Notation plain := (plain S).
Notation NA := (NA S).

Definition pw : Z := snd (callPromptWriter E (prompt C)).
Definition fine (t : tok) : Prop :=
  match t with
  | TMoji m => pm m
  | TGoto c => c = pw + 1
  | TPrompt p => p = fst (callPromptWriter E (prompt C)) \/ p = last_line_prompt (prompt C)
  | TAttr a => pcolor0 C <> [] /\ (a = pcolor0 C \/ a = pcolor1 C)
  | TLineFeed _ => False
  | _ => True
  end.
Definition good (s : buf) : Prop := NA (abs s) /\ topc s = pw /\ Forall fine (out s).

Lemma pm_erase m : pm (erase m) -> m = erase m.
Proof.
  intros (r & H & (H9 & _) & _). rewrite H.
  assert (K : erase m = m \/ (exists a b, erase m = MZwj a b) \/ (exists a b, erase m = MMod a b) \/ (exists a b, erase m = MVar a b) \/ erase m = MTab 0).
  { destruct m; cbn; eauto 10. }
  assert (N : match rune2moji E r 0 with MZwj _ _ | MMod _ _ | MVar _ _ | MTab _ => False | _ => True end).
  { unfold rune2moji. replace (r =? 9) with false by lia.
    destruct (r <? 32); [exact I|]. destruct (_ && _); [exact I|]. destruct (isToBeEscaped E r); [exact I|]. destruct (in_range r 127462 127487); [exact I|].
    destruct (in_range r 119808 120831); [exact I|]. destruct (r =? 127987); exact I. }
  rewrite <- H in N. destruct K as [K|[(a & b & K)|[(a & b & K)|[(a & b & K)|K]]]]; [congruence| | | |]; now rewrite K in N.
Qed.
Lemma pm_emoji c : pm (emoji c) -> pm (c_moji c).
Proof. intros H. rewrite (pm_erase (c_moji c)); exact H. Qed.

Lemma good_same s s' : good s -> NA (abs s') -> topc s' = topc s -> out s' = out s -> good s'.
Proof. intros (_ & H2 & H3) HN Ht Ho. split; [exact HN|]. split; [congruence|]. now rewrite Ho. Qed.
Lemma good_emit s ts : good s -> Forall fine ts -> good (emit s ts).
Proof. intros (H1 & H2 & H3) H. split; [exact H1|]. split; [exact H2|]. cbn. now apply Forall_app. Qed.
Ltac fines := repeat (first [apply Forall_nil | apply Forall_cons; [first [exact I | cbn; auto]|]]).
Lemma good_goto s : good s -> good (GotoHead s).
Proof. intros H. apply good_emit; [exact H|]. fines. f_equal. apply H. Qed.
Lemma good_erase s : good s -> good (eraseline s).
Proof. intros H. apply good_emit; [exact H|fines]. Qed.
Lemma good_view s v : good s -> good (set_view s v). Proof. exact (fun H => H). Qed.
Lemma good_cursor s v : good s -> good (set_cursor s v). Proof. exact (fun H => H). Qed.
Lemma good_hptr s v : good s -> good (set_hptr s v). Proof. exact (fun H => H). Qed.
Lemma good_termw s v : good s -> good (set_termw s v). Proof. exact (fun H => H). Qed.
Lemma good_reset s : good s -> good (ResetViewStart C s). Proof. exact (fun H => H). Qed.

Lemma paint_fine l : Forall pm (emojis l) -> forall c ts col, paint C c l = Some (ts, col) -> Forall fine ts.
Proof.
  induction l as [|x l IH]; intros H c ts col P; cbn [paint] in P; [injection P as <- <-; constructor|].
  inversion H; subst. opt P. injection P as <- <-. apply Forall_app. split; [destruct (_ =? _); fines|].
  constructor; [now apply pm_emoji|]. eapply IH; eauto.
Qed.
Lemma good_puts s a b s' : puts C s a b = Some s' -> good s -> good s'.
Proof.
  intros H G. pose proof (puts_paints C s a b s' H) as P. pose proof (paints_abs _ _ P) as PA. pose proof (paints_fields _ _ P) as (_ & _ & _ & _ & _ & _ & PT & _).
  destruct G as (H1 & H2 & H3). split; [now rewrite PA|]. split; [congruence|].
  unfold puts, refreshColor in H. opt H. injection H as <-. opt Ev. injection Ev as <-. cbn [cells set_cells out emit] in *.
  apply refresh_loop_emojis in Ev2. apply Forall_app. split; [exact H3|]. apply Forall_app. split; [|destruct (_ =? _); fines].
  eapply paint_fine; [|exact Ev1]. apply (f_equal (option_map emojis)) in Ev0. rewrite <- slice_emojis, Ev2 in Ev0.
  eapply Forall_slice; [exact Ev0|apply H1].
Qed.
Lemma suffix_fine vw l : Forall pm (map erase l) -> forall w ts, paint_suffix C vw w l = Some ts -> Forall fine ts.
Proof.
  induction l as [|m l IH]; intros H w ts P; cbn [paint_suffix] in P; [injection P as <-; constructor|].
  inversion H; subst. destruct (_ <=? _); [injection P as <-; constructor|]. opt P. injection P as <-.
  constructor; [cbn; rewrite (pm_erase m); assumption|]. eapply IH; eauto.
Qed.
Lemma good_repaintW s s' : repaintWithoutUpdateSuffix C s = Some s' -> good s -> good s'.
Proof.
  unfold repaintWithoutUpdateSuffix. intros H G. opt H. apply good_puts in Ev0; [|now apply good_goto].
  apply good_puts in H; [exact H|]. apply good_goto, good_erase.
  destruct (pcolor0 C) as [|q0 q] eqn:Hp; [now injection Ev1 as <-|].
  destruct (suffix b) as [[|m l]|] eqn:Hs; try (now injection Ev1 as <-). opt Ev1. injection Ev1 as <-.
  assert (Hne : pcolor0 C <> []) by (rewrite Hp; discriminate). rewrite <- Hp in *.
  apply good_emit; [exact Ev0|]. constructor; [cbn; auto|]. apply Forall_app. split; [|fines].
  eapply suffix_fine; [|exact Ev2]. destruct Ev0 as ((_ & _ & _ & _ & _ & K) & _). unfold Suffix. cbn in K. rewrite Hs in *. destruct (pcolor0 C); [constructor|]. destruct (_ =? _); [exact K|constructor].
Qed.
Lemma good_update s : good s -> good (updateSuffix C s).
Proof.
  intros G. eapply good_same; [exact G| | |].
  - rewrite abs_updateSuffix. apply NA_aupdate; [exact (Hpred S HS)|apply G].
  - destruct (updateSuffix_fields C s) as [x ->]. reflexivity.
  - destruct (updateSuffix_fields C s) as [x ->]. reflexivity.
Qed.
Lemma good_repaint s s' : repaint C s = Some s' -> good s -> good s'.
Proof. unfold repaint. intros H G. eapply good_repaintW; [exact H|now apply good_update]. Qed.

Lemma good_insertString s pos t s' l : insertString C s pos t = Some (s', l) -> plain t -> good s -> good s'.
Proof.
  intros H Ht G. eapply good_same; [exact G| | |].
  - apply insertString_ref in H as (H & _). eapply NA_ains; [apply G| |exact H]. now apply plain_units.
  - unfold insertString, insert in H. opt H. injection H as <- <-. opt Ev. injection Ev as <-. reflexivity.
  - unfold insertString, insert in H. opt H. injection H as <- <-. opt Ev. injection Ev as <-. reflexivity.
Qed.
Lemma good_InsertString s pos t s' n : InsertString C s pos t = Some (s', n) -> plain t -> good s -> good s'.
Proof. unfold InsertString. intros H. opt H. injection H as <- <-. eapply good_insertString; eauto. Qed.
Lemma good_Delete s pos n s' w : Delete C s pos n = Some (s', w) -> good s -> good s'.
Proof.
  intros H G. eapply good_same; [exact G| | |].
  - apply Delete_ref in H. eapply NA_adelete; [apply G|exact H].
  - unfold Delete in H. destruct (_ || _); [now injection H as <- <-|]. opt H. injection H as <- <-. reflexivity.
  - unfold Delete in H. destruct (_ || _); [now injection H as <- <-|]. opt H. injection H as <- <-. reflexivity.
Qed.
Lemma good_joinUndo s : good s -> good (joinUndo s).
Proof.
  intros G. eapply good_same; [exact G|rewrite joinUndo_ref; apply NA_ajoin, G| |]; unfold joinUndo; destruct (undoes s) as [|u [|u' r]]; try reflexivity; destruct (join2 u' u); reflexivity.
Qed.
Lemma good_Replace s pos t s' : ReplaceAndRepaint C s pos t = Some s' -> plain t -> good s -> good s'.
Proof.
  unfold ReplaceAndRepaint. intros H Ht G. opt H. apply good_Delete in Ev; [|exact G]. apply good_InsertString in Ev0; [|exact Ht|exact Ev].
  apply good_repaint in H; [exact H|]. apply good_reset, good_joinUndo. exact Ev0.
Qed.
Lemma good_clip s t : plain t -> good s -> good (clip_write s t).
Proof.
  intros Ht G. eapply good_same; [exact G|rewrite abs_clip_write; apply NA_aclip_write; [apply G|exact Ht]| |]; unfold clip_write; destruct (clip s); reflexivity.
Qed.
Lemma good_push s u : plain (u_text u) -> good s -> good (push_undo s u).
Proof. intros Hu G. eapply good_same; [exact G|rewrite abs_push_undo; apply NA_push; [apply G|exact Hu]|reflexivity|reflexivity]. Qed.
Lemma good_cells s l : Forall pm (emojis l) -> good s -> good (set_cells s l).
Proof. intros Hl G. eapply good_same; [exact G|rewrite abs_set_cells; apply NA_set_line; [apply G|exact Hl]|reflexivity|reflexivity]. Qed.
Lemma good_text s : good s -> plain (cell2string (cells s)).
Proof. intros G. rewrite cell2string_text. apply plain_text. apply G. Qed.
Lemma good_SubString s a b t : SubString s a b = Some t -> good s -> plain t.
Proof. intros H G. apply SubString_ref in H as (d & Hd & ->). apply plain_text. eapply Forall_slice; [exact Hd|apply G]. Qed.

Lemma good_RepaintAll s s' : RepaintAll C s = Some s' -> good s -> good s'.
Proof.
  unfold RepaintAll. intros H G. pose proof (good_emit s [TFlush; TPrompt (fst (callPromptWriter E (prompt C)))] G ltac:(fines)) as G'.
  destruct (callPromptWriter E (prompt C)) as [t w] eqn:Hp. apply good_repaint in H; [exact H|].
  destruct G' as (H1 & H2 & H3). split; [exact H1|]. split; [|exact H3]. cbn. unfold pw. now rewrite Hp.
Qed.
Lemma good_RepaintLastLine s s' : RepaintLastLine C s = Some s' -> good s -> good s'.
Proof. unfold RepaintLastLine. intros H G. apply good_repaint in H; [exact H|]. apply good_emit; [exact G|fines]. Qed.
Lemma good_EndOfLine s s' : cmdEndOfLine C s = Some s' -> good s -> good s'.
Proof.
  unfold cmdEndOfLine. intros H G. opt H. injection H as <-. apply good_erase. destruct (_ <? _).
  - opt Ev0. injection Ev0 as <-. apply good_cursor. eapply good_puts; eauto.
  - opt Ev0. injection Ev0 as <-. apply good_cursor. eapply good_puts; [eauto|]. apply good_view. now apply good_goto.
Qed.
Lemma good_BackwardDelete s s' : cmdBackwardDeleteChar C s = Some s' -> good s -> good s'.
Proof.
  unfold cmdBackwardDeleteChar. intros H G. destruct (_ <? _); [|now injection H as <-]. opt H.
  apply good_Delete in Ev; [|exact G]. apply good_repaint in H; [exact H|]. destruct (_ <? _); exact Ev.
Qed.
Lemma good_DeleteChar s s' : cmdDeleteChar C s = Some s' -> good s -> good s'.
Proof. unfold cmdDeleteChar. intros H G. opt H. eapply good_repaint; [exact H|]. eapply good_Delete; eauto. Qed.
Lemma good_self_tail s k s' : self_insert_tail C s k = Some s' -> plain k -> good s -> good s'.
Proof.
  unfold self_insert_tail. intros H Hk G. opt H. apply good_insertString in Ev; [|exact Hk|exact G]. apply good_repaint in H; [exact H|].
  destruct (_ <=? _); exact Ev.
Qed.
Lemma good_selfInsert k s s' : selfInsert C k s = Some s' -> plain k -> good s -> good s'.
Proof.
  intros Hs Hk G. unfold selfInsert in Hs. pose proof (all_altgr _ _ Hk) as Hk'.
  assert (Hj : joinlike E (fst (decode_rune (altgr k))) = false).
  { destruct (altgr k) as [|x t] eqn:Hal; [exact (HVe S HS)|]. unfold all_runes in Hk'. rewrite runes_step in Hk'.
    apply Forall_cons_iff in Hk' as [[_ Hx] _]. exact Hx. }
  unfold AreZeroWidthJoin, AreVariationSelectorLike, AreEmojiModifier in Hs. unfold joinlike in Hj.
  apply orb_false_iff in Hj as [Hj Hj3]. apply orb_false_iff in Hj as [Hj1 Hj2]. rewrite Hj1, Hj2, Hj3, !andb_false_r in Hs.
  cbn [andb orb] in Hs. pose proof G as ((_ & _ & H3 & _) & _). cbn in H3. rewrite H3 in Hs. eapply good_self_tail; eauto.
Qed.
Lemma good_KillWhole s s' : cmdKillWholeLine s = Some s' -> good s -> good s'.
Proof.
  unfold cmdKillWholeLine. intros H G. injection H as <-. apply good_view, good_cursor, good_cells; [constructor|]. apply good_erase, good_goto.
  apply good_push; [|exact G]. now apply good_text.
Qed.
Lemma good_save s s' : saveModifiedHistory C s = Some s' -> good s -> good s'.
Proof.
  intros H G. eapply good_same; [exact G| | |].
  - apply save_ref in H. eapply NA_save; [apply G|exact H].
  - unfold saveModifiedHistory in H. destruct (_ <? _); [|now injection H as <-]. opt H. destruct (str_eqb _ _); now injection H as <-.
  - unfold saveModifiedHistory in H. destruct (_ <? _); [|now injection H as <-]. opt H. destruct (str_eqb _ _); now injection H as <-.
Qed.
Lemma good_history s t : getHistory C s = Some t -> good s -> plain t.
Proof.
  intros Ev (H & _). rewrite <- getHistory_ref in Ev. unfold agetHistory in Ev. destruct (aget Z.eqb _ _) eqn:Hg.
  - injection Ev as <-. apply aget_In in Hg as [k' Hk']. destruct H as (_ & _ & _ & H & _). eapply H. exact Hk'.
  - destruct (_ || _); [injection Ev as <-; constructor|]. eapply Forall_index; [exact Ev|exact (Hhist S HS)].
Qed.
Lemma good_show s s' : show_history C s = Some s' -> good s -> good s'.
Proof.
  unfold show_history. intros H G. opt H. apply good_KillWhole in Ev; [|exact G]. pose proof (good_history _ _ Ev0 Ev) as Hp. destruct s0.
  - now injection H as <-.
  - opt H. apply good_InsertString in Ev1; [|exact Hp|exact Ev]. eapply good_EndOfLine; [exact H|]. exact Ev1.
Qed.

Lemma good_exec c s s' r : builtin c -> c <> CSwapChar -> (forall k, c = CSelfInsert k -> plain k) -> exec C c s = Some (s', r) -> good s -> good s'.
Proof.
  intros Hb Hsw Hk H G. destruct c; cbn [exec] in H; unfold continue_ in H; try (now destruct Hb); try (now destruct Hsw);
    try (injection H as <- <-; exact G); try (opt H; injection H as <- <-).
  - eapply good_same; [exact G| |reflexivity|reflexivity].
    destruct G as ((G1 & G2 & G3) & _). split; [constructor|]. split; [constructor|exact G3].
  - eapply good_repaint; [exact Ev|exact G].
  - unfold cmdBackwardChar in Ev. destruct (_ <=? _); [now injection Ev as <-|]. eapply good_repaint; [exact Ev|].
    destruct (_ <? _); exact G.
  - eapply good_EndOfLine; eauto.
  - unfold cmdForwardChar in Ev. destruct (_ <=? _).
    + destruct (suffix s) as [[|m l]|] eqn:Hs; try (now injection Ev as <-). eapply good_Replace; [exact Ev| |exact G].
      rewrite flat_map_write. apply plain_text. destruct G as ((_ & _ & _ & _ & _ & K) & _). cbn [asuf abs] in K. rewrite Hs in K. exact K.
    + opt Ev. injection Ev as <-. apply good_cursor. destruct (_ <? _); [now apply good_puts in Ev1|]. opt Ev1. injection Ev1 as <-. apply good_erase.
      match goal with H : puts _ _ _ _ = Some _ |- _ => apply good_puts in H; [exact H|] end. apply good_view. destruct (_ <? _); now apply good_goto.
  - eapply good_BackwardDelete; eauto.
  - eapply good_DeleteChar; eauto.
  - unfold cmdDeleteOrAbort in H. destruct (_ <? _); [|now injection H as <- <-]. opt H. injection H as <- <-. eapply good_DeleteChar; eauto.
  - unfold cmdKillLine in Ev. opt Ev. injection Ev as <-. pose proof (good_SubString _ _ _ _ Ev0 G) as Hp.
    assert (G1 : good (clip_write s s0)) by (now apply good_clip).
    apply good_cells; [|apply good_push; [exact Hp|now apply good_erase]].
    apply (f_equal (option_map emojis)) in Ev1. rewrite <- slice_emojis in Ev1. eapply Forall_slice; [exact Ev1|].
    change (Forall pm (emojis (cells (clip_write s s0)))). apply G1.
  - eapply good_KillWhole; eauto.
  - unfold cmdUnixWordRubout in Ev. opt Ev. apply good_repaint in Ev; [exact Ev|]. apply (good_cursor _ 0) in G as G0.
    pose proof (good_SubString _ _ _ _ Ev2 G) as Hp.
    apply good_Delete in Ev3; [|apply good_clip; [exact Hp|exact G]]. destruct (_ <? _); exact Ev3.
  - unfold cmdUnixLineDiscard in Ev. opt Ev. pose proof (good_SubString _ _ _ _ Ev0 G) as Hp.
    apply good_Delete in Ev1; [|apply good_clip; [exact Hp|exact G]]. eapply good_repaint; [exact Ev|exact Ev1].
  - unfold cmdClearScreen in Ev. eapply good_RepaintAll; [exact Ev|]. apply good_emit; [exact G|fines].
  - unfold cmdRepaintOnNewline in Ev. eapply good_RepaintAll; [exact Ev|]. apply good_emit; [exact G|fines].
  - unfold cmdYank in Ev. destruct (clip s) eqn:Hc; [|now injection Ev as <-]. eapply good_Replace; [exact Ev| |exact G].
    apply all_trim_right. destruct G as ((_ & _ & _ & _ & K & _) & _). now apply K.
  - unfold cmdYankWithQuote in Ev. destruct (clip s) eqn:Hc; [|now injection Ev as <-]. eapply good_Replace; [exact Ev| |exact G].
    apply all_yank_quote; [exact (HV34 S HS)|]. destruct G as ((_ & _ & _ & _ & K & _) & _). now apply K.
  - unfold cmdBackwardWord in Ev. opt Ev. eapply good_repaint; [exact Ev|]. destruct (_ <? _); exact G.
  - unfold cmdForwardWord in Ev. opt Ev. destruct (_ <? _).
    + opt Ev. injection Ev as <-. apply good_puts in Ev2; [exact Ev2|exact G].
    + eapply good_repaint; [exact Ev|exact G].
  - unfold cmdUndo in Ev. destruct (undoes s) as [|u rest] eqn:Hu; [injection Ev as <-; apply good_emit; [exact G|fines]|]. opt Ev.
    apply good_repaint in Ev; [exact Ev|]. apply good_reset.
    assert (Hp : plain (u_text u) /\ good (GotoHead (set_undoes s rest))).
    { pose proof G as ((G1 & G2 & G3) & _). cbn in G2. rewrite Hu in G2. inversion G2; subst. split; [assumption|]. apply good_goto.
      eapply good_same; [exact G| |reflexivity|reflexivity]. split; [exact G1|]. split; [assumption|exact G3]. }
    destruct Hp as [Hp G1]. set (s1 := GotoHead (set_undoes s rest)) in *.
    assert (Hl : Forall pm (emojis l)).
    { pose proof G1 as ((K & _) & _). destruct (0 <? u_del u) eqn:Hd; [|injection Ev0 as <-; exact K].
      apply (f_equal (option_map emojis)) in Ev0. unfold emojis in Ev0. rewrite <- sliceDelete_map in Ev0 by lia. cbn in Ev0.
      eapply Forall_sliceDelete; [|exact Ev0|exact K]. lia. }
    destruct (u_text u) as [|x t]; [injection Ev1 as <-; now apply good_cursor, good_cells|]. opt Ev1. injection Ev1 as <-.
    apply good_cursor, good_cells; [|now apply good_cells].
    apply (f_equal (option_map emojis)) in Ev2. unfold emojis in Ev2. rewrite <- sliceInsert_map in Ev2. cbn [option_map cells set_cells] in Ev2.
    eapply Forall_sliceInsert; [exact Ev2|exact Hl|]. change (Forall pm (emojis (mojis2cells (StringToMoji E (x :: t))))). rewrite emojis_units. now apply plain_units.
  - unfold cmdPreviousHistory in Ev. destruct (_ <=? _); [now injection Ev as <-|]. destruct (_ <=? _).
    + destruct (negb _); [now injection Ev as <-|]. opt Ev. apply good_save in Ev0; [|exact G]. eapply good_show; [exact Ev|exact Ev0].
    + opt Ev. apply good_save in Ev0; [|exact G]. eapply good_show; [exact Ev|exact Ev0].
  - unfold cmdNextHistory in Ev. destruct (_ <=? _); [now injection Ev as <-|]. destruct (_ <? _); [now injection Ev as <-|].
    opt Ev. apply good_save in Ev0; [|exact G]. eapply good_show; [exact Ev|exact Ev0].
  - eapply good_selfInsert; [exact Ev|now apply Hk|exact G].
Qed.

(** * Search mode *)
Definition SSP (ss : search) : Prop := valid_utf8 (ss_str ss) /\ plain (ss_str ss) /\ plain (ss_found ss).
Lemma low_plain r : 0 <= r < 128 -> r <> 9 -> plain_rune S r.
Proof. intros H H9. split; [exact H9|]. rewrite <- joins_like. now apply Hlow. Qed.
Lemma plain_low a t : forallb (fun b => (0 <=? b) && (b <? 128) && negb (b =? 9)) a = true -> plain t -> plain (a ++ t).
Proof.
  induction a as [|b a IH]; intros H Ht; [exact Ht|]. cbn [forallb] in H. apply andb_true_iff in H as [H1 H2]. cbn [app].
  apply (all_ascii_split (plain_rune S) [] b); [lia|]. split; [constructor|]. split; [apply low_plain; lia|now apply IH].
Qed.
Lemma plain_search ss : SSP ss -> plain (s2l "(i-search)[" ++ ss_str ss ++ s2l "]:" ++ ss_found ss).
Proof.
  intros (_ & H1 & H2). apply plain_low; [reflexivity|].
  change (s2l "]:" ++ ss_found ss) with (93 :: 58 :: ss_found ss). apply (all_ascii_split (plain_rune S)); [lia|].
  split; [exact H1|]. split; [apply low_plain; lia|]. now apply (plain_low [58]).
Qed.
Lemma search_fine vw l : Forall pm (map erase l) -> forall w ts, search_paint S vw w l = Some ts -> Forall fine ts.
Proof.
  induction l as [|m l IH]; intros H w ts P; cbn [search_paint] in P; [injection P as <-; constructor|].
  inversion H; subst. destruct (_ <=? _); [injection P as <-; constructor|]. opt P. injection P as <-.
  constructor; [cbn; rewrite (pm_erase m); assumption|]. eapply IH; eauto.
Qed.

Lemma SSP_update_loop l : (forall x, In x l -> plain x) -> forall i ss, valid_utf8 (ss_str ss) -> plain (ss_str ss) -> SSP (search_update S l i ss).
Proof.
  induction l as [|h l IH]; intros H i ss Hv Hs; cbn [search_update].
  - split; [exact Hv|]. split; [exact Hs|constructor].
  - destruct (ci_contains _ _ _); [split; [exact Hv|]; split; [exact Hs|]; apply H; now left|]. apply IH; auto. intros x Hx. apply H. now right.
Qed.
Lemma SSP_update ss : valid_utf8 (ss_str ss) -> plain (ss_str ss) -> SSP (update S ss).
Proof.
  intros Hv Hs. unfold update. apply SSP_update_loop; auto. intros x Hx. apply (hist_notab S (Hhist S HS) (rev (hist C))); [|exact Hx]. intros y Hy. now apply in_rev.
Qed.
Lemma SSP_older f : forall i ss ss', SSP ss -> search_older S f i ss = Some ss' -> SSP ss'.
Proof.
  induction f as [|f IH]; intros i ss ss' H Hs; cbn [search_older] in Hs; [discriminate|].
  destruct (_ =? _); [injection Hs as <-; exact H|]. opt Hs. destruct (_ && _).
  - injection Hs as <-. destruct H as (H1 & H2 & _). split; [exact H1|]. split; [exact H2|]. cbn. exact (Forall_index plain _ _ _ Ev (Hhist S HS)).
  - eapply IH; eauto.
Qed.
Lemma SSP_newer f : forall i ss ss', SSP ss -> search_newer S f i ss = Some ss' -> SSP ss'.
Proof.
  induction f as [|f IH]; intros i ss ss' H Hs; cbn [search_newer] in Hs; [discriminate|].
  destruct (_ <=? _); [injection Hs as <-; exact H|]. destruct (_ =? _); [injection Hs as <-; exact H|]. opt Hs. destruct (_ && _).
  - injection Hs as <-. destruct H as (H1 & H2 & _). split; [exact H1|]. split; [exact H2|]. cbn. exact (Forall_index plain _ _ _ Ev (Hhist S HS)).
  - eapply IH; eauto.
Qed.
Lemma chop_valid t : Forall (fun r => valid_rune r = true) (removelast (runes t)).
Proof.
  pose proof (runes_valid t) as HV. rewrite <- (rev_involutive (runes t)) in HV |- *. destruct (rev (runes t)) as [|x l]; [exact HV|].
  cbn [rev] in *. rewrite removelast_last. now apply Forall_app in HV.
Qed.
Lemma plain_chop t : plain t -> plain (chop t).
Proof.
  intros H. unfold Plain.plain, all_runes, chop. rewrite runes_encode by apply chop_valid.
  unfold Plain.plain, all_runes in H. rewrite <- (rev_involutive (runes t)) in H |- *. destruct (rev (runes t)) as [|x l]; [exact H|].
  cbn [rev] in *. rewrite removelast_last. now apply Forall_app in H.
Qed.
Lemma SSP_key k ss ss' : plain k -> SSP ss -> search_key S k ss = Some (SContinue ss') -> SSP ss'.
Proof.
  intros Hk H Hs. unfold search_key in Hs. pose proof H as (H1 & H2 & H3).
  destruct (_ || _); [injection Hs as <-; apply SSP_update; cbn; [apply valid_utf8_encode, chop_valid|now apply plain_chop]|].
  destruct (str_eqb k [13]); [discriminate|]. destruct (_ || _); [discriminate|].
  destruct (str_eqb k [18]); [opt Hs; injection Hs as <-; eapply SSP_older; eauto|].
  destruct (str_eqb k [19]); [opt Hs; injection Hs as <-; eapply SSP_newer; eauto|].
  destruct (decode_rune k) as [r n] eqn:Hd. destruct (is_control r) eqn:Hc; injection Hs as <-; [exact H|].
  assert (Hr : plain_rune S r /\ valid_rune r = true).
  { destruct k as [|b k].
    - injection Hd as <- <-. split; [|reflexivity]. split; [discriminate|]. exact (HVe S HS).
    - pose proof (decode_rune_valid b k) as Hv. unfold Plain.plain, all_runes in Hk. rewrite runes_step in Hk. rewrite Hd in Hk, Hv. now inversion Hk. }
  destruct Hr as [Hr Hv]. apply SSP_update; cbn.
  - apply valid_utf8_app; [exact H1|apply valid_utf8_encode_rune].
  - unfold Plain.plain, all_runes. rewrite runes_app_valid by exact H1. apply Forall_app. split; [exact H2|].
    rewrite <- (app_nil_r (encode_rune r)), runes_encode_rune by exact Hv. constructor; [exact Hr|constructor].
Qed.

Definition GS (x : sess) : Prop :=
  match x with
  | Running m s => good s /\ match m with MSearch ss => SSP ss | _ => True end
  | Finished _ _ _ => True
  end.
Lemma after_GS o x : (forall s rc, o = Some (s, rc) -> good s) -> after_command S o = Some x -> GS x.
Proof.
  unfold after_command. intros H F. opt F. specialize (H b r eq_refl).
  destruct r; try (unfold finish in F; opt F; injection F as <-; exact I).
  injection F as <-. split; [|exact I]. apply good_emit; [apply good_emit; [exact H|]|]; fines.
Qed.
Lemma wait_GS ss s x : good s -> SSP ss -> search_wait S ss s = Some x -> GS x.
Proof.
  unfold search_wait. intros H Hs F. opt F. injection F as <-. split; [|exact Hs]. apply good_emit; [exact H|]. apply Forall_app. split; [|fines].
  eapply search_fine; [|exact Ev]. rewrite StringToMoji_units. now apply plain_units, plain_search.
Qed.
Lemma step_GS e x x' : GS x -> simple_event S e -> step S e x = Some x' -> GS x'.
Proof.
  intros H He F. destruct x as [m s|s t r]; [|now injection F as <-]. destruct H as [H Hm]. destruct e as [k| |w|c]; cbn [step] in F.
  - destruct He as (Hk & Hsw & Hself). apply simple_plain in Hk.
    assert (H0 : good (emit s [TCursorOff])) by (apply good_emit; [exact H|fines]). destruct m as [| |ss].
    + unfold key_normal in F. set (s0 := emit s [TCursorOff]) in *.
      pose proof (only_builtin_keys S (proj1 HS) k) as Hb.
      destruct (LookupCommand (kmap S) (gmap S) k) eqn:El;
        try (eapply after_GS; [|exact F]; intros s' rc Hx; eapply good_exec; [exact Hb|exact Hsw| |exact Hx|exact H0];
             intros k' Hk'; apply simple_plain; apply Hself; exact Hk').
      * injection F as <-. split; [|exact I]. apply good_emit; [exact H0|fines].
      * eapply wait_GS; [apply good_goto; exact H0| |exact F]. split; [apply valid_utf8_nil|]. split; constructor.
    + unfold key_quoted in F. eapply after_GS; [|exact F]. intros s' rc Hx. opt Hx. injection Hx as <- <-.
      apply good_emit; [|fines]. eapply good_selfInsert; eauto.
    + unfold key_search in F. opt F. set (s1 := GotoHead (emit s [TCursorOff])) in *.
      assert (H1 : good s1) by (now apply good_goto). destruct s0 as [ss'| |].
      * eapply wait_GS; [exact H1|eapply SSP_key; eauto|exact F].
      * eapply after_GS; [|exact F]. unfold continue_. intros s' rc Hx. opt Hx. injection Hx as <- <-.
        unfold search_accept in Ev0. eapply good_Replace; [exact Ev0|apply Hm|]. apply good_cursor, good_cells; [constructor|].
        apply good_push; [now apply (good_text s1)|]. exact H1.
      * eapply after_GS; [|exact F]. unfold continue_. intros s' rc Hx. opt Hx. injection Hx as <- <-.
        unfold search_cancel in Ev0. opt Ev0. apply good_puts in Ev2; [|exact H1]. eapply good_puts; [exact Ev0|]. now apply good_goto, good_erase.
  - destruct m as [| |ss].
    + now injection F as <-.
    + eapply after_GS; [|exact F]. intros s' rc Hx. injection Hx as <- <-. apply good_emit; [exact H|fines].
    + eapply after_GS; [|exact F]. intros s' rc Hx. now injection Hx as <- <-.
  - destruct m; try (now injection F as <-). opt F. injection F as <-. split; [|exact I]. unfold on_resize in Ev.
    eapply good_RepaintLastLine; [exact Ev|]. exact H.
  - injection F as <-. split; [|exact Hm]. destruct H as ((H1 & H2 & H3 & H4 & H5 & H6) & Ht & Ho). split; [|split; [exact Ht|exact Ho]].
    repeat (split; [assumption|]). split; [|exact H6]. cbn. intros t ->. now apply simple_plain, He.
Qed.
Lemma start_GS default cur w cl x : pw + 11 < w -> simple_text E default -> simple_clip E cl -> start S default cur w cl = Some x -> GS x.
Proof.
  unfold pw, start. intros Hw Hd Hc H. pose proof (eq_refl pw) as Hpw. unfold pw at 2 in Hpw.
  assert (G0 : good (set_topc (emit (mkBuf [] None 0 cur w 0 (zlen (hist C)) [] [] [] cl []) [TPrompt (fst (callPromptWriter E (prompt C)))]) (snd (callPromptWriter E (prompt C))))).
  { split; [|split; [reflexivity|]].
    - split; [constructor|]. split; [constructor|]. split; [reflexivity|]. split; [intros k t []|]. split; [|constructor]. cbn. intros t ->. now apply simple_plain, Hc.
    - fines. }
  destruct (callPromptWriter E (prompt C)) as [t p]. cbn [fst snd] in *. opt H. injection H as <-. cbn [termw set_topc emit topc] in Ev.
  replace (w - 3 <=? p) with false in Ev by lia. split; [|exact I]. apply good_emit; [|fines].
  apply good_InsertString in Ev; [|now apply simple_plain|exact G0]. unfold RepaintAfterPrompt in Ev0. eapply good_repaint; [exact Ev0|]. apply good_reset.
  destruct (_ <? _); exact Ev.
Qed.
Lemma run_GS es : Forall (simple_event S) es -> forall x x', GS x -> run S es x = Some x' -> GS x'.
Proof.
  induction 1 as [|e es He _ IH]; intros x x' H F; cbn [run] in F; [now injection F as <-|]. opt F. eapply IH; [|exact F]. eapply step_GS; eauto.
Qed.
Lemma readline_GS default cur w cl es x : pw + 11 < w -> simple_text E default -> simple_clip E cl -> Forall (simple_event S) es ->
  readline S default cur w cl es = Some x -> GS x.
Proof. unfold readline. intros Hw Hd Hc Hes H. opt H. eapply run_GS; [exact Hes| |exact H]. eapply start_GS; eauto. Qed.
End WithSess.
