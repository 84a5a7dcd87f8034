(** The editor on paper with a slip: lemmas for PSlip.v. *)
From Verif Require Import Base Utf8 Moji Color Prompt Buffer Commands KeyMap Session MojiFacts Abs AbsRef AbsSess AbsSafe AbsInv Plain SafetyFacts CmdFacts EditMore Spec SpecEditor SpecExact SpecSlip EditorFacts.
From Verif Require Reach.
From Verif Require Import Session Spec SpecEditor.
Ltac lia := unfold rune in *; Lia.lia.

(** The same editor without predictions. *)
Definition off (C : cfg) : cfg := mkCfg (cE C) (hist C) (cycling C) [] (pcolor1 C) (predictor C) (prompt C) (ccol C) (upper C).
Definition bare (a : astate) : astate := aset_suf a [].
Definition ob (o : option astate) : option astate := match o with Some a => Some (bare a) | None => None end.

Section WithCfg.
Variable C : cfg.
Notation E := (cE C).
Notation C0 := (off C).
(** What the Predictor says now. *)
Definition now_ (a : astate) : list moji := match aline a with [] => [] | _ => units E (predictor C (atext a) (acur a)) end.
Lemma bare_update a : bare (aupdate C a) = bare a.
Proof. unfold aupdate. destruct (pcolor0 C); [reflexivity|]. destruct (aline a) eqn:H; reflexivity. Qed.
Hypothesis HP : pcolor0 C <> [].

Lemma off_update a : aupdate C0 a = a. Proof. reflexivity. Qed.
Lemma suf_update a : asuf (aupdate C a) = now_ a.
Proof. unfold aupdate, now_. destruct (pcolor0 C); [now destruct HP|]. destruct (aline a); reflexivity. Qed.
Lemma now_update a : now_ (aupdate C a) = now_ a.
Proof. clear HP. unfold aupdate, now_. destruct (pcolor0 C); [reflexivity|]. destruct (aline a) as [|m l] eqn:H; unfold atext; cbn [aline acur aset_suf]; now rewrite H. Qed.
Lemma asked a : asuf (aupdate C a) = now_ (aupdate C a). Proof. now rewrite suf_update, now_update. Qed.

Lemma delete_bare a p n : adelete (bare a) p n = ob (adelete a p n).
Proof.
  unfold adelete. cbn [aline bare aset_suf]. destruct (_ || _); [reflexivity|]. destruct (slice _ _ _); [|reflexivity]. destruct (sliceDelete _ _ _); reflexivity.
Qed.
Lemma ins_bare a p l : ains (bare a) p l = ob (ains a p l).
Proof. unfold ains. cbn [aline bare aset_suf]. destruct (sliceInsert _ _ _); reflexivity. Qed.
Lemma join_bare a : ajoin (bare a) = bare (ajoin a).
Proof. unfold ajoin. cbn [aundo bare aset_suf]. destruct (aundo a) as [|u2 [|u1 rest]]; try reflexivity. destruct (join2 u1 u2); reflexivity. Qed.
Lemma replace_bare a p t : areplace C0 (bare a) p t = ob (areplace C a p t).
Proof.
  unfold areplace. change (acur (bare a)) with (acur a). rewrite delete_bare. destruct (adelete a p (acur a - p)) as [a1|]; [|reflexivity]. cbn [ob].
  rewrite ins_bare. change (cE C0) with E. destruct (ains a1 p (units E t)) as [a2|]; [|reflexivity]. cbn [ob]. rewrite off_update, bare_update.
  change (aset_cur (bare a2) (p + zlen (units E t))) with (bare (aset_cur a2 (p + zlen (units E t)))). now rewrite join_bare.
Qed.
Lemma replace_suf a p t a' : areplace C a p t = Some a' -> asuf a' = now_ a'.
Proof.
  unfold areplace. destruct (adelete a p (acur a - p)) as [a1|]; [|discriminate]. destruct (ains a1 p (units E t)) as [a2|]; [|discriminate]. intros [= <-]. apply asked.
Qed.
Lemma bdelete_bare a : aBackwardDelete C0 (bare a) = ob (aBackwardDelete C a).
Proof.
  unfold aBackwardDelete. change (acur (bare a)) with (acur a). destruct (0 <? acur a); [|reflexivity].
  change (aset_cur (bare a) (acur a - 1)) with (bare (aset_cur a (acur a - 1))). rewrite delete_bare. destruct (adelete _ _ _); [|reflexivity]. cbn [ob]. now rewrite off_update, bare_update.
Qed.
Lemma bdelete_suf a a' : aBackwardDelete C a = Some a' -> asuf a' = if 0 <? acur a then now_ a' else asuf a.
Proof. unfold aBackwardDelete. destruct (0 <? acur a); [|now intros [= <-]]. destruct (adelete _ _ _); [|discriminate]. intros [= <-]. apply asked. Qed.
Lemma del_bare a : aDelete C0 (bare a) = ob (aDelete C a).
Proof. unfold aDelete. change (acur (bare a)) with (acur a). rewrite delete_bare. destruct (adelete _ _ _); [|reflexivity]. cbn [ob]. now rewrite off_update, bare_update. Qed.
Lemma del_suf a a' : aDelete C a = Some a' -> asuf a' = now_ a'.
Proof. unfold aDelete. destruct (adelete _ _ _); [|discriminate]. intros [= <-]. apply asked. Qed.
Lemma tail_bare a k : aself_tail C0 (bare a) k = ob (aself_tail C a k).
Proof.
  unfold aself_tail. change (acur (bare a)) with (acur a). rewrite ins_bare. change (cE C0) with E. destruct (ains a (acur a) (units E k)) as [a1|]; [|reflexivity]. cbn [ob].
  rewrite off_update, bare_update. reflexivity.
Qed.
Lemma tail_suf a k a' : aself_tail C a k = Some a' -> asuf a' = now_ a'.
Proof. unfold aself_tail. destruct (ains _ _ _); [|discriminate]. intros [= <-]. apply asked. Qed.
Lemma self_bare k a : aselfInsert C0 k (bare a) = ob (aselfInsert C k a).
Proof.
  unfold aselfInsert. change (cE C0) with E. change (acur (bare a)) with (acur a). change (aline (bare a)) with (aline a). change (apend (bare a)) with (apend a).
  destruct (_ && _).
  - destruct (index (aline a) (acur a - 1)) as [m|]; [|reflexivity]. exact (bdelete_bare (aset_pend a (write m ++ altgr k))).
  - destruct (_ && _).
    + destruct (index (aline a) (acur a - 1)) as [m|]; [|reflexivity]. rewrite bdelete_bare. destruct (aBackwardDelete C a) as [a1|]; [|reflexivity]. cbn [ob]. apply tail_bare.
    + destruct (apend a); [apply tail_bare|]. exact (tail_bare (aset_pend a []) _).
Qed.
Lemma self_suf k a a' : aselfInsert C k a = Some a' -> asuf a' = now_ a'.
Proof.
  unfold aselfInsert. intros H.
  destruct (AreZeroWidthJoin E (altgr k) && (0 <? acur a)) eqn:H1.
  - destruct (index (aline a) (acur a - 1)) as [m|]; [|discriminate]. apply bdelete_suf in H. cbn [acur aset_pend] in H. apply andb_true_iff in H1 as [_ H1]. now rewrite H1 in H.
  - match type of H with (if ?c then _ else _) = _ => destruct c end.
    + destruct (index (aline a) (acur a - 1)) as [m|]; [|discriminate]. destruct (aBackwardDelete C a) as [a1|]; [|discriminate]. now apply tail_suf in H.
    + destruct (apend a); now apply tail_suf in H.
Qed.
Lemma rubout_bare a : aWordRubout C0 (bare a) = ob (aWordRubout C a).
Proof.
  unfold aWordRubout. change (acur (bare a)) with (acur a). change (aline (bare a)) with (aline a). destruct (slice (aline a) 0 (acur a)) as [pre|]; [|reflexivity].
  cbv zeta. set (n := acur a - _). change (aset_cur (bare a) n) with (bare (aset_cur a n)). change (aWordTop (bare (aset_cur a n))) with (aWordTop (aset_cur a n)). change (aline (bare (aset_cur a n))) with (aline (aset_cur a n)).
  destruct (aWordTop (aset_cur a n)) as [new|]; [|reflexivity]. destruct (slice (aline (aset_cur a n)) new (acur a)) as [d|]; [|reflexivity].
  replace (aclip_write (bare (aset_cur a n)) (text d)) with (bare (aclip_write (aset_cur a n) (text d))) by (unfold aclip_write; cbn; destruct (aclip a); reflexivity).
  rewrite delete_bare. destruct (adelete _ _ _); [|reflexivity]. cbn [ob]. now rewrite off_update, bare_update.
Qed.
Lemma rubout_suf a a' : aWordRubout C a = Some a' -> asuf a' = now_ a'.
Proof.
  unfold aWordRubout. cbv zeta. destruct (slice _ _ _); [|discriminate]. destruct (aWordTop _) as [new|]; [|discriminate]. destruct (slice _ _ _); [|discriminate]. destruct (adelete _ _ _); [|discriminate]. intros [= <-]. apply asked.
Qed.
Lemma discard_bare a : aLineDiscard C0 (bare a) = ob (aLineDiscard C a).
Proof.
  unfold aLineDiscard. change (acur (bare a)) with (acur a). change (aline (bare a)) with (aline a). destruct (slice (aline a) 0 (acur a)) as [d|]; [|reflexivity].
  replace (aclip_write (bare a) (text d)) with (bare (aclip_write a (text d))) by (unfold aclip_write; cbn; destruct (aclip a); reflexivity).
  rewrite delete_bare. destruct (adelete _ _ _); [|reflexivity]. cbn [ob]. now rewrite off_update, bare_update.
Qed.
Lemma discard_suf a a' : aLineDiscard C a = Some a' -> asuf a' = now_ a'.
Proof. unfold aLineDiscard. destruct (slice _ _ _); [|discriminate]. destruct (adelete _ _ _); [|discriminate]. intros [= <-]. apply asked. Qed.
Lemma kill_bare a : aKillLine (bare a) = ob (aKillLine a).
Proof.
  unfold aKillLine, aclip_write. cbn [acur aline aclip bare aset_suf]. destruct (slice _ _ _); [|reflexivity]. destruct (aclip a); destruct (slice _ _ _); reflexivity.
Qed.
Lemma kill_suf a a' : aKillLine a = Some a' -> asuf a' = asuf a.
Proof. unfold aKillLine, aclip_write. destruct (slice _ _ _); [|discriminate]. destruct (aclip a); destruct (slice _ _ _); try discriminate; intros [= <-]; reflexivity. Qed.
Lemma yank_bare f a : aYank C0 f (bare a) = ob (aYank C f a).
Proof. unfold aYank. change (aclip (bare a)) with (aclip a). destruct (aclip a); [|reflexivity]. apply replace_bare. Qed.
Lemma yank_suf f a a' : aYank C f a = Some a' -> asuf a' = match aclip a with None => asuf a | Some _ => now_ a' end.
Proof. unfold aYank. destruct (aclip a); [apply replace_suf|now intros [= <-]]. Qed.
Lemma swap_bare a : aSwapChar (bare a) = ob (aSwapChar a).
Proof.
  unfold aSwapChar. cbn [acur aline bare aset_suf]. destruct (zlen (aline a) =? acur a).
  - destruct (acur a <? 2); [reflexivity|]. destruct (slice _ _ _); [|reflexivity]. destruct (aswap _ _ _); reflexivity.
  - destruct (acur a <? 1); [reflexivity|]. destruct (slice _ _ _); [|reflexivity]. destruct (aswap _ _ _); reflexivity.
Qed.
Lemma swap_suf a a' : aSwapChar a = Some a' -> asuf a' = asuf a.
Proof.
  unfold aSwapChar. destruct (zlen (aline a) =? acur a).
  - destruct (acur a <? 2); [now intros [= <-]|]. destruct (slice _ _ _); [|discriminate]. destruct (aswap _ _ _); [|discriminate]. now intros [= <-].
  - destruct (acur a <? 1); [now intros [= <-]|]. destruct (slice _ _ _); [|discriminate]. destruct (aswap _ _ _); [|discriminate]. now intros [= <-].
Qed.
Lemma bword_bare a : aBackwardWord C0 (bare a) = ob (aBackwardWord C a).
Proof. unfold aBackwardWord. cbn [acur aline bare aset_suf]. destruct (slice _ _ _); [|reflexivity]. cbn [ob]. rewrite off_update, bare_update. reflexivity. Qed.
Lemma bword_suf a a' : aBackwardWord C a = Some a' -> asuf a' = now_ a'.
Proof. unfold aBackwardWord. destruct (slice _ _ _); [|discriminate]. intros [= <-]. apply asked. Qed.
Lemma fword_bare b a : aForwardWord C0 b (bare a) = ob (aForwardWord C b a).
Proof. unfold aForwardWord. cbn [acur aline bare aset_suf]. destruct (slice _ _ _); [|reflexivity]. destruct b; cbn [ob]; rewrite ?off_update, ?bare_update; reflexivity. Qed.
Lemma fword_suf b a a' : aForwardWord C b a = Some a' -> asuf a' = if b then now_ a' else asuf a.
Proof. unfold aForwardWord. destruct (slice _ _ _); [|discriminate]. destruct b; intros [= <-]; [apply asked|reflexivity]. Qed.
Lemma undo_bare a : aUndo C0 (bare a) = ob (aUndo C a).
Proof.
  unfold aUndo. cbn [aundo aline bare aset_suf]. destruct (aundo a) as [|v rest]; [reflexivity|].
  match goal with |- context [if ?c then ?x else ?y] => destruct (if c then x else y) as [l1|]; [|reflexivity] end. change (cE C0) with E.
  destruct (u_text v) as [|c t]; cbn [ob]; [now rewrite off_update, bare_update|].
  destruct (sliceInsert _ _ _); [|reflexivity]. cbn [ob]. now rewrite off_update, bare_update.
Qed.
Lemma undo_suf a a' : aUndo C a = Some a' -> asuf a' = match aundo a with [] => asuf a | _ => now_ a' end.
Proof.
  unfold aUndo. destruct (aundo a) as [|v rest]; [now intros [= <-]|]. intros H.
  match type of H with context [if ?c then ?x else ?y] => destruct (if c then x else y) as [l1|]; [|discriminate] end.
  destruct (u_text v) as [|c t]; [injection H as <-; apply asked|]. destruct (sliceInsert _ _ _); [|discriminate]. injection H as <-. apply asked.
Qed.
Lemma save_bare a : asave C0 (bare a) = ob (asave C a).
Proof.
  unfold asave, atext. cbn [ahptr amodh aline bare aset_suf]. change (hist C0) with (hist C). destruct (ahptr a <? zlen (hist C)); [|reflexivity].
  destruct (index _ _); [|reflexivity]. destruct (str_eqb _ _); reflexivity.
Qed.
Lemma save_suf a a' : asave C a = Some a' -> asuf a' = asuf a.
Proof. unfold asave. destruct (ahptr a <? zlen (hist C)); [|now intros [= <-]]. destruct (index _ _); [|discriminate]. destruct (str_eqb _ _); now intros [= <-]. Qed.
Lemma show_bare a : ashow C0 (bare a) = ob (ashow C a).
Proof.
  unfold ashow. change (aKillWhole (bare a)) with (bare (aKillWhole a)). change (agetHistory C0 (bare (aKillWhole a))) with (agetHistory C (aKillWhole a)).
  destruct (agetHistory C (aKillWhole a)) as [[|c t]|]; try reflexivity. rewrite ins_bare. change (cE C0) with E. destruct (ains _ _ _); reflexivity.
Qed.
Lemma show_suf a a' : ashow C a = Some a' -> asuf a' = asuf a.
Proof.
  unfold ashow. destruct (agetHistory C (aKillWhole a)) as [[|c t]|]; try discriminate; [now intros [= <-]|]. unfold ains. destruct (sliceInsert _ _ _); [|discriminate]. now intros [= <-].
Qed.
Lemma prev_bare a : aPrevious C0 (bare a) = ob (aPrevious C a).
Proof.
  unfold aPrevious. change (hist C0) with (hist C). change (cycling C0) with (cycling C). cbv zeta. change (ahptr (bare a)) with (ahptr a).
  assert (G : forall y, (let* a1 := asave C0 (bare y) in ashow C0 (aset_hptr a1 (ahptr a1 - 1))) = ob (let* a1 := asave C y in ashow C (aset_hptr a1 (ahptr a1 - 1)))).
  { intros y. rewrite save_bare. destruct (asave C y) as [y1|]; [|reflexivity]. cbn [ob]. exact (show_bare (aset_hptr y1 (ahptr y1 - 1))). }
  destruct (zlen (hist C) <=? 0); [reflexivity|]. destruct (ahptr a <=? 0); [|apply G]. destruct (negb (cycling C)); [reflexivity|].
  exact (G (aset_hptr a (zlen (hist C) + 1))).
Qed.
Lemma prev_suf a a' : aPrevious C a = Some a' -> asuf a' = asuf a.
Proof.
  unfold aPrevious. cbv zeta. destruct (zlen (hist C) <=? 0); [now intros [= <-]|].
  assert (G : forall y, (let* a1 := asave C y in ashow C (aset_hptr a1 (ahptr a1 - 1))) = Some a' -> asuf a' = asuf y).
  { intros y H. destruct (asave C y) as [y1|] eqn:Hy; [|discriminate]. apply show_suf in H. rewrite H. exact (save_suf _ _ Hy). }
  destruct (ahptr a <=? 0); [|apply G]. destruct (negb (cycling C)); [now intros [= <-]|]. exact (G (aset_hptr a (zlen (hist C) + 1))).
Qed.
Lemma next_bare a : aNext C0 (bare a) = ob (aNext C a).
Proof.
  unfold aNext. change (hist C0) with (hist C). change (ahptr (bare a)) with (ahptr a). destruct (zlen (hist C) <=? 0); [reflexivity|]. destruct (zlen (hist C) <? ahptr a + 1); [reflexivity|].
  rewrite save_bare. destruct (asave C a) as [y1|]; [|reflexivity]. cbn [ob]. exact (show_bare (aset_hptr y1 (ahptr y1 + 1))).
Qed.
Lemma next_suf a a' : aNext C a = Some a' -> asuf a' = asuf a.
Proof.
  unfold aNext. destruct (zlen (hist C) <=? 0); [now intros [= <-]|]. destruct (zlen (hist C) <? ahptr a + 1); [now intros [= <-]|].
  intros H. destruct (asave C a) as [y1|] eqn:Hy; [|discriminate]. apply show_suf in H. rewrite H. exact (save_suf _ _ Hy).
Qed.
Lemma fchar_bare a : (zlen (aline a) <= acur a -> asuf a = []) -> aForwardChar C0 (bare a) = ob (aForwardChar C a).
Proof.
  intros H. unfold aForwardChar. cbn [acur aline asuf bare aset_suf]. destruct (Z.leb_spec (zlen (aline a)) (acur a)) as [Hl|Hl]; [now rewrite H|reflexivity].
Qed.

(** Every command but FORWARD_CHAR at the end of the line with something to take over. *)
Definition obr (o : option (astate * result)) : option (astate * result) := match o with Some (a, r) => Some (bare a, r) | None => None end.
Lemma obr_continue o : acontinue (ob o) = obr (acontinue o). Proof. now destruct o. Qed.
Lemma exec_bare b c a : builtin c -> (c = CForwardChar -> zlen (aline a) <= acur a -> asuf a = []) -> aexec C0 b c (bare a) = obr (aexec C b c a).
Proof.
  intros Hb Hf. destruct c; cbn [aexec]; try reflexivity; try (now destruct Hb);
    rewrite ?kill_bare, ?yank_bare, ?swap_bare, ?bword_bare, ?fword_bare, ?undo_bare, ?prev_bare, ?next_bare, ?self_bare, ?rubout_bare, ?discard_bare, ?bdelete_bare, ?del_bare, ?obr_continue; try reflexivity.
  all: cbn [obr]; rewrite ?off_update, ?bare_update; try reflexivity.
  - unfold aBackwardChar. change (acur (bare a)) with (acur a). destruct (acur a <=? 0); [reflexivity|]. now rewrite off_update, bare_update.
  - rewrite fchar_bare by now apply Hf. apply obr_continue.
  - change (aline (bare a)) with (aline a). destruct (0 <? zlen (aline a)); reflexivity.
Qed.
(** When the Predictor was asked. *)
Definition aasks (b : bool) (c : cmd) (a : astate) : bool :=
  match c with
  | CBackwardChar | CBackwardDeleteChar => 0 <? acur a
  | CForwardChar => (zlen (aline a) <=? acur a) && match asuf a with [] => false | _ => true end
  | CYank | CYankWithQuote => match aclip a with None => false | Some _ => true end
  | CUndo => match aundo a with [] => false | _ => true end
  | CForwardWord => b
  | CBeginningOfLine | CDeleteChar | CDeleteOrAbort | CUnixWordRubout | CUnixLineDiscard | CBackwardWord
  | CClearScreen | CRepaintOnNewline | CSelfInsert _ => true
  | _ => false
  end.
Lemma exec_suf b c a a' : aexec C b c a = Some (a', CONTINUE) -> asuf a' = if aasks b c a then now_ a' else asuf a.
Proof.
  assert (G : forall o, acontinue o = Some (a', CONTINUE) -> o = Some a') by (intros [y|]; cbn; [now intros [= <-]|discriminate]).
  destruct c; cbn [aexec aasks]; try discriminate; try (intros H; apply G in H).
  - intros [= <-]. apply asked.
  - intros [= <-]. unfold aBackwardChar. destruct (Z.leb_spec (acur a) 0); [now replace (0 <? acur a) with false by lia|replace (0 <? acur a) with true by lia; apply asked].
  - now intros [= <-].
  - unfold aForwardChar in H. destruct (zlen (aline a) <=? acur a); cbn [andb]; [|now injection H as <-].
    destruct (asuf a) eqn:Hs; [now injection H as <-|]. now apply replace_suf in H.
  - eapply bdelete_suf; exact H.
  - eapply del_suf; exact H.
  - destruct (0 <? zlen (aline a)); [|discriminate]. intros H. apply G in H. eapply del_suf; exact H.
  - eapply kill_suf; exact H.
  - now intros [= <-].
  - eapply rubout_suf; exact H.
  - eapply discard_suf; exact H.
  - intros [= <-]. apply asked.
  - intros [= <-]. apply asked.
  - now intros [= <-].
  - apply yank_suf in H. now destruct (aclip a).
  - apply yank_suf in H. now destruct (aclip a).
  - eapply swap_suf; exact H.
  - eapply bword_suf; exact H.
  - eapply fword_suf; exact H.
  - apply undo_suf in H. now destruct (aundo a).
  - eapply prev_suf; exact H.
  - eapply next_suf; exact H.
  - now intros [= <-].
  - now apply self_suf in H.
Qed.
End WithCfg.
