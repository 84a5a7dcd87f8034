(** Lemmas for C57: what does not look at the prompt, and sessions whose prompt varies. *)
From Verif Require Import Base Utf8 Moji Color Prompt Buffer Commands KeyMap Session Prompts MojiFacts
  Abs AbsRef AbsSess AbsSafe AbsInv Safe SafeSess Plain Spec Reach SafetyFacts SpecIndep SpecPrompts IndepFacts.

(** Only RepaintAll and RepaintLastLine look at the prompt. *)
Section NoPrompt.
Variables (E : env) (h : list str) (cy : bool) (p0 p1 : str) (pr : str -> Z -> str) (q q' : option str) (col : coloring) (up : str -> str).
Notation C := (mkCfg E h cy p0 p1 pr q col up).
Notation C' := (mkCfg E h cy p0 p1 pr q' col up).
Ltac pnorm := cbn [cE hist cycling pcolor0 pcolor1 predictor ccol upper]; autorewrite with pp; reflexivity.
Lemma range_width_p : range_width C' = range_width C. Proof. reflexivity. Qed.
Hint Rewrite range_width_p : pp.
Lemma Suffix_p : Suffix C' = Suffix C. Proof. unfold Suffix. pnorm. Qed.
Hint Rewrite Suffix_p : pp.
Lemma updateSuffix_p : updateSuffix C' = updateSuffix C. Proof. unfold updateSuffix. pnorm. Qed.
Hint Rewrite updateSuffix_p : pp.
Lemma view_fit_p : view_fit C' = view_fit C. Proof. reflexivity. Qed.
Hint Rewrite view_fit_p : pp.
Lemma getView_p : getView C' = getView C. Proof. unfold getView. pnorm. Qed.
Hint Rewrite getView_p : pp.
Lemma getView2_p : getView2 C' = getView2 C. Proof. unfold getView2. pnorm. Qed.
Hint Rewrite getView2_p : pp.
Lemma insertString_p : insertString C' = insertString C. Proof. unfold insertString. pnorm. Qed.
Hint Rewrite insertString_p : pp.
Lemma InsertString_p : InsertString C' = InsertString C. Proof. unfold InsertString. pnorm. Qed.
Hint Rewrite InsertString_p : pp.
Lemma GetWidthBetween_p : GetWidthBetween C' = GetWidthBetween C. Proof. unfold GetWidthBetween. pnorm. Qed.
Hint Rewrite GetWidthBetween_p : pp.
Lemma Delete_p : Delete C' = Delete C. Proof. unfold Delete. pnorm. Qed.
Hint Rewrite Delete_p : pp.
Lemma rvs_shrink_p : rvs_shrink C' = rvs_shrink C. Proof. reflexivity. Qed.
Hint Rewrite rvs_shrink_p : pp.
Lemma rvs_loop_p : rvs_loop C' = rvs_loop C. Proof. reflexivity. Qed.
Hint Rewrite rvs_loop_p : pp.
Lemma ResetViewStart_p : ResetViewStart C' = ResetViewStart C. Proof. unfold ResetViewStart. pnorm. Qed.
Hint Rewrite ResetViewStart_p : pp.
Lemma feed_p : feed C' = feed C. Proof. reflexivity. Qed.
Hint Rewrite feed_p : pp.
Lemma unit_runes_p : unit_runes C' = unit_runes C. Proof. unfold unit_runes. pnorm. Qed.
Hint Rewrite unit_runes_p : pp.
Lemma refresh_loop_p : refresh_loop C' = refresh_loop C. Proof. reflexivity. Qed.
Hint Rewrite refresh_loop_p : pp.
Lemma refreshColor_p : refreshColor C' = refreshColor C. Proof. unfold refreshColor. pnorm. Qed.
Hint Rewrite refreshColor_p : pp.
Lemma paint_p : paint C' = paint C. Proof. reflexivity. Qed.
Hint Rewrite paint_p : pp.
Lemma puts_p : puts C' = puts C. Proof. unfold puts. pnorm. Qed.
Hint Rewrite puts_p : pp.
Lemma paint_suffix_p : paint_suffix C' = paint_suffix C. Proof. reflexivity. Qed.
Hint Rewrite paint_suffix_p : pp.
Lemma repaintWithoutUpdateSuffix_p : repaintWithoutUpdateSuffix C' = repaintWithoutUpdateSuffix C. Proof. unfold repaintWithoutUpdateSuffix. pnorm. Qed.
Hint Rewrite repaintWithoutUpdateSuffix_p : pp.
Lemma repaint_p : repaint C' = repaint C. Proof. unfold repaint. pnorm. Qed.
Hint Rewrite repaint_p : pp.
Lemma ReplaceAndRepaint_p : ReplaceAndRepaint C' = ReplaceAndRepaint C. Proof. unfold ReplaceAndRepaint. pnorm. Qed.
Hint Rewrite ReplaceAndRepaint_p : pp.
Lemma InsertAndRepaint_p : InsertAndRepaint C' = InsertAndRepaint C. Proof. unfold InsertAndRepaint. pnorm. Qed.
Hint Rewrite InsertAndRepaint_p : pp.
Lemma RepaintAfterPrompt_p : RepaintAfterPrompt C' = RepaintAfterPrompt C. Proof. unfold RepaintAfterPrompt. pnorm. Qed.
Hint Rewrite RepaintAfterPrompt_p : pp.
Lemma cmdBeginningOfLine_p : cmdBeginningOfLine C' = cmdBeginningOfLine C. Proof. unfold cmdBeginningOfLine. pnorm. Qed.
Hint Rewrite cmdBeginningOfLine_p : pp.
Lemma cmdBackwardChar_p : cmdBackwardChar C' = cmdBackwardChar C. Proof. unfold cmdBackwardChar. pnorm. Qed.
Hint Rewrite cmdBackwardChar_p : pp.
Lemma eol_loop_p : eol_loop C' = eol_loop C. Proof. reflexivity. Qed.
Hint Rewrite eol_loop_p : pp.
Lemma cmdEndOfLine_p : cmdEndOfLine C' = cmdEndOfLine C. Proof. unfold cmdEndOfLine. pnorm. Qed.
Hint Rewrite cmdEndOfLine_p : pp.
Lemma cmdForwardChar_p : cmdForwardChar C' = cmdForwardChar C. Proof. unfold cmdForwardChar. pnorm. Qed.
Hint Rewrite cmdForwardChar_p : pp.
Lemma cmdBackwardDeleteChar_p : cmdBackwardDeleteChar C' = cmdBackwardDeleteChar C. Proof. unfold cmdBackwardDeleteChar. pnorm. Qed.
Hint Rewrite cmdBackwardDeleteChar_p : pp.
Lemma cmdDeleteChar_p : cmdDeleteChar C' = cmdDeleteChar C. Proof. unfold cmdDeleteChar. pnorm. Qed.
Hint Rewrite cmdDeleteChar_p : pp.
Lemma cmdDeleteOrAbort_p : cmdDeleteOrAbort C' = cmdDeleteOrAbort C. Proof. unfold cmdDeleteOrAbort. pnorm. Qed.
Hint Rewrite cmdDeleteOrAbort_p : pp.
Lemma self_insert_tail_p : self_insert_tail C' = self_insert_tail C. Proof. unfold self_insert_tail. pnorm. Qed.
Hint Rewrite self_insert_tail_p : pp.
Lemma selfInsert_p : selfInsert C' = selfInsert C. Proof. unfold selfInsert. pnorm. Qed.
Hint Rewrite selfInsert_p : pp.
Lemma cmdUnixWordRubout_p : cmdUnixWordRubout C' = cmdUnixWordRubout C. Proof. unfold cmdUnixWordRubout. pnorm. Qed.
Hint Rewrite cmdUnixWordRubout_p : pp.
Lemma cmdUnixLineDiscard_p : cmdUnixLineDiscard C' = cmdUnixLineDiscard C. Proof. unfold cmdUnixLineDiscard. pnorm. Qed.
Hint Rewrite cmdUnixLineDiscard_p : pp.
Lemma cmdYank_p : cmdYank C' = cmdYank C. Proof. unfold cmdYank. pnorm. Qed.
Hint Rewrite cmdYank_p : pp.
Lemma cmdYankWithQuote_p : cmdYankWithQuote C' = cmdYankWithQuote C. Proof. unfold cmdYankWithQuote. pnorm. Qed.
Hint Rewrite cmdYankWithQuote_p : pp.
Lemma cmdSwapChar_p : cmdSwapChar C' = cmdSwapChar C. Proof. unfold cmdSwapChar. pnorm. Qed.
Hint Rewrite cmdSwapChar_p : pp.
Lemma cmdBackwardWord_p : cmdBackwardWord C' = cmdBackwardWord C. Proof. unfold cmdBackwardWord. pnorm. Qed.
Hint Rewrite cmdBackwardWord_p : pp.
Lemma cmdForwardWord_p : cmdForwardWord C' = cmdForwardWord C. Proof. unfold cmdForwardWord. pnorm. Qed.
Hint Rewrite cmdForwardWord_p : pp.
Lemma cmdUndo_p : cmdUndo C' = cmdUndo C. Proof. unfold cmdUndo. pnorm. Qed.
Hint Rewrite cmdUndo_p : pp.
Lemma saveModifiedHistory_p : saveModifiedHistory C' = saveModifiedHistory C. Proof. unfold saveModifiedHistory. pnorm. Qed.
Hint Rewrite saveModifiedHistory_p : pp.
Lemma getHistory_p : getHistory C' = getHistory C. Proof. unfold getHistory. pnorm. Qed.
Hint Rewrite getHistory_p : pp.
Lemma show_history_p : show_history C' = show_history C. Proof. unfold show_history. pnorm. Qed.
Hint Rewrite show_history_p : pp.
Lemma cmdPreviousHistory_p : cmdPreviousHistory C' = cmdPreviousHistory C. Proof. unfold cmdPreviousHistory. pnorm. Qed.
Hint Rewrite cmdPreviousHistory_p : pp.
Lemma cmdNextHistory_p : cmdNextHistory C' = cmdNextHistory C. Proof. unfold cmdNextHistory. pnorm. Qed.
Hint Rewrite cmdNextHistory_p : pp.
Lemma exec_p c s : c <> CClearScreen -> c <> CRepaintOnNewline -> exec C' c s = exec C c s.
Proof. intros H1 H2. destruct c; try congruence; unfold exec; autorewrite with pp; reflexivity. Qed.

Variables (km gm : keymap).
Notation S := (mkScfg C km gm).
Notation S' := (mkScfg C' km gm).
Lemma search_update_p : search_update S' = search_update S. Proof. reflexivity. Qed.
Lemma search_older_p : search_older S' = search_older S. Proof. reflexivity. Qed.
Lemma search_newer_p : search_newer S' = search_newer S. Proof. reflexivity. Qed.
Lemma search_paint_p : search_paint S' = search_paint S. Proof. reflexivity. Qed.
Hint Rewrite search_update_p search_older_p search_newer_p search_paint_p : pp.
Ltac pn := cbn [base cE hist cycling pcolor0 pcolor1 predictor ccol upper kmap gmap]; autorewrite with pp; reflexivity.
Lemma update_p : update S' = update S. Proof. unfold update. pn. Qed.
Lemma search_wait_p : search_wait S' = search_wait S. Proof. unfold search_wait. pn. Qed.
Hint Rewrite update_p search_wait_p : pp.
Lemma search_key_p : search_key S' = search_key S. Proof. unfold search_key. pn. Qed.
Lemma search_accept_p : search_accept S' = search_accept S. Proof. unfold search_accept. pn. Qed.
Lemma search_cancel_p : search_cancel S' = search_cancel S. Proof. unfold search_cancel. pn. Qed.
Lemma finish_p : finish S' = finish S. Proof. unfold finish. pn. Qed.
Hint Rewrite search_key_p search_accept_p search_cancel_p finish_p : pp.
Lemma after_command_p : after_command S' = after_command S. Proof. unfold after_command. pn. Qed.
Hint Rewrite after_command_p : pp.
Lemma key_quoted_p : key_quoted S' = key_quoted S. Proof. unfold key_quoted. pn. Qed.
Lemma key_search_p : key_search S' = key_search S. Proof. unfold key_search. pn. Qed.
Hint Rewrite key_quoted_p key_search_p : pp.
Lemma key_normal_p k s : LookupCommand km gm k <> CClearScreen -> LookupCommand km gm k <> CRepaintOnNewline -> key_normal S' k s = key_normal S k s.
Proof.
  intros H1 H2. unfold key_normal. cbn [base cE hist kmap gmap]. rewrite search_wait_p, after_command_p.
  destruct (LookupCommand km gm k); try congruence;
    lazymatch goal with |- context [exec C' ?c ?x] => rewrite (exec_p c x) by discriminate; reflexivity | _ => reflexivity end.
Qed.
End NoPrompt.

(** Events during which the prompt may be written. *)
Definition prompting (S : scfg) (e : event) (m : mode) : Prop :=
  match e, m with
  | EResize _, MNormal => True
  | EKey k, MNormal => LookupCommand (kmap S) (gmap S) k = CClearScreen \/ LookupCommand (kmap S) (gmap S) k = CRepaintOnNewline
  | _, _ => False
  end.
Lemma step_p S p e m s : ~ prompting S e m -> step (with_prompt S p) e (Running m s) = step S e (Running m s).
Proof.
  intros H. unfold with_prompt. destruct S as [[E0 h cy p0 p1 pr q col up] km gm]. cbn [base cE hist cycling pcolor0 pcolor1 predictor ccol upper kmap gmap prompt] in *.
  cbn [step]. destruct e as [k| |w|c].
  - destruct m as [| |ss].
    + apply key_normal_p; intros K; apply H; cbn; auto.
    + now rewrite (key_quoted_p E0 h cy p0 p1 pr q p col up km gm).
    + now rewrite (key_search_p E0 h cy p0 p1 pr q p col up km gm).
  - destruct m; [reflexivity| |]; now rewrite (after_command_p E0 h cy p0 p1 pr q p col up km gm).
  - destruct m; [exfalso; apply H; exact I|reflexivity|reflexivity].
  - reflexivity.
Qed.
Lemma repaint_prompt S p : repaint (base (with_prompt S p)) = repaint (base S).
Proof. unfold with_prompt. destruct S as [[E0 h cy p0 p1 pr q col up] km gm]. apply repaint_p. Qed.
Lemma reset_prompt S p : ResetViewStart (base (with_prompt S p)) = ResetViewStart (base S).
Proof. unfold with_prompt. destruct S as [[E0 h cy p0 p1 pr q col up] km gm]. apply ResetViewStart_p. Qed.
Lemma insert_prompt S p : InsertString (base (with_prompt S p)) = InsertString (base S).
Proof. unfold with_prompt. destruct S as [[E0 h cy p0 p1 pr q col up] km gm]. apply InsertString_p. Qed.

Section Sess.
Variable S : scfg.
Notation C := (base S).
Notation E := (cE C).
Hypothesis HE : env_ok E.
Hypothesis HP : pred_ok C.
Hypothesis HB : builtin_keys S.

Lemma PW_prompt p : PW (base (with_prompt S p)) = Z.max 0 (snd (callPromptWriter E p)). Proof. reflexivity. Qed.

(** A command that writes a prompt no wider than the editor's own. *)
Lemma all_prompt p s ts w : PW (base (with_prompt S p)) <= PW C -> CInv C s -> termw s = w -> lim E (emojis (cells s)) ->
  exists s', RepaintAll (base (with_prompt S p)) (emit s ts) = Some s' /\ CInv C s' /\ termw s' = w /\ abs s' = aupdate C (abs s).
Proof.
  intros Hp (HBs & Hv & Hz) Hw Hl. unfold RepaintAll. change (cE (base (with_prompt S p))) with E. change (prompt (base (with_prompt S p))) with p.
  rewrite PW_prompt in Hp. destruct (callPromptWriter E p) as [t pw]. cbn [snd] in Hp. rewrite repaint_prompt.
  destruct (repaint_ok C HE HP (set_topc (emit (emit s ts) [TFlush; TPrompt t]) pw)) as (s' & Hr & HC' & _ & Ht & _).
  - split; [|exact (conj Hv Hz)]. split; [apply HBs|]. cbn. lia.
  - exact Hl.
  - exists s'. split; [exact Hr|]. split; [exact HC'|]. split; [now rewrite Ht|]. now apply repaint_ref in Hr.
Qed.
Lemma lookup_prompting k m : prompting S (EKey k) m -> m = MNormal /\ (LookupCommand (kmap S) (gmap S) k = CClearScreen \/ LookupCommand (kmap S) (gmap S) k = CRepaintOnNewline).
Proof. destruct m; cbn; tauto. Qed.
Lemma prompting_dec e m : prompting S e m \/ ~ prompting S e m.
Proof.
  destruct e as [k| | |], m; cbn; try tauto. destruct (LookupCommand (kmap S) (gmap S) k); auto; right; intros [H|H]; discriminate.
Qed.

Lemma step_prompt_safe w p e x : PW (base (with_prompt S p)) <= PW C ->
  SC S w x -> sInv S (abss x) -> sheads S (abss x) -> ~ bad_swap S e (abss x) ->
  fits S w (abss x) -> (forall b x', astep S b e (abss x) = Some x' -> fits S (new_width w e (abss x)) x') ->
  exists x' b, step (with_prompt S p) e x = Some x' /\ SC S (new_width w e (abss x)) x' /\ astep S b e (abss x) = Some (abss x').
Proof.
  intros Hp HS HI Hh Hsw Hf Hnext. destruct x as [m s|s t r].
  2:{ exists (Finished s t r), true. split; [reflexivity|]. split; [destruct e; exact HS|reflexivity]. }
  destruct (prompting_dec e m) as [Hm|Hm].
  - destruct HS as [HC Htw]. destruct Hf as [Hwide Hdraw]. cbn [abss] in *. destruct e as [k| |w'|c]; try (now destruct m).
    + apply lookup_prompting in Hm as [-> Hc]. cbn [step]. unfold key_normal. change (kmap (with_prompt S p)) with (kmap S). change (gmap (with_prompt S p)) with (gmap S).
      cbn [new_width astep]. unfold akey_normal.
      destruct (all_prompt p (emit s [TCursorOff]) [match LookupCommand (kmap S) (gmap S) k with CClearScreen => TClear | _ => TNewline end] w Hp HC Htw (proj2 (proj2 Hwide))) as (s' & Hr & HC' & Ht & Ha).
      exists (Running MNormal (emit (emit s' [TCursorOn]) [TFlush])), true.
      destruct Hc as [Hc|Hc]; rewrite Hc in Hr |- *; cbn [exec after_command aexec aafter]; unfold cmdClearScreen, cmdRepaintOnNewline, continue_, acontinue; rewrite Hr; cbn [abss];
        (split; [reflexivity|]; split; [split; [exact HC'|exact Ht]|]); do 2 f_equal; symmetry; exact Ha.
    + destruct m; try easy. cbn [step new_width astep] in *. destruct (Hnext true _ eq_refl) as [Hl' _]. rewrite aupdate_line in Hl'.
      unfold on_resize, RepaintLastLine. rewrite repaint_prompt, reset_prompt.
      set (y := emit (ResetViewStart C (set_termw s w')) _).
      destruct (repaint_ok C HE HP y) as (s' & Hr & HC' & _ & Ht' & _).
      * apply CInv_emit, ResetViewStart_ok; [exact HE|apply HC|exact Hl'|]. cbn. split; [destruct HC as (_ & ? & _); lia|apply HC].
      * apply Hl'.
      * rewrite Hr. exists (Running MNormal s'), true. split; [reflexivity|]. split; [split; [exact HC'|exact Ht']|].
        cbn [abss]. do 2 f_equal. symmetry. apply repaint_ref in Hr. exact Hr.
  - rewrite (step_p S p e m s Hm). destruct (step_safe S HE HP HB w e (Running m s) HS HI Hh Hsw Hf Hnext) as (x' & Hst & HS').
    destruct (step_ref S e _ _ HB Hst) as [b Hb]. exists x', b. auto.
Qed.
Lemma run_prompts_safe pes : Forall (fun pe => PW (base (with_prompt S (fst pe))) <= PW C) pes ->
  forall w x, SC S w x -> sInv S (abss x) -> guarded S w (abss x) (map snd pes) ->
  exists x' w', run_prompts S pes x = Some x' /\ SC S w' x'.
Proof.
  induction 1 as [|[p e] pes Hp _ IH]; intros w x HS HI HG; cbn [run_prompts map snd] in *.
  - exists x, w. auto.
  - cbn [guarded] in HG. destruct HG as (Hf & Hh & Hsw & Hn).
    destruct (step_prompt_safe w p e x Hp HS HI Hh Hsw Hf) as (x' & b & Hst & HS' & Hb).
    { intros b x' Hx'. specialize (Hn b x' Hx'). now apply guarded_here in Hn. }
    rewrite Hst. destruct (astep_ok S b e (abss x) HB HI Hh Hsw) as (y & Hy & HI'). rewrite Hb in Hy. injection Hy as <-.
    eapply IH; [exact HS'|exact HI'|]. now apply (Hn b).
Qed.

(** The part of ReadLine after the prompt. *)
Definition start_tail (s2 : buf) (default : str) : option sess :=
  let* (s3, _) := InsertString C s2 0 default in
  let s4 := if zlen (cells s3) <? cursor s3 then set_cursor s3 (zlen (cells s3)) else s3 in
  let* s5 := RepaintAfterPrompt C s4 in
  Some (Running MNormal (emit s5 [TCursorOn; TFlush])).
(** The state after some prompt. *)
Record prompted (cur w : Z) (cl : option str) (s2 : buf) : Prop := {
  pd_cells : cells s2 = [];
  pd_termw : termw s2 = w;
  pd_abs : abs s2 = mkA [] cur [] [] (zlen (hist C)) [] cl []
}.
Lemma tail_ref default cur w cl s2 x : prompted cur w cl s2 -> start_tail s2 default = Some x -> abss x = ARunning MNormal (astart S default cur cl).
Proof.
  intros [_ _ Ha] H. unfold start_tail, astart in *. opt H.
  injection H as <-. cbn [abss]. rewrite abs_emit. f_equal.
  unfold RepaintAfterPrompt in Ev0. apply repaint_ref in Ev0. rewrite Ev0. f_equal.
  rewrite abs_ResetViewStart. apply InsertString_ref in Ev as [Ei _].
  rewrite Ha in Ei. unfold ains in Ei. cbn [aline] in Ei.
  assert (Hi : forall l : list moji, sliceInsert [] 0 l = Some l).
  { intros l. rewrite sliceInsert_firstn by (unfold zlen; cbn; lia). cbn. now rewrite app_nil_r. }
  rewrite Hi in Ei. apply (f_equal (fun o => match o with Some y => y | None => abs b end)) in Ei.
  assert (Hz : zlen (cells b) = zlen (units E default)).
  { rewrite <- zlen_emojis. change (emojis (cells b)) with (aline (abs b)). rewrite <- Ei. reflexivity. }
  assert (Hcu : cursor b = cur) by (change (cursor b) with (acur (abs b)); rewrite <- Ei; reflexivity).
  rewrite Hz, Hcu. destruct (zlen (units E default) <? cur).
  - rewrite abs_set_cursor, <- Ei. reflexivity.
  - rewrite <- Ei. reflexivity.
Qed.
Lemma tail_safe default cur w cl s2 : 0 <= cur -> prompted cur w cl s2 -> topc s2 <= PW C -> fits S w (ARunning MNormal (astart S default cur cl)) ->
  exists x, start_tail s2 default = Some x /\ SC S w x.
Proof.
  intros Hcur [Hce Htw Ha] Htc [Hl _]. unfold astart in Hl. rewrite aupdate_line in Hl. cbn [aline] in Hl.
  assert (Hcu : cursor s2 = cur) by (change (cursor s2) with (acur (abs s2)); now rewrite Ha).
  unfold start_tail.
  assert (HBs : B C s2) by (split; [rewrite Hce; constructor|exact Htc]).
  assert (Hi : ains (abs s2) 0 (units E default) = Some (apush (aset_line (abs s2) (units E default)) (mkUndo 0 (zlen (units E default)) []))).
  { unfold ains. change (aline (abs s2)) with (emojis (cells s2)). rewrite Hce. change (emojis []) with (@nil moji).
    rewrite sliceInsert_firstn by (unfold zlen; cbn; lia). cbn [Z.to_nat firstn skipn app]. rewrite app_nil_r. reflexivity. }
  destruct (insertString_conv C HE s2 0 default _ HBs (proj2 (proj2 Hl)) Hi) as (s3 & l & H3 & Ha3 & Ho3 & Hz3 & _).
  unfold InsertString. rewrite H3.
  pose proof (only_edit_B C _ _ Ho3 HBs) as HB3. apply only_edit_fields in Ho3 as (T1 & T2 & T3 & T4).
  assert (Hem : emojis (cells s3) = units E default).
  { change (emojis (cells s3)) with (aline (abs s3)). rewrite Ha3. reflexivity. }
  set (s4 := if zlen (cells s3) <? cursor s3 then set_cursor s3 (zlen (cells s3)) else s3).
  unfold RepaintAfterPrompt.
  destruct (RVS_repaint_ok C HE HP s4) as (s5 & Hr & HC5 & Ht5).
  - unfold s4. destruct (_ <? _); exact HB3.
  - unfold wide, V. replace (termw s4) with w by (unfold s4; destruct (_ <? _); cbn; congruence).
    replace (emojis (cells s4)) with (units E default) by (unfold s4; destruct (_ <? _); cbn; congruence). exact Hl.
  - unfold s4. pose proof (zlen_nonneg (cells s3)). destruct (zlen (cells s3) <? cursor s3) eqn:Hx; cbn; lia.
  - rewrite Hr. eexists. split; [reflexivity|]. split; [exact HC5|]. cbn. rewrite Ht5.
    unfold s4; destruct (_ <? _); cbn; congruence.
Qed.

(** What stands first on the screen. *)
Lemma tail_first default s2 x : start_tail s2 default = Some x -> exists s rest, x = Running MNormal s /\ out s = out s2 ++ rest /\ topc s = topc s2.
Proof.
  unfold start_tail, RepaintAfterPrompt, repaint. intros H. opt H. injection H as <-.
  assert (K : out b = out s2 /\ topc b = topc s2).
  { unfold InsertString, insertString, insert in Ev. destruct (sliceInsert _ _ _); [|discriminate]. injection Ev as <- _. now destruct s2. }
  destruct K as [K1 K2]. apply repaintW_paints in Ev0 as (l & ts & -> & _). eexists _, (ts ++ [TCursorOn; TFlush]). split; [reflexivity|].
  set (b2 := if _ <? _ then _ else _) in *. assert (L : out b2 = out s2 /\ topc b2 = topc s2) by (unfold b2; destruct (_ <? _); auto).
  destruct (updateSuffix_fields C (ResetViewStart C b2)) as [y ->]. unfold ResetViewStart. destruct L as [<- <-].
  cbn [emit set_cells set_view out topc set_suffix]. now rewrite app_assoc.
Qed.

(** Either way to begin. *)
Lemma start_prompt_tail f default cur w cl : exists s2, start_prompt S f default cur w cl = start_tail s2 default /\ prompted cur w cl s2 /\
  (first_not_wider S f -> topc s2 <= PW C).
Proof.
  destruct f as [p|p msg]; cbn [start_prompt].
  - unfold start, start_tail. rewrite insert_prompt. unfold RepaintAfterPrompt. rewrite repaint_prompt, reset_prompt.
    change (cE (base (with_prompt S p))) with E. change (prompt (base (with_prompt S p))) with p. change (hist (base (with_prompt S p))) with (hist C).
    destruct (callPromptWriter E p) as [t pw] eqn:Hc. eexists. split; [reflexivity|]. split.
    + destruct (_ <=? _); split; reflexivity.
    + unfold first_not_wider, not_wider, prompt_width, PW. change (cE (base (with_prompt S p))) with E. change (prompt (base (with_prompt S p))) with p. rewrite Hc. cbn [snd].
      intros H. destruct (_ <=? _); cbn; lia.
  - unfold start_failed, start_tail. rewrite insert_prompt. unfold RepaintAfterPrompt. rewrite repaint_prompt, reset_prompt.
    change (cE (base (with_prompt S p))) with E. change (prompt (base (with_prompt S p))) with p. change (hist (base (with_prompt S p))) with (hist C).
    destruct (callPromptWriter E p) as [t pw] eqn:Hc. eexists. split; [reflexivity|]. split; [split; reflexivity|].
    cbn. unfold prompt_width, PW. lia.
Qed.
Lemma first_shown f default cur w cl x : start_prompt S f default cur w cl = Some x -> exists s rest, x = Running MNormal s /\
  match f with
  | Shown p => let '(t, pw) := callPromptWriter E p in
      (pw < w - 3 -> out s = TPrompt t :: rest /\ topc s = pw) /\ (w - 3 <= pw -> out s = TPrompt t :: TNewline :: rest /\ topc s = 0)
  | Failed p msg => out s = TPrompt (fst (callPromptWriter E p)) :: TPrompt (msg ++ [10; 36; 32]) :: rest /\ topc s = 2
  end.
Proof.
  destruct f as [p|p msg]; cbn [start_prompt].
  - unfold start. rewrite insert_prompt. unfold RepaintAfterPrompt. rewrite repaint_prompt, reset_prompt.
    change (cE (base (with_prompt S p))) with E. change (prompt (base (with_prompt S p))) with p. change (hist (base (with_prompt S p))) with (hist C).
    destruct (callPromptWriter E p) as [t pw] eqn:Hc. intros H. apply tail_first in H as (s & rest & -> & Ho & Ht). exists s, rest. split; [reflexivity|].
    cbn [termw topc set_topc emit] in *. destruct (w - 3 <=? pw) eqn:Hw; cbn in Ho, Ht; split; intros; try lia; auto.
  - unfold start_failed. rewrite insert_prompt. unfold RepaintAfterPrompt. rewrite repaint_prompt, reset_prompt.
    change (cE (base (with_prompt S p))) with E. change (prompt (base (with_prompt S p))) with p. change (hist (base (with_prompt S p))) with (hist C).
    destruct (callPromptWriter E p) as [t pw] eqn:Hc. intros H. apply tail_first in H as (s & rest & -> & Ho & Ht). exists s, rest. cbn in Ho, Ht. auto.
Qed.
Lemma prompts_safe f default cur w cl pes : 0 <= cur -> first_not_wider S f -> Forall (fun pe => not_wider S (fst pe)) pes ->
  guarded S w (ARunning MNormal (astart S default cur cl)) (map snd pes) ->
  exists x w', readline_prompts S f default cur w cl pes = Some x /\ SC S w' x.
Proof.
  intros Hcur Hf Hp HG. destruct (start_prompt_tail f default cur w cl) as (s2 & Hs & Hd & Ht).
  destruct (tail_safe default cur w cl s2 Hcur Hd (Ht Hf) (proj1 (guarded_here _ _ _ _ HG))) as (x & Hx & HS).
  unfold readline_prompts. rewrite Hs, Hx. pose proof (tail_ref _ _ _ _ _ _ Hd Hx) as Ha.
  eapply run_prompts_safe; [|exact HS| |rewrite Ha; exact HG].
  - exact Hp.
  - rewrite Ha. split; [exact I|]. now apply astart_ok.
Qed.
End Sess.

Lemma simple_prompts_safe S f default cur w cl pes : simple_editor S -> simple_text (cE (base S)) default -> simple_clip (cE (base S)) cl ->
  Forall (fun pe => simple_event S (snd pe) /\ not_wider S (fst pe)) pes -> first_not_wider S f -> 0 <= cur -> prompt_width (base S) + 11 < w ->
  exists x, readline_prompts S f default cur w cl pes = Some x /\ in_bounds (buf_of x).
Proof.
  intros (H1 & H2 & H3 & H4 & H5 & H6 & H7) Hd Hcl Hes Hf Hc Hw.
  assert (HVe : joinlike (cE (base S)) RuneError = false) by now rewrite <- joins_like.
  assert (HV34 : plain_rune S 34) by (split; [lia|now rewrite <- joins_like]).
  assert (Hpr : pcolor0 (base S) = [] \/ forall t c, plain S (predictor (base S) t c)).
  { destruct H6 as [H6|H6]; [now left|right]. intros t c. now apply simple_plain. }
  assert (Hh : Forall (plain S) (hist (base S))) by (eapply Forall_impl; [|exact H7]; apply simple_plain).
  assert (HB : builtin_keys S) by now apply only_builtin_keys.
  assert (Hcl' : match cl with Some t => plain S t | None => True end) by (destruct cl; [now apply simple_plain, Hcl|exact I]).
  destruct (prompts_safe S H2 (pred_plain S Hpr) HB f default cur w cl pes Hc Hf) as (x & w' & Hx & HS).
  - eapply Forall_impl; [|exact Hes]. now intros pe [_ K].
  - apply NS_guarded; auto.
    + apply Forall_forall. intros e He. apply in_map_iff in He as (pe & <- & Hi). rewrite Forall_forall in Hes. apply simple_plain_event. now apply Hes.
    + unfold prompt_width, PW in *. lia.
    + split; [|exact I]. unfold astart. apply NA_aupdate; auto.
      split; [now apply plain_units, simple_plain|]. split; [repeat constructor|]. split; [reflexivity|].
      split; [intros k t []|]. split; [|constructor]. cbn. intros t ->. exact Hcl'.
  - exists x. split; [exact Hx|]. destruct x; apply HS.
Qed.

(** The outcome. *)
Lemma display_prompt S S2 p : same_but_display S S2 -> same_but_display (with_prompt S p) S2.
Proof. intros []. constructor; assumption. Qed.
Lemma builtin_prompt S p : builtin_keys S -> builtin_keys (with_prompt S p).
Proof. exact (fun H => H). Qed.
Lemma run_prompts_rel S S2 : same_but_display S S2 -> builtin_keys S -> forall pes es2, without_resizes (map snd pes) = without_resizes es2 ->
  forall x1 x2 y1 y2, srel (abss x1) (abss x2) -> run_prompts S pes x1 = Some y1 -> run S2 es2 x2 = Some y2 -> srel (abss y1) (abss y2).
Proof.
  intros HS HB1. assert (HB2 : builtin_keys S2) by (unfold builtin_keys in *; now rewrite <- (sd_kmap _ _ HS), <- (sd_gmap _ _ HS)).
  induction pes as [|[p e1] pes IH].
  - intros es2 Hw x1 x2 y1 y2 Hx H1 H2. cbn [run_prompts] in H1. injection H1 as <-. symmetry in Hw. apply srel_sym.
    eapply resizes_only; [exact (sd_off2 _ _ HS)|exact HB2|exact Hw|exact H2|]. now apply srel_sym.
  - pose proof (display_prompt _ _ p HS) as HSp. pose proof (builtin_prompt _ p HB1) as HBp. cbn [map snd].
    intros es2 Hw x1 x2 y1 y2 Hx H1 H2.
    assert (R1 : forall w, e1 = EResize w -> srel (abss y1) (abss y2)).
    { intros w ->. cbn [run_prompts] in H1. destruct (step (with_prompt S p) (EResize w) x1) as [x1'|] eqn:Hs; [|discriminate].
      eapply (IH es2 Hw x1' x2); [|exact H1|exact H2]. apply step_ref in Hs as [b Hb]; [|exact HBp]. eapply astep_resize; eauto. }
    destruct (match e1 with EResize _ => true | _ => false end) eqn:He1; [destruct e1; try discriminate; now eapply R1|]. clear R1.
    revert x2 Hx H2. induction es2 as [|e2 es2 IH2]; intros x2 Hx H2; [destruct e1; discriminate|].
    destruct (match e2 with EResize _ => true | _ => false end) eqn:He2.
    + destruct e2 as [| |w|]; try discriminate. cbn [run] in H2. destruct (step S2 (EResize w) x2) as [x2'|] eqn:Hs; [|discriminate].
      apply (IH2 Hw x2'); [|exact H2]. apply step_ref in Hs as [b Hb]; [|exact HB2]. apply srel_sym.
      eapply astep_resize; [apply (same_sym _ _ HS)|apply srel_sym, Hx|exact Hb].
    + assert (He : e1 = e2 /\ without_resizes (map snd pes) = without_resizes es2).
      { clear -Hw He1 He2. unfold without_resizes in *. cbn [filter] in Hw. destruct e1, e2; try discriminate; injection Hw; intros; split; congruence. }
      destruct He as [<- Hw']. cbn [run run_prompts] in H1, H2. destruct (step (with_prompt S p) e1 x1) as [x1'|] eqn:Hs1; [|discriminate]. destruct (step S2 e1 x2) as [x2'|] eqn:Hs2; [|discriminate].
      eapply (IH es2 Hw' x1' x2'); [|exact H1|exact H2]. apply step_ref in Hs1 as [b1 Hb1]; [|exact HBp]. apply step_ref in Hs2 as [b2 Hb2]; [|exact HB2].
      pose proof (astep_rel _ _ HSp b1 b2 e1 _ _ Hx) as G. rewrite Hb1, Hb2 in G. exact G.
Qed.
Lemma prompts_told S S2 f default cur cl w1 w2 pes es2 x1 x2 : only_builtin S -> same_but_display S S2 -> without_resizes (map snd pes) = without_resizes es2 ->
  readline_prompts S f default cur w1 cl pes = Some x1 -> readline S2 default cur w2 cl es2 = Some x2 -> told x1 = told x2.
Proof.
  intros HB HS Hw H1 H2. unfold readline_prompts, readline in *. destruct (start_prompt_tail S f default cur w1 cl) as (s2 & Hs & Hd & _).
  rewrite Hs in H1. destruct (start_tail S s2 default) as [z1|] eqn:Hs1; [|discriminate].
  destruct (start S2 default cur w2 cl) as [z2|] eqn:Hs2; [|discriminate]. apply told_srel.
  eapply run_prompts_rel; [exact HS|now apply only_builtin_keys|exact Hw| |exact H1|exact H2].
  rewrite (tail_ref _ _ _ _ _ _ _ Hd Hs1). apply start_ref in Hs2. rewrite Hs2. now apply start_rel.
Qed.
