(** Every unit that is painted comes out of a text, and whatever else is written is the
    program's own. *)
From Verif Require Import Base Utf8 Moji Color Prompt Buffer Commands KeyMap Session MojiFacts
  Abs AbsRef AbsSess AbsSafe Safe Spec Script SpecScript SpecInject.

Section WithCfg.
Variable C : cfg.
Notation E := (cE C).
Variable P : moji -> Prop.
Hypothesis HP : forall t, Forall P (units E t).

Definition okt (t : tok) : Prop :=
  match t with
  | TMoji m => P (erase m)
  | TPrompt b => b = fst (callPromptWriter E (prompt C)) \/ b = last_line_prompt (prompt C)
  | TAttr b => b = pcolor0 C \/ b = pcolor1 C
  | _ => True
  end.
Definition sufs (s : buf) : list moji := match suffix s with None => [] | Some l => l end.
Definition K (s : buf) : Prop := Forall P (emojis (cells s)) /\ Forall P (map erase (sufs s)) /\ Forall okt (out s).
Definition cx (s s' : buf) : Prop := K s -> K s'.
Lemma cx_refl s : cx s s. Proof. intros H. exact H. Qed.
Lemma cx_trans a b c : cx a b -> cx b c -> cx a c. Proof. unfold cx. auto. Qed.
Lemma cx_emit s l : Forall okt l -> cx s (emit s l).
Proof. intros Hl (H1 & H2 & H3). split; [exact H1|]. split; [exact H2|]. cbn. apply Forall_app. auto. Qed.
Ltac easyt := repeat (constructor; [cbn [okt]; auto|]); constructor.
Lemma cx_goto s : cx s (GotoHead s). Proof. apply cx_emit. easyt. Qed.
Lemma cx_erase s : cx s (eraseline s). Proof. apply cx_emit. easyt. Qed.
Lemma cx_cells s l : (Forall P (emojis (cells s)) -> Forall P (emojis l)) -> cx s (set_cells s l).
Proof. intros Hl (H1 & H2 & H3). split; [exact (Hl H1)|]. split; [exact H2|exact H3]. Qed.
Ltac same := match goal with |- cx ?a ?b => exact (fun H : K a => H) end.

Lemma ok_paint l : forall c ts col, Forall P (emojis l) -> paint C c l = Some (ts, col) -> Forall okt ts.
Proof.
  induction l as [|x l IH]; intros c ts col Hl H; cbn [paint] in H; [injection H as <- <-; constructor|].
  opt H. destruct p as [ts1 col1]. injection H as <- <-. rewrite emojis_cons in Hl. inversion Hl as [|? ? Hx Hl']; subst.
  apply IH in Ev0; [|exact Hl']. apply Forall_app. split; [destruct (_ =? _); easyt|]. constructor; [exact Hx|exact Ev0].
Qed.
Lemma Pslice l a b d : slice l a b = Some d -> Forall P (emojis l) -> Forall P (emojis d).
Proof. unfold emojis. rewrite !Forall_map. apply Forall_slice. Qed.
Lemma cx_refreshColor s s' : refreshColor C s = Some s' -> cx s s'.
Proof.
  unfold refreshColor. intros H. opt H. injection H as <-. apply cx_cells. apply refresh_loop_emojis in Ev. now rewrite Ev.
Qed.
Lemma cx_puts s a b s' : puts C s a b = Some s' -> cx s s'.
Proof.
  unfold puts. intros H HK. opt H. rename l0 into ts, z into col. injection H as <-. apply cx_refreshColor in Ev. specialize (Ev HK).
  apply cx_emit; [|exact Ev]. destruct Ev as (H1 & _ & _). apply ok_paint in Ev1; [|eapply Pslice; eauto].
  apply Forall_app. split; [exact Ev1|]. destruct (_ =? _); easyt.
Qed.
Lemma ok_suffix vw l : Forall P (map erase l) -> forall w ts, paint_suffix C vw w l = Some ts -> Forall okt ts.
Proof.
  induction l as [|m l IH]; intros Hl w ts H; cbn [paint_suffix] in H; [injection H as <-; constructor|].
  destruct (_ <=? _); [injection H as <-; constructor|]. opt H. injection H as <-. cbn [map] in Hl. inversion Hl; subst. constructor; [assumption|]. eapply IH; eauto.
Qed.

Lemma cx_insert s pos l s' : Forall P (emojis l) -> insert s pos l = Some s' -> cx s s'.
Proof.
  unfold insert. intros Hl H. opt H. injection H as <-. eapply cx_trans; [apply (cx_cells s l0)|same].
  unfold emojis in *. rewrite !Forall_map in *. intros Hs. eapply Forall_sliceInsert; eauto.
Qed.
Lemma cx_insertString s pos t s' l : insertString C s pos t = Some (s', l) -> cx s s'.
Proof. unfold insertString. intros H. opt H. injection H as <- <-. eapply cx_insert; [|exact Ev]. rewrite emojis_units. apply HP. Qed.
Lemma cx_InsertString s pos t s' n : InsertString C s pos t = Some (s', n) -> cx s s'.
Proof. unfold InsertString. intros H. opt H. injection H as <- <-. eapply cx_insertString; eauto. Qed.
Lemma Pdel l i n l' : 0 < n -> sliceDelete l i n = Some l' -> Forall P (emojis l) -> Forall P (emojis l').
Proof. intros Hn H. unfold emojis. rewrite !Forall_map. eapply Forall_sliceDelete; [|exact H]; lia. Qed.
Lemma cx_Delete s pos n s' w : Delete C s pos n = Some (s', w) -> cx s s'.
Proof.
  unfold Delete. intros H. destruct (_ || _) eqn:Hb; [injection H as <- <-; apply cx_refl|]. opt H. injection H as <- <-.
  assert (Hn : 0 < n) by (apply Bool.orb_false_iff in Hb as [Hb _]; apply Z.leb_gt in Hb; exact Hb).
  eapply cx_trans; [|apply cx_cells; apply (Pdel _ pos n); [exact Hn|exact Ev1]]. same.
Qed.
Lemma cx_joinUndo s : cx s (joinUndo s).
Proof. unfold joinUndo. destruct (undoes s) as [|u [|u' r]]; try apply cx_refl. destruct (join2 u' u); [same|apply cx_refl]. Qed.
Lemma cx_repaintW s s' : repaintWithoutUpdateSuffix C s = Some s' -> cx s s'.
Proof.
  unfold repaintWithoutUpdateSuffix. intros H. opt H. apply cx_puts in Ev0, H.
  assert (G : cx b b0).
  { destruct (pcolor0 C) eqn:Hp; [injection Ev1 as <-; apply cx_refl|].
    destruct (suffix b) as [[|]|] eqn:Hs; [injection Ev1 as <-; apply cx_refl| |injection Ev1 as <-; apply cx_refl].
    opt Ev1. injection Ev1 as <-. intros HK. apply cx_emit; [|exact HK]. apply ok_suffix in Ev2.
    - constructor; [left; now rewrite Hp|]. apply Forall_app. split; [exact Ev2|]. constructor; [now right|constructor].
    - destruct HK as (_ & HK & _). unfold sufs in HK. rewrite Hs in HK. unfold Suffix. rewrite Hp, Hs. destruct (_ =? _); [exact HK|constructor]. }
  eapply cx_trans; [exact (cx_goto s)|]. eapply cx_trans; [exact Ev0|].
  eapply cx_trans; [exact G|]. eapply cx_trans; [|exact H]. eapply cx_trans; [|exact (cx_goto _)]. apply cx_erase.
Qed.
Lemma cx_updateSuffix s : cx s (updateSuffix C s).
Proof.
  unfold updateSuffix. destruct (pcolor0 C); [apply cx_refl|]. destruct (cells s) eqn:Hc; intros (H1 & H2 & H3).
  - split; [exact H1|]. split; [constructor|exact H3].
  - split; [exact H1|]. split; [|exact H3]. cbn [sufs suffix set_suffix]. rewrite StringToMoji_units. apply HP.
Qed.
Lemma cx_repaint s s' : repaint C s = Some s' -> cx s s'.
Proof. unfold repaint. intros H. apply cx_repaintW in H. eapply cx_trans; [apply cx_updateSuffix|exact H]. Qed.
Lemma cx_reset s : cx s (ResetViewStart C s).
Proof. unfold ResetViewStart. repeat (match goal with |- context [if ?b then _ else _] => destruct b end); try same. all: try (destruct (rvs_loop _ _ _ _ _)); same. Qed.
Lemma cx_Replace s pos t s' : ReplaceAndRepaint C s pos t = Some s' -> cx s s'.
Proof.
  unfold ReplaceAndRepaint. intros H. opt H. apply cx_Delete in Ev. apply cx_InsertString in Ev0. apply cx_repaint in H.
  eapply cx_trans; [exact Ev|]. eapply cx_trans; [exact Ev0|]. eapply cx_trans; [|exact H].
  eapply cx_trans; [|apply cx_reset]. eapply cx_trans; [|apply cx_joinUndo]. same.
Qed.
Lemma cx_RepaintAll s s' : RepaintAll C s = Some s' -> cx s s'.
Proof.
  unfold RepaintAll. assert (A : okt (TPrompt (fst (callPromptWriter E (prompt C))))) by now left. destruct (callPromptWriter E (prompt C)) as [b w]. intros H. apply cx_repaint in H.
  eapply cx_trans; [|exact H]. eapply cx_trans; [apply (cx_emit s [TFlush; TPrompt b])|same]. constructor; [exact I|]. constructor; [exact A|constructor].
Qed.
Lemma cx_RepaintLastLine s s' : RepaintLastLine C s = Some s' -> cx s s'.
Proof. unfold RepaintLastLine. intros H. apply cx_repaint in H. eapply cx_trans; [|exact H]. apply cx_emit. easyt. Qed.
Lemma cx_EndOfLine s s' : cmdEndOfLine C s = Some s' -> cx s s'.
Proof.
  unfold cmdEndOfLine. intros H. opt H. injection H as <-. eapply cx_trans; [|apply cx_erase || (eapply cx_trans; [|apply cx_erase])]. destruct (_ <? _).
  - opt Ev0. injection Ev0 as <-. apply cx_puts in Ev1. eapply cx_trans; [exact Ev1|same].
  - opt Ev0. injection Ev0 as <-. apply cx_puts in Ev2. eapply cx_trans; [exact (cx_goto s)|]. eapply cx_trans; [|eapply cx_trans; [exact Ev2|]]; same.
Qed.
Lemma cx_BackwardDelete s s' : cmdBackwardDeleteChar C s = Some s' -> cx s s'.
Proof.
  unfold cmdBackwardDeleteChar. intros H. destruct (_ <? _); [|injection H as <-; apply cx_refl]. opt H.
  apply cx_Delete in Ev. apply cx_repaint in H. eapply cx_trans; [exact Ev|]. eapply cx_trans; [|exact H]. destruct (_ <? _); same.
Qed.
Lemma cx_DeleteChar s s' : cmdDeleteChar C s = Some s' -> cx s s'.
Proof. unfold cmdDeleteChar. intros H. opt H. eapply cx_trans; [eapply cx_Delete; eauto|now apply cx_repaint]. Qed.
Lemma cx_self_tail s k s' : self_insert_tail C s k = Some s' -> cx s s'.
Proof.
  unfold self_insert_tail. intros H. opt H. apply cx_insertString in Ev. apply cx_repaint in H.
  eapply cx_trans; [exact Ev|]. eapply cx_trans; [|exact H]. destruct (_ <=? _); same.
Qed.
Lemma cx_pre (f : buf -> buf) s s' : cx s (f s) -> cx (f s) s' -> cx s s'. Proof. apply cx_trans. Qed.
Lemma cx_selfInsert k s s' : selfInsert C k s = Some s' -> cx s s'.
Proof.
  unfold selfInsert. intros H. destruct (_ && _); [opt H; apply cx_BackwardDelete in H; exact H|]. destruct (_ && _).
  - opt H. eapply cx_trans; [|eapply cx_self_tail; exact H]. eapply cx_BackwardDelete; eauto.
  - destruct (pending s); eapply cx_self_tail in H; exact H.
Qed.
Lemma cx_clip s t : cx s (clip_write s t).
Proof. unfold clip_write. destruct (clip s); [same|apply cx_refl]. Qed.
Lemma cx_KillWhole s s' : cmdKillWholeLine s = Some s' -> cx s s'.
Proof.
  unfold cmdKillWholeLine. intros H. injection H as <-. eapply cx_trans; [apply (cx_goto s)|]. eapply cx_trans; [apply cx_erase|].
  eapply cx_trans; [apply (cx_cells _ []); constructor|same].
Qed.
Lemma cx_save s s' : saveModifiedHistory C s = Some s' -> cx s s'.
Proof.
  unfold saveModifiedHistory. intros H. destruct (_ <? _); [|injection H as <-; same]. opt H.
  destruct (str_eqb _ _); injection H as <-; [apply cx_refl|same].
Qed.
Lemma cx_show s s' : show_history C s = Some s' -> cx s s'.
Proof.
  unfold show_history. intros H. opt H. apply cx_KillWhole in Ev. destruct s0.
  - injection H as <-. exact Ev.
  - opt H. apply cx_InsertString in Ev1. apply cx_EndOfLine in H. eapply cx_trans; [exact Ev|]. eapply cx_trans; [exact Ev1|exact H].
Qed.
Lemma Pswap l i j l' : swap_cells l i j = Some l' -> Forall P (emojis l) -> Forall P (emojis l').
Proof.
  unfold swap_cells, emojis. rewrite !Forall_map. intros H Hl. opt H.
  pose proof (Forall_index _ _ _ _ Ev Hl). pose proof (Forall_index _ _ _ _ Ev0 Hl).
  destruct (Forall_set_index _ _ _ _ _ Ev1 Hl) as [G _]; [assumption|]. now destruct (Forall_set_index _ _ _ _ _ H G).
Qed.

Lemma cx_exec c s s' r : builtin c -> exec C c s = Some (s', r) -> cx s s'.
Proof.
  intros Hb H. destruct c; cbn [exec] in H; unfold continue_ in H; try (now destruct Hb); try (injection H as <- <-; apply cx_refl); try (opt H; injection H as <- <-).
  - intros (H1 & H2 & H3). split; [constructor|]. split; [exact H2|exact H3].
  - apply cx_repaint in Ev. exact Ev.
  - unfold cmdBackwardChar in Ev. destruct (_ <=? _); [injection Ev as <-; apply cx_refl|]. apply cx_repaint in Ev.
    eapply cx_trans; [|exact Ev]. destruct (_ <? _); same.
  - now apply cx_EndOfLine.
  - unfold cmdForwardChar in Ev. destruct (_ <=? _).
    + destruct (suffix s) as [[|]|]; try (injection Ev as <-; apply cx_refl). now apply cx_Replace in Ev.
    + opt Ev. injection Ev as <-. destruct (_ <? _); [apply cx_puts in Ev1; eapply cx_trans; [exact Ev1|same]|]. opt Ev1. injection Ev1 as <-.
      eapply cx_trans; [|eapply cx_trans; [apply cx_erase|same]].
      match goal with H : puts _ _ _ _ = Some _ |- _ => apply cx_puts in H; eapply cx_trans; [|exact H] end. eapply cx_trans; [exact (cx_goto s)|]. destruct (_ <? _); same.
  - now apply cx_BackwardDelete.
  - now apply cx_DeleteChar.
  - unfold cmdDeleteOrAbort in H. destruct (_ <? _); [|injection H as <- <-; apply cx_refl]. opt H. injection H as <- <-. now apply cx_DeleteChar.
  - unfold cmdKillLine in Ev. opt Ev. injection Ev as <-. eapply cx_trans; [apply (cx_clip s s0)|]. eapply cx_trans; [apply cx_erase|].
    eapply cx_trans; [|apply cx_cells; eapply Pslice; exact Ev1]. same.
  - now apply cx_KillWhole.
  - unfold cmdUnixWordRubout in Ev. opt Ev. apply cx_Delete in Ev3. apply cx_repaint in Ev.
    eapply cx_trans; [|exact Ev]. eapply cx_trans; [|destruct (_ <? _); same]. eapply cx_trans; [|eapply cx_trans; [exact Ev3|same]].
    eapply cx_trans; [|apply cx_clip]. same.
  - unfold cmdUnixLineDiscard in Ev. opt Ev. apply cx_Delete in Ev1. apply cx_repaint in Ev.
    eapply cx_trans; [|exact Ev]. eapply cx_trans; [|eapply cx_trans; [exact Ev1|same]]. apply cx_clip.
  - unfold cmdClearScreen in Ev. apply cx_RepaintAll in Ev. eapply cx_trans; [|exact Ev]. apply cx_emit. easyt.
  - unfold cmdRepaintOnNewline in Ev. apply cx_RepaintAll in Ev. eapply cx_trans; [|exact Ev]. apply cx_emit. easyt.
  - unfold cmdYank in Ev. destruct (clip s); [now apply cx_Replace in Ev|injection Ev as <-; apply cx_refl].
  - unfold cmdYankWithQuote in Ev. destruct (clip s); [now apply cx_Replace in Ev|injection Ev as <-; apply cx_refl].
  - unfold cmdSwapChar in Ev. destruct (_ =? _).
    + destruct (_ <? _); [injection Ev as <-; apply cx_refl|]. opt Ev. apply cx_puts in Ev. eapply cx_trans; [|exact Ev].
      eapply cx_trans; [|apply cx_goto]. eapply cx_trans; [|apply cx_cells; eapply Pswap; exact Ev1]. same.
    + destruct (_ <? _); [injection Ev as <-; apply cx_refl|]. opt Ev. apply cx_puts in Ev. eapply cx_trans; [|exact Ev].
      eapply cx_trans; [|destruct (_ <=? _); [|]; (eapply cx_trans; [apply cx_goto|same])]. eapply cx_trans; [|apply cx_cells; eapply Pswap; exact Ev2]. same.
  - unfold cmdBackwardWord in Ev. opt Ev. apply cx_repaint in Ev. eapply cx_trans; [|exact Ev]. destruct (_ <? _); same.
  - unfold cmdForwardWord in Ev. opt Ev. destruct (_ <? _).
    + opt Ev. injection Ev as <-. apply cx_puts in Ev2. eapply cx_trans; [exact Ev2|same].
    + apply cx_repaint in Ev. eapply cx_trans; [|exact Ev]. try same.
  - unfold cmdUndo in Ev. destruct (undoes s) as [|u rest]; [injection Ev as <-; apply cx_emit; easyt|]. opt Ev.
    apply cx_repaint in Ev. eapply cx_trans; [|exact Ev]. eapply cx_trans; [|apply cx_reset]. eapply cx_trans; [apply (cx_goto s)|].
    assert (G : cx (GotoHead s) (set_cells (GotoHead (set_undoes s rest)) l)).
    { intros (H1 & H2 & H3). split; [|split; [exact H2|exact H3]]. destruct (0 <? u_del u) eqn:Hd; [|injection Ev0 as <-; exact H1].
      cbn [cells set_cells]. eapply Pdel; [|exact Ev0|exact H1]. lia. }
    eapply cx_trans; [exact G|]. destruct (u_text u); [injection Ev1 as <-; same|]. opt Ev1. injection Ev1 as <-.
    eapply cx_trans; [|match goal with |- cx (set_cells ?s ?l2) _ => idtac | _ => same end]. apply cx_cells. intros H1. unfold emojis in *. rewrite !Forall_map in *.
    eapply Forall_sliceInsert; [exact Ev2|exact H1|]. rewrite <- Forall_map. change (Forall P (emojis (mojis2cells (StringToMoji E (z :: s0))))). rewrite emojis_units. apply HP.
  - unfold cmdPreviousHistory in Ev. destruct (_ <=? _); [injection Ev as <-; apply cx_refl|]. destruct (_ <=? _).
    + destruct (negb _); [injection Ev as <-; apply cx_refl|]. opt Ev. apply cx_save in Ev0. apply cx_show in Ev. eapply cx_trans; [exact Ev0|exact Ev].
    + opt Ev. apply cx_save in Ev0. apply cx_show in Ev. eapply cx_trans; [exact Ev0|exact Ev].
  - unfold cmdNextHistory in Ev. destruct (_ <=? _); [injection Ev as <-; apply cx_refl|]. destruct (_ <? _); [injection Ev as <-; apply cx_refl|].
    opt Ev. apply cx_save in Ev0. apply cx_show in Ev. eapply cx_trans; [exact Ev0|exact Ev].
  - now apply cx_selfInsert in Ev.
Qed.

Lemma cx_call c s s' : silent_call c -> do_call C c s = Some s' -> cx s s'.
Proof.
  intros Hc H. destruct c; cbn [do_call] in H; try (now destruct Hc).
  - opt H. injection H as <-. eapply cx_InsertString; eauto.
  - opt H. injection H as <-. eapply cx_Delete; eauto.
  - eapply cx_Replace; eauto.
  - eapply cx_Replace; eauto.
  - now apply cx_repaint.
  - unfold RepaintAfterPrompt in H. apply cx_repaint in H. eapply cx_trans; [apply cx_reset|exact H].
  - now apply cx_RepaintAll.
  - now apply cx_RepaintLastLine.
  - injection H as <-. apply cx_reset.
  - injection H as <-. apply cx_goto.
  - injection H as <-. same.
  - opt H. injection H as <-. apply cx_cells. eapply Pslice; eauto.
  - destruct c; try discriminate; opt H; injection H as <-; (eapply cx_exec; [|eassumption]; exact I).
Qed.
Lemma cx_script p : forall s s' r, silent p -> run_script C p s = Some (s', r) -> cx s s'.
Proof.
  induction p as [r0| |k IH|c p IH]; intros s s' r Hp H; cbn [run_script silent] in *.
  - injection H as <- <-. apply cx_refl.
  - discriminate.
  - eapply IH; [apply Hp|exact H].
  - destruct Hp as [Hc Hp]. opt H. eapply cx_trans; [eapply cx_call; eauto|eapply IH; eauto].
Qed.
End WithCfg.

Section WithScfg.
Variable S : scfg.
Notation C := (base S).
Notation E := (cE C).
Variable P : moji -> Prop.
Hypothesis HP : forall t, Forall P (units E t).
Notation K := (K C P).
Notation cx := (cx C P).
Hypothesis HB : silent_user S.
Ltac easyt := repeat (constructor; [cbn [okt]; auto|]); constructor.
Lemma ok_search vw l : Forall P (map erase l) -> forall w ts, search_paint S vw w l = Some ts -> Forall (okt C P) ts.
Proof.
  induction l as [|m l IH]; intros Hl w ts H; cbn [search_paint] in H; [injection H as <-; constructor|].
  destruct (_ <=? _); [injection H as <-; constructor|]. opt H. injection H as <-. cbn [map] in Hl. inversion Hl; subst. constructor; [assumption|]. eapply IH; eauto.
Qed.
Definition KS (x : sess) : Prop := K (buf_of x).
Lemma after_ok s o x : (forall s' rc, o = Some (s', rc) -> cx s s') -> K s -> after_command S o = Some x -> KS x.
Proof.
  unfold after_command. intros H Hs F. opt F. specialize (H b r eq_refl Hs).
  assert (G : K (emit b [TCursorOn])) by (apply cx_emit; [easyt|exact H]).
  assert (Fin : forall rc x, finish S rc (emit b [TCursorOn]) = Some x -> KS x).
  { intros rc y Hy. unfold finish in Hy. opt Hy. injection Hy as <-. unfold KS. cbn [buf_of]. apply cx_emit; [easyt|].
    match type of Ev0 with context [suffix ?x] => destruct (suffix x) end; [|injection Ev0 as <-; exact G]. apply (cx_repaintW C P) in Ev0. apply Ev0.
    destruct G as (G1 & G2 & G3). split; [exact G1|]. split; [constructor|exact G3]. }
  destruct r; try (eapply Fin; exact F).
  injection F as <-. unfold KS. cbn [buf_of]. eapply cx_emit; [easyt|exact G].
Qed.
Lemma wait_ok ss s s' x : cx s s' -> K s -> search_wait S ss s' = Some x -> KS x.
Proof.
  unfold search_wait. intros H Hs F. opt F. injection F as <-. unfold KS. cbn [buf_of]. apply cx_emit; [|exact (H Hs)].
  apply Forall_app. split; [|easyt]. eapply ok_search; [|exact Ev]. rewrite StringToMoji_units. apply HP.
Qed.
Lemma off_ok s : cx s (emit s [TCursorOff]). Proof. apply cx_emit. easyt. Qed.
Lemma step_ok e x x' : KS x -> step S e x = Some x' -> KS x'.
Proof.
  intros H F. destruct x as [m s|s t r]; [|now injection F as <-]. assert (Hn : K s) by exact H. destruct e as [k| |w|c]; cbn [step] in F.
  - destruct m as [| |ss].
    + unfold key_normal in F.
      destruct (LookupCommand (kmap S) (gmap S) k) eqn:El;
        try (eapply after_ok; [|exact Hn|exact F]; intros s' rc Hx; eapply cx_trans; [apply off_ok|]; eapply cx_exec; [exact HP| |exact Hx]; exact I).
      * injection F as <-. unfold KS. cbn [buf_of]. eapply cx_emit; [easyt|]. apply off_ok. exact Hn.
      * eapply wait_ok; [|exact Hn|exact F]. eapply cx_trans; [apply off_ok|]. apply cx_goto.
      * eapply after_ok; [|exact Hn|exact F]. intros s' rc Hx. eapply cx_trans; [apply off_ok|]. cbn [exec] in Hx.
        destruct (HB k _ El) as (p & Hq & Hp). rewrite Hp in Hx. eapply cx_script; [exact HP|exact Hq|exact Hx].
    + unfold key_quoted in F. eapply after_ok; [|exact Hn|exact F]. intros s' rc Hx. opt Hx. injection Hx as <- <-.
      eapply cx_trans; [|apply off_ok || (apply cx_emit; easyt)]. eapply cx_selfInsert; eauto.
    + unfold key_search in F. opt F. set (s1 := GotoHead (emit s [TCursorOff])) in *.
      assert (H1 : cx s s1) by (eapply cx_trans; [apply off_ok|apply cx_goto]).
      destruct s0 as [ss'| |].
      * eapply wait_ok; eauto.
      * eapply after_ok; [|exact Hn|exact F]. unfold continue_. intros s' rc Hx. opt Hx. injection Hx as <- <-. eapply cx_trans; [exact H1|].
        unfold search_accept in Ev0. apply (cx_Replace C P HP) in Ev0. eapply cx_trans; [|exact Ev0]. intros (G1 & G2 & G3). split; [constructor|]. split; [exact G2|exact G3].
      * eapply after_ok; [|exact Hn|exact F]. unfold continue_. intros s' rc Hx. opt Hx. injection Hx as <- <-. eapply cx_trans; [exact H1|].
        unfold search_cancel in Ev0. opt Ev0. apply (cx_puts C P) in Ev2, Ev0. eapply cx_trans; [exact Ev2|]. eapply cx_trans; [|exact Ev0].
        eapply cx_trans; [|apply cx_goto]. apply cx_erase.
  - destruct m as [| |ss].
    + injection F as <-. unfold KS. cbn [buf_of]. (eapply cx_emit; [easyt|exact Hn]) || exact Hn.
    + eapply after_ok; [|exact Hn|exact F]. intros s' rc Hx. injection Hx as <- <-. apply off_ok.
    + eapply after_ok; [|exact Hn|exact F]. intros s' rc Hx. injection Hx as <- <-. apply cx_refl.
  - destruct m; try (now injection F as <-). opt F. injection F as <-. unfold on_resize in Ev. apply (cx_RepaintLastLine C P HP) in Ev.
    unfold KS. cbn [buf_of]. apply Ev. exact Hn.
  - injection F as <-. exact H.
Qed.
Lemma start_ok default cur w cl x : start S default cur w cl = Some x -> KS x.
Proof.
  unfold start. assert (A : okt C P (TPrompt (fst (callPromptWriter E (prompt C))))) by now left.
  destruct (callPromptWriter E (prompt C)) as [t p] eqn:Hc. cbn [fst] in A. intros H. opt H. injection H as <-.
  unfold KS. cbn [buf_of]. apply cx_emit; [easyt|].
  unfold RepaintAfterPrompt in Ev0. apply (cx_repaint C P HP) in Ev0. apply (cx_InsertString C P HP) in Ev. apply Ev0. apply cx_reset.
  match goal with |- K (set_cursor ?b ?z) => change (K b) | _ => idtac end.
  assert (B : K b). { apply Ev. destruct (_ <=? _); (split; [constructor|]; split; [constructor|]); easyt. }
  destruct (_ <? _); exact B.
Qed.
Lemma run_ok es : forall x x', KS x -> run S es x = Some x' -> KS x'.
Proof. induction es as [|e es IH]; intros x x' H F; cbn [run] in F; [now injection F as <-|]. opt F. eapply IH; [|exact F]. eapply step_ok; eauto. Qed.
Lemma readline_ok default cur w cl es x : readline S default cur w cl es = Some x -> KS x.
Proof. unfold readline. intros H. opt H. eapply run_ok; [|exact H]. eapply start_ok; eauto. Qed.
End WithScfg.
