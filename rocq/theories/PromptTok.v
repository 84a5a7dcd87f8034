(** What is written keeps the prompt on the row: it is written at the beginning of a row, and
    after that everything to the right of it. *)
From Verif Require Import Base Utf8 Moji Color Prompt Buffer Commands KeyMap Session Spec AbsRef AbsSess Reach SessFacts.

(** Where the cursor is: after the prompt, at the beginning of a row, somewhere else. *)
Inductive place := OnRow | Head | Lost.
Section WithCfg.
Variable C : cfg.
Notation E := (cE C).
Definition pstep (p : place) (t : tok) : place :=
  match t with
  | TPrompt b => if str_eqb b (last_line_prompt (prompt C)) then OnRow
                 else if str_eqb b (fst (callPromptWriter E (prompt C))) then match p with Head => OnRow | _ => Lost end else Lost
  | TClear | TNewline => Head
  | TLineFeed _ => Lost
  | TMoji _ | TGoto _ | TErase => match p with OnRow => OnRow | _ => Lost end
  | _ => p
  end.
Definition places (l : list tok) (p : place) : place := fold_left pstep l p.
Lemma places_app a b p : places (a ++ b) p = places b (places a p). Proof. apply fold_left_app. Qed.
Definition calm (l : list tok) : Prop := places l OnRow = OnRow.
Lemma calm_nil : calm []. Proof. reflexivity. Qed.
Lemma calm_app a b : calm a -> calm b -> calm (a ++ b).
Proof. unfold calm. intros H1 H2. now rewrite places_app, H1. Qed.
Ltac calmly := reflexivity.
Definition cx (s s' : buf) : Prop := exists l, out s' = out s ++ l /\ calm l.
Lemma cx_refl s : cx s s. Proof. exists []. rewrite app_nil_r. split; [reflexivity|apply calm_nil]. Qed.
Lemma cx_eq s s' : out s' = out s -> cx s s'. Proof. intros H. exists []. rewrite app_nil_r. split; [exact H|apply calm_nil]. Qed.
Lemma cx_trans a b c : cx a b -> cx b c -> cx a c.
Proof. intros (l & H & G) (l' & H' & G'). exists (l ++ l'). rewrite H', H. split; [now rewrite app_assoc|now apply calm_app]. Qed.
Lemma cx_emit s l : calm l -> cx s (emit s l). Proof. now exists l. Qed.
Lemma cx_emit_r s s' l : calm l -> cx s s' -> cx s (emit s' l).
Proof. intros G H. eapply cx_trans; [exact H|now apply cx_emit]. Qed.

Lemma cx_goto s : cx s (GotoHead s). Proof. exists [TGoto (topc s + 1)]. split; [reflexivity|calmly]. Qed.

(** The cells, painted. *)
Lemma paint_calm l : forall c ts col, paint C c l = Some (ts, col) -> calm ts.
Proof.
  induction l as [|x l IH]; intros c ts col H; cbn [paint] in H; [injection H as <- <-; apply calm_nil|].
  opt H. destruct p as [ts1 col1]. injection H as <- <-. apply IH in Ev0. apply calm_app; [destruct (_ =? _); reflexivity|].
  match goal with |- calm (?t :: ?l) => apply (calm_app [t] l) end; [reflexivity|exact Ev0].
Qed.
Lemma cx_puts s a b s' : puts C s a b = Some s' -> cx s s'.
Proof.
  unfold puts. intros H. opt H. rename l0 into ts, z into col. injection H as <-. eexists. split.
  - unfold refreshColor in Ev. opt Ev. injection Ev as <-. reflexivity.
  - apply paint_calm in Ev1. apply calm_app; [exact Ev1|]. destruct (_ =? _); reflexivity.
Qed.
Lemma suffix_calm vw l : forall w ts, paint_suffix C vw w l = Some ts -> calm ts.
Proof.
  induction l as [|m l IH]; intros w ts H; cbn [paint_suffix] in H; [injection H as <-; reflexivity|].
  destruct (_ <=? _); [injection H as <-; reflexivity|]. opt H. injection H as <-. apply IH in Ev0.
  match goal with |- calm (?t :: ?l) => apply (calm_app [t] l) end; [reflexivity|exact Ev0].
Qed.

Ltac same := match goal with |- cx ?a ?b => apply cx_eq; reflexivity end.

Lemma cx_insert s pos l s' : insert s pos l = Some s' -> cx s s'.
Proof. unfold insert. intros H. opt H. injection H as <-. same. Qed.
Lemma cx_insertString s pos t s' l : insertString C s pos t = Some (s', l) -> cx s s'.
Proof. unfold insertString. intros H. opt H. injection H as <- <-. eapply cx_insert; eauto. Qed.
Lemma cx_InsertString s pos t s' n : InsertString C s pos t = Some (s', n) -> cx s s'.
Proof. unfold InsertString. intros H. opt H. injection H as <- <-. eapply cx_insertString; eauto. Qed.
Lemma cx_Delete s pos n s' w : Delete C s pos n = Some (s', w) -> cx s s'.
Proof. unfold Delete. intros H. destruct (_ || _); [injection H as <- <-; apply cx_refl|]. opt H. injection H as <- <-. same. Qed.
Lemma cx_joinUndo s : cx s (joinUndo s).
Proof. unfold joinUndo. destruct (undoes s) as [|u [|u' r]]; try apply cx_refl. destruct (join2 u' u); [same|apply cx_refl]. Qed.
Lemma cx_refreshColor s s' : refreshColor C s = Some s' -> cx s s'.
Proof. unfold refreshColor. intros H. opt H. injection H as <-. same. Qed.
Lemma cx_repaintW s s' : repaintWithoutUpdateSuffix C s = Some s' -> cx s s'.
Proof.
  unfold repaintWithoutUpdateSuffix. intros H. opt H. apply cx_puts in Ev0, H.
  assert (G : cx b b0).
  { destruct (pcolor0 C); [injection Ev1 as <-; apply cx_refl|].
    destruct (suffix b) as [[|]|]; [injection Ev1 as <-; apply cx_refl| |injection Ev1 as <-; apply cx_refl].
    opt Ev1. injection Ev1 as <-. apply cx_emit. apply suffix_calm in Ev2.
    match goal with |- calm (?t :: ?l ++ ?r) => change (calm ([t] ++ (l ++ r))) end. repeat apply calm_app; auto; reflexivity. }
  eapply cx_trans; [exact (cx_goto s)|]. eapply cx_trans; [exact Ev0|].
  eapply cx_trans; [exact G|]. eapply cx_trans; [|exact H]. eapply cx_trans; [|exact (cx_goto _)]. apply cx_emit; calmly.
Qed.
Lemma cx_repaint s s' : repaint C s = Some s' -> cx s s'.
Proof.
  unfold repaint. intros H. apply cx_repaintW in H. eapply cx_trans; [|exact H].
  unfold updateSuffix. destruct (pcolor0 C); [apply cx_refl|]. destruct (cells s); same.
Qed.
Lemma cx_Replace s pos t s' : ReplaceAndRepaint C s pos t = Some s' -> cx s s'.
Proof.
  unfold ReplaceAndRepaint. intros H. opt H. apply cx_Delete in Ev. apply cx_InsertString in Ev0. apply cx_repaint in H.
  eapply cx_trans; [exact Ev|]. eapply cx_trans; [exact Ev0|]. eapply cx_trans; [|exact H].
  eapply cx_trans; [|apply cx_eq; reflexivity]. eapply cx_trans; [|apply cx_joinUndo]. same.
Qed.
Lemma prompt_on p : p = Head -> places [TFlush; TPrompt (fst (callPromptWriter E (prompt C)))] p = OnRow.
Proof.
  intros ->. cbn [places fold_left pstep]. destruct (str_eqb _ (last_line_prompt _)); [reflexivity|]. replace (str_eqb _ _) with true; [reflexivity|]. symmetry. now apply str_eqb_eq.
Qed.
Lemma last_on p : places [TFlush; TPrompt (last_line_prompt (prompt C))] p = OnRow.
Proof. cbn [places fold_left pstep]. replace (str_eqb _ _) with true; [reflexivity|]. symmetry. now apply str_eqb_eq. Qed.
Lemma cx_RepaintAll s t s' : t = TClear \/ t = TNewline -> RepaintAll C (emit s [t]) = Some s' -> cx s s'.
Proof.
  unfold RepaintAll. intros Ht. pose proof (prompt_on Head eq_refl) as P. destruct (callPromptWriter E (prompt C)) as [b w]. cbn [fst] in P. intros H. apply cx_repaint in H.
  eapply cx_trans; [|exact H]. exists ([t] ++ [TFlush; TPrompt b]). split; [cbn; now rewrite <- app_assoc|]. unfold calm. rewrite places_app. destruct Ht as [-> | ->]; exact P.
Qed.
Lemma cx_RepaintLastLine s s' : RepaintLastLine C s = Some s' -> cx s s'.
Proof. unfold RepaintLastLine. intros H. apply cx_repaint in H. eapply cx_trans; [|exact H]. apply cx_emit. apply last_on. Qed.
Lemma cx_EndOfLine s s' : cmdEndOfLine C s = Some s' -> cx s s'.
Proof.
  unfold cmdEndOfLine. intros H. opt H. injection H as <-. apply cx_emit_r; [calmly|]. destruct (_ <? _).
  - opt Ev0. injection Ev0 as <-. apply cx_puts in Ev1. exact Ev1.
  - opt Ev0. injection Ev0 as <-. apply cx_puts in Ev2. eapply cx_trans; [|exact Ev2]. exact (cx_goto s).
Qed.
Lemma cx_BackwardDelete s s' : cmdBackwardDeleteChar C s = Some s' -> cx s s'.
Proof.
  unfold cmdBackwardDeleteChar. intros H. destruct (_ <? _); [|injection H as <-; apply cx_refl]. opt H.
  apply cx_Delete in Ev. apply cx_repaint in H. eapply cx_trans; [exact Ev|]. eapply cx_trans; [|exact H]. destruct (_ <? _); same.
Qed.
Lemma cx_DeleteChar s s' : cmdDeleteChar C s = Some s' -> cx s s'.
Proof. unfold cmdDeleteChar. intros H. opt H. eapply cx_trans; [eapply cx_Delete; eauto|now apply cx_repaint]. Qed.
Lemma cx_self_tail s k s' : self_insert_tail C s k = Some s' -> cx s s'.
Proof.
  unfold self_insert_tail. intros H. opt H. apply cx_insertString in Ev. apply cx_repaint in H.
  eapply cx_trans; [exact Ev|]. eapply cx_trans; [|exact H]. destruct (_ <=? _); same.
Qed.
Lemma cx_selfInsert k s s' : selfInsert C k s = Some s' -> cx s s'.
Proof.
  unfold selfInsert. intros H. destruct (_ && _); [opt H; apply cx_BackwardDelete in H; exact H|]. destruct (_ && _).
  - opt H. eapply cx_trans; [eapply cx_BackwardDelete; eauto|]. eapply cx_self_tail; eauto.
  - destruct (pending s); eapply cx_self_tail in H; exact H.
Qed.
Lemma cx_clip s t : cx s (clip_write s t).
Proof. unfold clip_write. destruct (clip s); [same|apply cx_refl]. Qed.
Lemma cx_KillWhole s s' : cmdKillWholeLine s = Some s' -> cx s s'.
Proof. unfold cmdKillWholeLine. intros H. injection H as <-. eexists. split; [cbn; rewrite <- ?app_assoc; reflexivity|calmly]. Qed.
Lemma cx_save s s' : saveModifiedHistory C s = Some s' -> cx s s'.
Proof.
  unfold saveModifiedHistory. intros H. destruct (_ <? _); [|injection H as <-; same]. opt H.
  destruct (str_eqb _ _); injection H as <-; [apply cx_refl|same].
Qed.
Lemma cx_show s s' : show_history C s = Some s' -> cx s s'.
Proof.
  unfold show_history. intros H. opt H. apply cx_KillWhole in Ev. destruct s0.
  - injection H as <-. exact Ev.
  - opt H. apply cx_InsertString in Ev1. apply cx_EndOfLine in H. eapply cx_trans; [exact Ev|]. eapply cx_trans; [exact Ev1|exact H].
Qed.

Lemma cx_exec c s s' r : builtin c -> exec C c s = Some (s', r) -> cx s s'.
Proof.
  intros Hb H. destruct c; cbn [exec] in H; unfold continue_ in H; try (now destruct Hb); try (injection H as <- <-; apply cx_refl); try (opt H; injection H as <- <-).
  - same.
  - apply cx_repaint in Ev. exact Ev.
  - unfold cmdBackwardChar in Ev. destruct (_ <=? _); [injection Ev as <-; apply cx_refl|]. apply cx_repaint in Ev.
    eapply cx_trans; [|exact Ev]. destruct (_ <? _); same.
  - now apply cx_EndOfLine.
  - unfold cmdForwardChar in Ev. destruct (_ <=? _).
    + destruct (suffix s) as [[|]|]; try (injection Ev as <-; apply cx_refl). now apply cx_Replace in Ev.
    + opt Ev. injection Ev as <-. destruct (_ <? _); [now apply cx_puts in Ev1|]. opt Ev1. injection Ev1 as <-. apply cx_emit_r; [calmly|].
      match goal with H : puts _ _ _ _ = Some _ |- _ => apply cx_puts in H; eapply cx_trans; [|exact H] end. eapply cx_trans; [exact (cx_goto s)|]. destruct (_ <? _); same.
  - now apply cx_BackwardDelete.
  - now apply cx_DeleteChar.
  - unfold cmdDeleteOrAbort in H. destruct (_ <? _); [|injection H as <- <-; apply cx_refl]. opt H. injection H as <- <-. now apply cx_DeleteChar.
  - unfold cmdKillLine in Ev. opt Ev. injection Ev as <-. eapply cx_trans; [apply (cx_clip s s0)|]. eexists. split; [cbn; rewrite <- ?app_assoc; reflexivity|calmly].
  - now apply cx_KillWhole.
  - unfold cmdUnixWordRubout in Ev. opt Ev. apply cx_Delete in Ev3. apply cx_repaint in Ev.
    eapply cx_trans; [|exact Ev]. eapply cx_trans; [|destruct (_ <? _); same]. eapply cx_trans; [|eapply cx_trans; [exact Ev3|same]].
    eapply cx_trans; [|apply cx_clip]. same.
  - unfold cmdUnixLineDiscard in Ev. opt Ev. apply cx_Delete in Ev1. apply cx_repaint in Ev.
    eapply cx_trans; [|exact Ev]. eapply cx_trans; [|eapply cx_trans; [exact Ev1|same]]. apply cx_clip.
  - unfold cmdClearScreen in Ev. eapply cx_RepaintAll; [|exact Ev]. auto.
  - unfold cmdRepaintOnNewline in Ev. eapply cx_RepaintAll; [|exact Ev]. auto.
  - unfold cmdYank in Ev. destruct (clip s); [now apply cx_Replace in Ev|injection Ev as <-; apply cx_refl].
  - unfold cmdYankWithQuote in Ev. destruct (clip s); [now apply cx_Replace in Ev|injection Ev as <-; apply cx_refl].
  - unfold cmdSwapChar in Ev. destruct (_ =? _).
    + destruct (_ <? _); [injection Ev as <-; apply cx_refl|]. opt Ev. apply cx_puts in Ev. eapply cx_trans; [|exact Ev].
      eexists. split; [cbn; rewrite <- ?app_assoc; reflexivity|calmly].
    + destruct (_ <? _); [injection Ev as <-; apply cx_refl|]. opt Ev. apply cx_puts in Ev. eapply cx_trans; [|exact Ev].
      eapply cx_trans; [apply (cx_emit s [TGoto (topc s + 1)]); calmly|]. destruct (_ <=? _); same.
  - unfold cmdBackwardWord in Ev. opt Ev. apply cx_repaint in Ev. eapply cx_trans; [|exact Ev]. destruct (_ <? _); same.
  - unfold cmdForwardWord in Ev. opt Ev. destruct (_ <? _).
    + opt Ev. injection Ev as <-. apply cx_puts in Ev2. exact Ev2.
    + apply cx_repaint in Ev. exact Ev.
  - unfold cmdUndo in Ev. destruct (undoes s) as [|u rest]; [injection Ev as <-; apply cx_emit; calmly|]. opt Ev.
    apply cx_repaint in Ev. eapply cx_trans; [|exact Ev]. eapply cx_trans; [apply (cx_emit s [TGoto (topc s + 1)]); calmly|].
    destruct (u_text u); [injection Ev1 as <-; same|]. opt Ev1. injection Ev1 as <-. same.
  - unfold cmdPreviousHistory in Ev. destruct (_ <=? _); [injection Ev as <-; apply cx_refl|]. destruct (_ <=? _).
    + destruct (negb _); [injection Ev as <-; apply cx_refl|]. opt Ev. apply cx_save in Ev0. apply cx_show in Ev. eapply cx_trans; [exact Ev0|exact Ev].
    + opt Ev. apply cx_save in Ev0. apply cx_show in Ev. eapply cx_trans; [exact Ev0|exact Ev].
  - unfold cmdNextHistory in Ev. destruct (_ <=? _); [injection Ev as <-; apply cx_refl|]. destruct (_ <? _); [injection Ev as <-; apply cx_refl|].
    opt Ev. apply cx_save in Ev0. apply cx_show in Ev. eapply cx_trans; [exact Ev0|exact Ev].
  - now apply cx_selfInsert in Ev.
Qed.

End WithCfg.

Section WithScfg.
Variable S : scfg.
Notation C := (base S).
Notation E := (cE C).
Notation cx := (cx C).
Hypothesis HB : only_builtin S.
Lemma search_calm vw l : forall w ts, search_paint S vw w l = Some ts -> calm C ts.
Proof.
  induction l as [|m l IH]; intros w ts H; cbn [search_paint] in H; [injection H as <-; apply (calm_nil C)|].
  destruct (_ <=? _); [injection H as <-; apply (calm_nil C)|]. opt H. injection H as <-. apply IH in Ev0.
  match goal with |- calm _ (?t :: ?l) => apply (calm_app C [t] l) end; [reflexivity|exact Ev0].
Qed.
Definition on (x : sess) : Prop := match x with Running m s => places C (out s) Head = OnRow | Finished _ _ _ => True end.
Lemma on_cx m m' s s' : cx s s' -> on (Running m s) -> on (Running m' s').
Proof. intros (l & Ho & G) H. cbn [on] in *. now rewrite Ho, places_app, H. Qed.
Lemma after_on s o x : (forall s' rc, o = Some (s', rc) -> cx s s') -> on (Running MNormal s) -> after_command S o = Some x -> on x.
Proof.
  unfold after_command. intros H Hs F. opt F. specialize (H b r eq_refl).
  destruct r; try (unfold finish in F; opt F; injection F as <-; exact I).
  injection F as <-. eapply on_cx; [|exact Hs]. eapply cx_trans; [exact H|]. exists [TCursorOn; TFlush]. split; [cbn; now rewrite <- app_assoc|reflexivity].
Qed.
Lemma wait_on ss s s' x : cx s s' -> on (Running MNormal s) -> search_wait S ss s' = Some x -> on x.
Proof.
  unfold search_wait. intros H Hs F. opt F. injection F as <-. apply search_calm in Ev. eapply on_cx; [|exact Hs]. eapply cx_trans; [exact H|]. apply cx_emit. apply calm_app; [exact Ev|reflexivity].
Qed.
Lemma off_cx s : cx s (emit s [TCursorOff]). Proof. apply cx_emit. reflexivity. Qed.
Lemma step_on e x x' : on x -> step S e x = Some x' -> on x'.
Proof.
  intros H F. destruct x as [m s|s t r]; [|now injection F as <-]. assert (Hn : on (Running MNormal s)) by exact H. destruct e as [k| |w|c]; cbn [step] in F.
  - destruct m as [| |ss].
    + unfold key_normal in F. pose proof (only_builtin_keys S HB k) as Hb.
      destruct (LookupCommand (kmap S) (gmap S) k) eqn:El;
        try (eapply after_on; [|exact Hn|exact F]; intros s' rc Hx; eapply cx_trans; [apply off_cx|]; eapply cx_exec; [|exact Hx]; exact Hb).
      * injection F as <-. eapply on_cx; [|exact Hn]. eapply cx_trans; [apply off_cx|]. apply cx_emit. reflexivity.
      * eapply wait_on; [|exact Hn|exact F]. eapply cx_trans; [apply off_cx|]. apply cx_goto.
    + unfold key_quoted in F. eapply after_on; [|exact Hn|exact F]. intros s' rc Hx. opt Hx. injection Hx as <- <-.
      apply cx_emit_r; [reflexivity|]. eapply cx_selfInsert; eauto.
    + unfold key_search in F. opt F. set (s1 := GotoHead (emit s [TCursorOff])) in *.
      assert (H1 : cx s s1) by (eapply cx_trans; [apply off_cx|apply cx_goto]).
      destruct s0 as [ss'| |].
      * eapply wait_on; eauto.
      * eapply after_on; [|exact Hn|exact F]. unfold continue_. intros s' rc Hx. opt Hx. injection Hx as <- <-. eapply cx_trans; [exact H1|].
        unfold search_accept in Ev0. apply cx_Replace in Ev0. eapply cx_trans; [|exact Ev0]. apply cx_eq. reflexivity.
      * eapply after_on; [|exact Hn|exact F]. unfold continue_. intros s' rc Hx. opt Hx. injection Hx as <- <-. eapply cx_trans; [exact H1|].
        unfold search_cancel in Ev0. opt Ev0. apply cx_puts in Ev2, Ev0. eapply cx_trans; [exact Ev2|]. eapply cx_trans; [|exact Ev0].
        eapply cx_trans; [|apply cx_goto]. apply cx_emit. reflexivity.
  - destruct m as [| |ss].
    + injection F as <-. exact I.
    + eapply after_on; [|exact Hn|exact F]. intros s' rc Hx. injection Hx as <- <-. apply off_cx.
    + eapply after_on; [|exact Hn|exact F]. intros s' rc Hx. injection Hx as <- <-. apply cx_refl.
  - destruct m; try (now injection F as <-). opt F. injection F as <-. unfold on_resize in Ev. apply cx_RepaintLastLine in Ev.
    eapply on_cx; [|exact Hn]. destruct Ev as (l & Ho & G). exists l. split; [|exact G]. rewrite Ho. reflexivity.
  - injection F as <-. exact H.
Qed.
Lemma start_on default cur w cl x : snd (callPromptWriter E (prompt C)) + 3 < w -> start S default cur w cl = Some x -> on x.
Proof.
  unfold start. pose proof (prompt_on C Head eq_refl) as P. destruct (callPromptWriter E (prompt C)) as [t p] eqn:Hc. cbn [fst snd] in *. intros Hw H. opt H. injection H as <-.
  cbn [termw set_topc emit topc] in Ev. replace (w - 3 <=? p) with false in Ev by lia.
  unfold RepaintAfterPrompt in Ev0. apply cx_repaint in Ev0. apply cx_InsertString in Ev.
  eapply (on_cx MNormal); [apply cx_emit; reflexivity|]. eapply (on_cx MNormal MNormal); [exact Ev0|].
  assert (K : on (Running MNormal b)). { eapply (on_cx MNormal MNormal); [exact Ev|]. exact P. }
  cbn [on] in *. rewrite <- K. f_equal. unfold ResetViewStart. repeat (match goal with |- context [if ?b then _ else _] => destruct b end); reflexivity.
Qed.
Lemma run_on es : forall x x', on x -> run S es x = Some x' -> on x'.
Proof. induction es as [|e es IH]; intros x x' H F; cbn [run] in F; [now injection F as <-|]. opt F. eapply IH; [|exact F]. eapply step_on; eauto. Qed.
Lemma readline_on default cur w cl es x : snd (callPromptWriter E (prompt C)) + 3 < w -> readline S default cur w cl es = Some x -> on x.
Proof. unfold readline. intros Hw H. opt H. eapply run_on; [|exact H]. eapply start_on; eauto. Qed.
End WithScfg.
