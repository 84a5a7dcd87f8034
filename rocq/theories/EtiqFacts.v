(** What commands write leaves the cursor's visibility alone, ends with the default colour
    and the look of predictions off, and has no line feed. *)
From Verif Require Import Base Utf8 Moji Color Prompt Buffer Commands KeyMap Session Spec AbsRef AbsSess Reach SessFacts SpecEtiq.

Lemma last_acc {A} (f : tok -> option A) l : forall a, fold_left (fun a t => match f t with Some x => Some x | None => a end) l a
  = match last_of f l with Some x => Some x | None => a end.
Proof.
  unfold last_of. induction l as [|t l IH]; intros a; cbn [fold_left]; [reflexivity|]. rewrite IH.
  rewrite (IH (match f t with Some x => Some x | None => None end)). destruct (fold_left _ l None); [reflexivity|]. now destruct (f t).
Qed.
Lemma last_app {A} (f : tok -> option A) a b : last_of f (a ++ b) = match last_of f b with Some x => Some x | None => last_of f a end.
Proof. unfold last_of at 1. rewrite fold_left_app. apply last_acc. Qed.
Lemma last_cons {A} (f : tok -> option A) t l : last_of f (t :: l) = match last_of f l with Some x => Some x | None => f t end.
Proof. change (t :: l) with ([t] ++ l). rewrite last_app. destruct (last_of f l); [reflexivity|]. cbn. now destruct (f t). Qed.
Lemma feeds_app a b : line_feeds (a ++ b) = line_feeds a ++ line_feeds b.
Proof. unfold line_feeds. apply flat_map_app. Qed.
Lemma feeds_cons t l : line_feeds (t :: l) = line_feeds [t] ++ line_feeds l.
Proof. change (t :: l) with ([t] ++ l). apply feeds_app. Qed.

Section WithCfg.
Variable C : cfg.
Notation E := (cE C).
Notation d := (c_init (ccol C)).

Record calm (l : list tok) : Prop := {
  cm_cursor : cursor_shown l = None;
  cm_colour : colour_chosen l = None \/ colour_chosen l = Some d;
  cm_attribute : attribute_chosen l = None \/ attribute_chosen l = Some (pcolor1 C);
  cm_feeds : line_feeds l = []
}.
Lemma calm_nil : calm []. Proof. split; auto. Qed.
Lemma calm_app a b : calm a -> calm b -> calm (a ++ b).
Proof.
  intros [A1 A2 A3 A4] [B1 B2 B3 B4]. unfold cursor_shown, colour_chosen, attribute_chosen in *. split; unfold cursor_shown, colour_chosen, attribute_chosen; rewrite ?last_app, ?feeds_app.
  - now rewrite B1.
  - destruct B2 as [-> | ->]; auto.
  - destruct B3 as [-> | ->]; auto.
  - now rewrite A4, B4.
Qed.
Ltac calmly := split; cbn; auto.
Definition cx (s s' : buf) : Prop := exists l, out s' = out s ++ l /\ calm l.
Lemma cx_refl s : cx s s. Proof. exists []. rewrite app_nil_r. split; [reflexivity|apply calm_nil]. Qed.
Lemma cx_eq s s' : out s' = out s -> cx s s'. Proof. intros H. exists []. rewrite app_nil_r. split; [exact H|apply calm_nil]. Qed.
Lemma cx_trans a b c : cx a b -> cx b c -> cx a c.
Proof. intros (l & H & G) (l' & H' & G'). exists (l ++ l'). rewrite H', H. split; [now rewrite app_assoc|now apply calm_app]. Qed.
Lemma cx_emit s l : calm l -> cx s (emit s l). Proof. now exists l. Qed.
Lemma cx_emit_r s s' l : calm l -> cx s s' -> cx s (emit s' l).
Proof. intros G H. eapply cx_trans; [exact H|now apply cx_emit]. Qed.

Lemma cx_goto s : cx s (GotoHead s). Proof. exists [TGoto (topc s + 1)]. split; [reflexivity|calmly]. Qed.

(** The cells, painted. *)
Lemma paint_calm l : forall c ts col, paint C c l = Some (ts, col) ->
  cursor_shown ts = None /\ attribute_chosen ts = None /\ line_feeds ts = [] /\
  (colour_chosen ts = Some col \/ (colour_chosen ts = None /\ col = c)).
Proof.
  induction l as [|x l IH]; intros c ts col H; cbn [paint] in H.
  - injection H as <- <-. repeat split. now right.
  - opt H. destruct p as [ts1 col1]. injection H as <- <-. apply IH in Ev0 as (H1 & H2 & H3 & H4).
    unfold cursor_shown, attribute_chosen, colour_chosen in *. rewrite !last_app, feeds_app.
    rewrite !last_cons, (feeds_cons (TMoji _)), H1, H2, H3.
    destruct (Z.eqb_spec (c_color x) c) as [Hc|Hc].
    + cbn. repeat split. destruct H4 as [-> | [-> ->]]; [now left|right]. now split.
    + cbn. repeat split. destruct H4 as [-> | [-> ->]]; now left.
Qed.
Lemma puts_calm s a b s' : puts C s a b = Some s' -> exists l, out s' = out s ++ l /\ calm l /\ (d <> -1 -> colour_chosen l = Some d).
Proof.
  unfold puts. intros H. opt H. rename l0 into ts, z into col. injection H as <-.
  exists (ts ++ if col =? d then [] else [TColor d]). split.
  - unfold refreshColor in Ev. opt Ev. injection Ev as <-. reflexivity.
  - apply paint_calm in Ev1 as (H1 & H2 & H3 & H4).
    destruct (Z.eqb_spec col d) as [->|Hc].
    + rewrite app_nil_r. split; [split; auto; destruct H4 as [H4|[H4 _]]; auto|]. intros Hd. destruct H4 as [H4|[_ H4]]; [exact H4|congruence].
    + unfold cursor_shown, attribute_chosen, colour_chosen in *. split; [split|]; unfold cursor_shown, attribute_chosen, colour_chosen; rewrite ?last_app, ?feeds_app; cbn; auto.
      now rewrite H3.
Qed.
Lemma suffix_calm vw l : forall w ts, paint_suffix C vw w l = Some ts -> cursor_shown ts = None /\ attribute_chosen ts = None /\ line_feeds ts = [] /\ colour_chosen ts = None.
Proof.
  induction l as [|m l IH]; intros w ts H; cbn [paint_suffix] in H; [injection H as <-; repeat split|].
  destruct (_ <=? _); [injection H as <-; repeat split|]. opt H. injection H as <-. apply IH in Ev0 as (H1 & H2 & H3 & H4).
  unfold cursor_shown, attribute_chosen, colour_chosen in *. rewrite !last_cons, feeds_cons, H1, H2, H3, H4. repeat split.
Qed.

Ltac same := match goal with |- cx ?a ?b => apply cx_eq; reflexivity end.

Lemma cx_insert s pos l s' : insert s pos l = Some s' -> cx s s'.
Proof. unfold insert. intros H. opt H. injection H as <-. same. Qed.
Lemma cx_insertString s pos t s' l : insertString C s pos t = Some (s', l) -> cx s s'.
Proof. unfold insertString. intros H. opt H. injection H as <- <-. eapply cx_insert; eauto. Qed.
Lemma cx_InsertString s pos t s' n : InsertString C s pos t = Some (s', n) -> cx s s'.
Proof. unfold InsertString. intros H. opt H. injection H as <- <-. eapply cx_insertString; eauto. Qed.
Lemma cx_Delete s pos n s' w : Delete C s pos n = Some (s', w) -> cx s s'.
Proof. unfold Delete. intros H. destruct (_ || _); [injection H as <- <-; apply cx_refl|]. opt H. injection H as <- <-. same. Qed.
Lemma cx_joinUndo s : cx s (joinUndo s).
Proof. unfold joinUndo. destruct (undoes s) as [|u [|u' r]]; try apply cx_refl. destruct (join2 u' u); [same|apply cx_refl]. Qed.
Lemma cx_refreshColor s s' : refreshColor C s = Some s' -> cx s s'.
Proof. unfold refreshColor. intros H. opt H. injection H as <-. same. Qed.
Lemma cx_puts s a b s' : puts C s a b = Some s' -> cx s s'.
Proof. intros H. destruct (puts_calm s a b s' H) as (l & H1 & H2 & _). now exists l. Qed.
Lemma cx_repaintW s s' : repaintWithoutUpdateSuffix C s = Some s' -> cx s s'.
Proof.
  unfold repaintWithoutUpdateSuffix. intros H. opt H. apply cx_puts in Ev0, H.
  assert (G : cx b b0).
  { destruct (pcolor0 C); [injection Ev1 as <-; apply cx_refl|].
    destruct (suffix b) as [[|]|]; [injection Ev1 as <-; apply cx_refl| |injection Ev1 as <-; apply cx_refl].
    opt Ev1. injection Ev1 as <-. apply cx_emit. apply suffix_calm in Ev2 as (S1 & S2 & S3 & S4).
    match goal with |- calm (?t :: ?l ++ ?r) => change (calm ([t] ++ (l ++ r))) end.
    split; unfold cursor_shown, attribute_chosen, colour_chosen in *; rewrite ?last_app, ?feeds_app, ?S1, ?S3, ?S4; cbn; auto. }
  eapply cx_trans; [exact (cx_goto s)|]. eapply cx_trans; [exact Ev0|].
  eapply cx_trans; [exact G|]. eapply cx_trans; [|exact H]. eapply cx_trans; [|exact (cx_goto _)]. apply cx_emit; calmly.
Qed.
Lemma cx_repaint s s' : repaint C s = Some s' -> cx s s'.
Proof.
  unfold repaint. intros H. apply cx_repaintW in H. eapply cx_trans; [|exact H].
  unfold updateSuffix. destruct (pcolor0 C); [apply cx_refl|]. destruct (cells s); same.
Qed.
Lemma cx_Replace s pos t s' : ReplaceAndRepaint C s pos t = Some s' -> cx s s'.
Proof.
  unfold ReplaceAndRepaint. intros H. opt H. apply cx_Delete in Ev. apply cx_InsertString in Ev0. apply cx_repaint in H.
  eapply cx_trans; [exact Ev|]. eapply cx_trans; [exact Ev0|]. eapply cx_trans; [|exact H].
  eapply cx_trans; [|apply cx_eq; reflexivity]. eapply cx_trans; [|apply cx_joinUndo]. same.
Qed.
Lemma cx_RepaintAll s s' : RepaintAll C s = Some s' -> cx s s'.
Proof.
  unfold RepaintAll. destruct (callPromptWriter E (prompt C)) as [t w]. intros H. apply cx_repaint in H.
  eapply cx_trans; [|exact H]. exists [TFlush; TPrompt t]. split; [reflexivity|calmly].
Qed.
Lemma cx_RepaintLastLine s s' : RepaintLastLine C s = Some s' -> cx s s'.
Proof. unfold RepaintLastLine. intros H. apply cx_repaint in H. eapply cx_trans; [|exact H]. apply cx_emit; calmly. Qed.
Lemma cx_EndOfLine s s' : cmdEndOfLine C s = Some s' -> cx s s'.
Proof.
  unfold cmdEndOfLine. intros H. opt H. injection H as <-. apply cx_emit_r; [calmly|]. destruct (_ <? _).
  - opt Ev0. injection Ev0 as <-. apply cx_puts in Ev1. exact Ev1.
  - opt Ev0. injection Ev0 as <-. apply cx_puts in Ev2. eapply cx_trans; [|exact Ev2]. exact (cx_goto s).
Qed.
Lemma cx_BackwardDelete s s' : cmdBackwardDeleteChar C s = Some s' -> cx s s'.
Proof.
  unfold cmdBackwardDeleteChar. intros H. destruct (_ <? _); [|injection H as <-; apply cx_refl]. opt H.
  apply cx_Delete in Ev. apply cx_repaint in H. eapply cx_trans; [exact Ev|]. eapply cx_trans; [|exact H]. destruct (_ <? _); same.
Qed.
Lemma cx_DeleteChar s s' : cmdDeleteChar C s = Some s' -> cx s s'.
Proof. unfold cmdDeleteChar. intros H. opt H. eapply cx_trans; [eapply cx_Delete; eauto|now apply cx_repaint]. Qed.
Lemma cx_self_tail s k s' : self_insert_tail C s k = Some s' -> cx s s'.
Proof.
  unfold self_insert_tail. intros H. opt H. apply cx_insertString in Ev. apply cx_repaint in H.
  eapply cx_trans; [exact Ev|]. eapply cx_trans; [|exact H]. destruct (_ <=? _); same.
Qed.
Lemma cx_selfInsert k s s' : selfInsert C k s = Some s' -> cx s s'.
Proof.
  unfold selfInsert. intros H. destruct (_ && _); [opt H; apply cx_BackwardDelete in H; exact H|]. destruct (_ && _).
  - opt H. eapply cx_trans; [eapply cx_BackwardDelete; eauto|]. eapply cx_self_tail; eauto.
  - destruct (pending s); eapply cx_self_tail in H; exact H.
Qed.
Lemma cx_clip s t : cx s (clip_write s t).
Proof. unfold clip_write. destruct (clip s); [same|apply cx_refl]. Qed.
Lemma cx_KillWhole s s' : cmdKillWholeLine s = Some s' -> cx s s'.
Proof. unfold cmdKillWholeLine. intros H. injection H as <-. eexists. split; [cbn; rewrite <- ?app_assoc; reflexivity|calmly]. Qed.
Lemma cx_save s s' : saveModifiedHistory C s = Some s' -> cx s s'.
Proof.
  unfold saveModifiedHistory. intros H. destruct (_ <? _); [|injection H as <-; same]. opt H.
  destruct (str_eqb _ _); injection H as <-; [apply cx_refl|same].
Qed.
Lemma cx_show s s' : show_history C s = Some s' -> cx s s'.
Proof.
  unfold show_history. intros H. opt H. apply cx_KillWhole in Ev. destruct s0.
  - injection H as <-. exact Ev.
  - opt H. apply cx_InsertString in Ev1. apply cx_EndOfLine in H. eapply cx_trans; [exact Ev|]. eapply cx_trans; [exact Ev1|exact H].
Qed.

Lemma cx_exec c s s' r : builtin c -> exec C c s = Some (s', r) -> cx s s'.
Proof.
  intros Hb H. destruct c; cbn [exec] in H; unfold continue_ in H; try (now destruct Hb); try (injection H as <- <-; apply cx_refl); try (opt H; injection H as <- <-).
  - same.
  - apply cx_repaint in Ev. exact Ev.
  - unfold cmdBackwardChar in Ev. destruct (_ <=? _); [injection Ev as <-; apply cx_refl|]. apply cx_repaint in Ev.
    eapply cx_trans; [|exact Ev]. destruct (_ <? _); same.
  - now apply cx_EndOfLine.
  - unfold cmdForwardChar in Ev. destruct (_ <=? _).
    + destruct (suffix s) as [[|]|]; try (injection Ev as <-; apply cx_refl). now apply cx_Replace in Ev.
    + opt Ev. injection Ev as <-. destruct (_ <? _); [now apply cx_puts in Ev1|]. opt Ev1. injection Ev1 as <-. apply cx_emit_r; [calmly|].
      match goal with H : puts _ _ _ _ = Some _ |- _ => apply cx_puts in H; eapply cx_trans; [|exact H] end. eapply cx_trans; [exact (cx_goto s)|]. destruct (_ <? _); same.
  - now apply cx_BackwardDelete.
  - now apply cx_DeleteChar.
  - unfold cmdDeleteOrAbort in H. destruct (_ <? _); [|injection H as <- <-; apply cx_refl]. opt H. injection H as <- <-. now apply cx_DeleteChar.
  - unfold cmdKillLine in Ev. opt Ev. injection Ev as <-. eapply cx_trans; [apply (cx_clip s s0)|]. eexists. split; [cbn; rewrite <- ?app_assoc; reflexivity|calmly].
  - now apply cx_KillWhole.
  - unfold cmdUnixWordRubout in Ev. opt Ev. apply cx_Delete in Ev3. apply cx_repaint in Ev.
    eapply cx_trans; [|exact Ev]. eapply cx_trans; [|destruct (_ <? _); same]. eapply cx_trans; [|eapply cx_trans; [exact Ev3|same]].
    eapply cx_trans; [|apply cx_clip]. same.
  - unfold cmdUnixLineDiscard in Ev. opt Ev. apply cx_Delete in Ev1. apply cx_repaint in Ev.
    eapply cx_trans; [|exact Ev]. eapply cx_trans; [|eapply cx_trans; [exact Ev1|same]]. apply cx_clip.
  - unfold cmdClearScreen in Ev. apply cx_RepaintAll in Ev. eapply cx_trans; [|exact Ev]. apply cx_emit; calmly.
  - unfold cmdRepaintOnNewline in Ev. apply cx_RepaintAll in Ev. eapply cx_trans; [|exact Ev]. apply cx_emit; calmly.
  - unfold cmdYank in Ev. destruct (clip s); [now apply cx_Replace in Ev|injection Ev as <-; apply cx_refl].
  - unfold cmdYankWithQuote in Ev. destruct (clip s); [now apply cx_Replace in Ev|injection Ev as <-; apply cx_refl].
  - unfold cmdSwapChar in Ev. destruct (_ =? _).
    + destruct (_ <? _); [injection Ev as <-; apply cx_refl|]. opt Ev. apply cx_puts in Ev. eapply cx_trans; [|exact Ev].
      eexists. split; [cbn; rewrite <- ?app_assoc; reflexivity|calmly].
    + destruct (_ <? _); [injection Ev as <-; apply cx_refl|]. opt Ev. apply cx_puts in Ev. eapply cx_trans; [|exact Ev].
      eapply cx_trans; [apply (cx_emit s [TGoto (topc s + 1)]); calmly|]. destruct (_ <=? _); same.
  - unfold cmdBackwardWord in Ev. opt Ev. apply cx_repaint in Ev. eapply cx_trans; [|exact Ev]. destruct (_ <? _); same.
  - unfold cmdForwardWord in Ev. opt Ev. destruct (_ <? _).
    + opt Ev. injection Ev as <-. apply cx_puts in Ev2. exact Ev2.
    + apply cx_repaint in Ev. exact Ev.
  - unfold cmdUndo in Ev. destruct (undoes s) as [|u rest]; [injection Ev as <-; apply cx_emit; calmly|]. opt Ev.
    apply cx_repaint in Ev. eapply cx_trans; [|exact Ev]. eapply cx_trans; [apply (cx_emit s [TGoto (topc s + 1)]); calmly|].
    destruct (u_text u); [injection Ev1 as <-; same|]. opt Ev1. injection Ev1 as <-. same.
  - unfold cmdPreviousHistory in Ev. destruct (_ <=? _); [injection Ev as <-; apply cx_refl|]. destruct (_ <=? _).
    + destruct (negb _); [injection Ev as <-; apply cx_refl|]. opt Ev. apply cx_save in Ev0. apply cx_show in Ev. eapply cx_trans; [exact Ev0|exact Ev].
    + opt Ev. apply cx_save in Ev0. apply cx_show in Ev. eapply cx_trans; [exact Ev0|exact Ev].
  - unfold cmdNextHistory in Ev. destruct (_ <=? _); [injection Ev as <-; apply cx_refl|]. destruct (_ <? _); [injection Ev as <-; apply cx_refl|].
    opt Ev. apply cx_save in Ev0. apply cx_show in Ev. eapply cx_trans; [exact Ev0|exact Ev].
  - now apply cx_selfInsert in Ev.
Qed.

(** All but the cursor. *)
Definition neat (s : buf) : Prop :=
  (colour_chosen (out s) = Some d \/ (d = -1 /\ colour_chosen (out s) = None)) /\
  (attribute_chosen (out s) = None \/ attribute_chosen (out s) = Some (pcolor1 C)) /\ line_feeds (out s) = [].
Lemma neat_cx s s' : neat s -> cx s s' -> neat s'.
Proof.
  intros (H1 & H2 & H3) (l & Ho & [G1 G2 G3 G4]). unfold neat, colour_chosen, attribute_chosen in *. rewrite Ho, !last_app, feeds_app, H3, G4. repeat split.
  - destruct G2 as [-> | ->]; auto.
  - destruct G3 as [-> | ->]; auto.
Qed.
(** Tokens that only concern the cursor. *)
Lemma neat_emit s l : neat s -> Forall (fun t => t = TCursorOn \/ t = TCursorOff \/ t = TFlush) l -> neat (emit s l).
Proof.
  intros H Hl. unfold neat, emit in *. cbn [out] in *. revert H. generalize (out s). induction l as [|t l IH]; intros ts H; [now rewrite app_nil_r|].
  change (t :: l) with ([t] ++ l). rewrite app_assoc. inversion Hl as [|t' l' Ht Hl']; subst. apply (IH Hl').
  unfold colour_chosen, attribute_chosen in *. rewrite !last_app, feeds_app. destruct Ht as [-> |[-> | ->]]; cbn; now rewrite app_nil_r.
Qed.
End WithCfg.

Section WithScfg.
Variable S : scfg.
Notation C := (base S).
Notation d := (c_init (ccol C)).
Hypothesis HB : only_builtin S.
Lemma neat_search vw l : forall w ts, search_paint S vw w l = Some ts -> calm C ts.
Proof.
  induction l as [|m l IH]; intros w ts H; cbn [search_paint] in H; [injection H as <-; apply (calm_nil C)|].
  destruct (_ <=? _); [injection H as <-; apply (calm_nil C)|]. opt H. injection H as <-. apply IH in Ev0.
  match goal with |- calm _ (?t :: ?l) => apply (calm_app C [t] l) end; [split; cbn; auto|exact Ev0].
Qed.

Definition good (x : sess) : Prop :=
  match x with
  | Running m s => neat C s /\ cursor_shown (out s) = Some true
  | Finished s t e => tidy C (out s) /\ line_feeds (out s) = line_feed_for e
  end.
Lemma neat_tidy s : neat C s -> cursor_shown (out s) = Some true -> tidy C (out s).
Proof. intros (H1 & H2 & _) H. now split. Qed.

Ltac cursor_only := repeat (first [apply Forall_nil | apply Forall_cons; [now auto|]]).
Lemma good_emit m s : neat C s -> good (Running m (emit s [TCursorOn; TFlush])).
Proof.
  intros H. split; [apply neat_emit; [exact H|cursor_only]|]. unfold cursor_shown. cbn [out emit]. now rewrite last_app.
Qed.
Lemma finish_good rc s x : rc <> CONTINUE -> neat C s -> finish S rc s = Some x -> good x.
Proof.
  unfold finish. intros Hrc H F. opt F. injection F as <-.
  assert (G : neat C b).
  { destruct (suffix s); [|now injection Ev as <-]. apply cx_repaintW in Ev. eapply neat_cx; [|exact Ev]. exact H. }
  destruct G as (H1 & H2 & H3). cbn [good]. split; [split|]; cbn [out emit]; unfold cursor_shown, colour_chosen, attribute_chosen in *; rewrite ?last_app; cbn; auto.
  rewrite feeds_app, H3. now destruct rc.
Qed.
Lemma after_good o x : (forall s rc, o = Some (s, rc) -> neat C s) -> after_command S o = Some x -> good x.
Proof.
  unfold after_command. intros H F. opt F. specialize (H b r eq_refl).
  assert (G : neat C (emit b [TCursorOn])) by (apply neat_emit; [exact H|cursor_only]).
  destruct r; try (eapply finish_good; [|exact G|exact F]; discriminate).
  injection F as <-. split; [apply neat_emit; [exact G|cursor_only]|]. unfold cursor_shown. cbn [out emit]. rewrite <- app_assoc. now rewrite last_app.
Qed.
Lemma wait_good ss s x : neat C s -> search_wait S ss s = Some x -> good x.
Proof.
  unfold search_wait. intros H F. opt F. injection F as <-. apply neat_search in Ev.
  change (l ++ [TErase; TCursorOn; TFlush]) with (l ++ [TErase] ++ [TCursorOn; TFlush]). rewrite app_assoc.
  change (emit s ((l ++ [TErase]) ++ [TCursorOn; TFlush])) with (emit s ((l ++ [TErase]) ++ [TCursorOn; TFlush])).
  assert (G : neat C (emit s (l ++ [TErase]))).
  { eapply neat_cx; [exact H|]. apply cx_emit. apply calm_app; [exact Ev|split; cbn; auto]. }
  pose proof (good_emit (MSearch ss) _ G) as Q. unfold good, emit in *. cbn [out] in *. now rewrite app_assoc.
Qed.
Lemma key_normal_good k s x : neat C s -> key_normal S k s = Some x -> good x.
Proof.
  intros H F. unfold key_normal in F. set (s0 := emit s [TCursorOff]) in *.
  assert (H0 : neat C s0) by (apply neat_emit; [exact H|cursor_only]).
  pose proof (only_builtin_keys S HB k) as Hb.
  destruct (LookupCommand (kmap S) (gmap S) k) eqn:El;
    try (eapply after_good; [|exact F]; intros s' rc Hx; eapply neat_cx; [exact H0|]; eapply cx_exec; [|exact Hx]; exact Hb).
  - injection F as <-. now apply good_emit.
  - eapply wait_good; [|exact F]. eapply neat_cx; [exact H0|]. apply cx_goto.
Qed.
Lemma step_good e x x' : good x -> step S e x = Some x' -> good x'.
Proof.
  intros H F. destruct x as [m s|s t r]; [|now injection F as <-]. destruct H as [H Hc]. destruct e as [k| |w|c]; cbn [step] in F.
  - destruct m as [| |ss].
    + eapply key_normal_good; eauto.
    + unfold key_quoted in F. eapply after_good; [|exact F]. intros s' rc Hx. opt Hx. injection Hx as <- <-.
      apply neat_emit; [|cursor_only]. eapply neat_cx; [exact H|]. eapply cx_selfInsert; eauto.
    + unfold key_search in F. opt F. set (s1 := GotoHead (emit s [TCursorOff])) in *.
      assert (H1 : neat C s1).
      { eapply neat_cx; [|apply cx_goto]. apply neat_emit; [exact H|cursor_only]. }
      destruct s0 as [ss'| |].
      * eapply wait_good; eauto.
      * eapply after_good; [|exact F]. unfold continue_. intros s' rc Hx. opt Hx. injection Hx as <- <-. eapply neat_cx; [exact H1|].
        unfold search_accept in Ev0. apply cx_Replace in Ev0. eapply cx_trans; [|exact Ev0]. apply cx_eq. reflexivity.
      * eapply after_good; [|exact F]. unfold continue_. intros s' rc Hx. opt Hx. injection Hx as <- <-. eapply neat_cx; [exact H1|].
        unfold search_cancel in Ev0. opt Ev0. apply cx_puts in Ev2, Ev0. eapply cx_trans; [exact Ev2|]. eapply cx_trans; [|exact Ev0].
        eapply cx_trans; [|apply cx_goto]. apply cx_emit. split; cbn; auto.
  - destruct m as [| |ss].
    + injection F as <-. cbn [good]. pose proof (good_emit MNormal s H) as [(A1 & A2 & A3) A4]. split; [now split|exact A3].
    + eapply after_good; [|exact F]. intros s' rc Hx. injection Hx as <- <-. apply neat_emit; [exact H|cursor_only].
    + eapply after_good; [|exact F]. intros s' rc Hx. now injection Hx as <- <-.
  - destruct m; try (now injection F as <-). opt F. injection F as <-. unfold on_resize in Ev. apply cx_RepaintLastLine in Ev.
    destruct Ev as (l & Ho & G). split.
    + eapply neat_cx; [exact H|]. now exists l.
    + unfold cursor_shown in *. rewrite Ho, last_app. destruct G as [G _ _ _]. unfold cursor_shown in G. rewrite G. exact Hc.
  - injection F as <-. now split.
Qed.

Lemma InsertString_out s pos t s' n : InsertString C s pos t = Some (s', n) -> out s' = out s.
Proof. unfold InsertString, insertString, insert. intros H. opt H. injection H as <- <-. opt Ev. injection Ev as <- <-. opt Ev0. now injection Ev0 as <-. Qed.
Lemma repaint_chosen s s' : colour_chosen (out s) = None -> attribute_chosen (out s) = None -> line_feeds (out s) = [] -> repaint C s = Some s' -> neat C s'.
Proof.
  intros H1 H2 H3 H. pose proof (cx_repaint C s s' H) as (l & Ho & [_ G2 G3 G4]).
  assert (K : d <> -1 -> colour_chosen (out s') = Some d).
  { unfold repaint, repaintWithoutUpdateSuffix in H. opt H. intros Hd. apply puts_calm in H as (l' & Ho' & _ & K). rewrite Ho'.
    unfold colour_chosen in *. rewrite last_app. now rewrite (K Hd). }
  unfold neat, colour_chosen, attribute_chosen in *. rewrite Ho in *. rewrite !last_app, feeds_app, H1, H2, H3, G4 in *. repeat split; [|destruct G3 as [-> | ->]; auto].
  destruct (Z.eq_dec d (-1)) as [Hd|Hd]; [|left; now apply K]. destruct G2 as [-> | ->]; auto.
Qed.
Lemma start_good default cur w cl x : start S default cur w cl = Some x -> good x.
Proof.
  unfold start. destruct (callPromptWriter _ _) as [t pw]. intros H. opt H. injection H as <-.
  apply good_emit. apply (repaint_chosen _ _) in Ev0; [exact Ev0| | |].
  all: match goal with H : InsertString _ ?s _ _ = Some _ |- _ => apply InsertString_out in H; set (q := s) in * end.
  all: unfold ResetViewStart; destruct (_ <? _); cbn [out set_view set_cursor].
  all: rewrite Ev; unfold q; destruct (_ <=? _); reflexivity.
Qed.
Lemma reached_good x : reached S x -> good x.
Proof.
  intros (default & cur & w & cl & es & H). unfold readline in H. opt H. apply start_good in Ev. revert s Ev H.
  induction es as [|e es IH]; intros s Hs H; cbn [run] in H; [now injection H as <-|].
  opt H. eapply IH; [|exact H]. eapply step_good; eauto.
Qed.
Lemma tidy_running m s : reached S (Running m s) -> tidy C (out s) /\ line_feeds (out s) = [].
Proof. intros H. apply reached_good in H as [H Hc]. split; [now apply neat_tidy|apply H]. Qed.
Lemma tidy_finished s t e : reached S (Finished s t e) -> tidy C (out s) /\ line_feeds (out s) = line_feed_for e.
Proof. intros H. now apply reached_good in H. Qed.
End WithScfg.
