(** How much one event writes: the cursor is sent back to the head of the line a bounded
    number of times, and what is written from there stays inside the row. *)
From Verif Require Import Base Utf8 Moji Color Prompt Buffer Commands KeyMap Session MojiFacts AbsRef AbsSess Spec SpecScreen SpecCost.
From Verif Require Import SafetyFacts.


Definition goto_of (t : tok) : Z := match t with TGoto _ => 1 | _ => 0 end.
Fixpoint gotos (ts : list tok) : Z := match ts with [] => 0 | t :: ts' => goto_of t + gotos ts' end.
Definition fine_goto (t : tok) : Prop := match t with TGoto c => 1 <= c | _ => True end.
Lemma gotos_app a b : gotos (a ++ b) = gotos a + gotos b.
Proof. induction a as [|t a IH]; cbn [app gotos]; [lia|]. rewrite IH. lia. Qed.
Lemma gotos_nonneg a : 0 <= gotos a.
Proof. induction a as [|t a IH]; cbn [gotos]; [lia|]. destruct t; cbn; lia. Qed.
Lemma written_app a b : written_units (a ++ b) = written_units a ++ written_units b.
Proof. induction a as [|t a IH]; cbn [app written_units]; [reflexivity|]. destruct t; rewrite IH; reflexivity. Qed.

(** ** Counting *)
Definition gx (g n : Z) (s s' : buf) : Prop := exists l, out s' = out s ++ l /\ gotos l <= g /\ zlen l <= 2 * zlen (written_units l) + n /\
  (0 <= topc s -> 0 <= topc s' /\ Forall fine_goto l).
Lemma gx_le g n g' n' s s' : gx g n s s' -> g <= g' -> n <= n' -> gx g' n' s s'.
Proof. intros (l & H1 & H2 & H3 & H4) Hg Hn. exists l. split; [exact H1|]. split; [lia|]. split; [lia|exact H4]. Qed.
Lemma gx_eq s s' : out s' = out s -> topc s' = topc s -> gx 0 0 s s'.
Proof. intros H Ht. exists []. rewrite app_nil_r, Ht. unfold zlen. cbn. split; [exact H|]. split; [lia|]. split; [lia|]. intros H0. split; [exact H0|constructor]. Qed.
Lemma gx_refl s : gx 0 0 s s. Proof. now apply gx_eq. Qed.
Lemma gx_trans g n g' n' a b c : gx g n a b -> gx g' n' b c -> gx (g + g') (n + n') a c.
Proof.
  intros (l & H1 & H2 & H3 & H4) (l' & G1 & G2 & G3 & G4). exists (l ++ l'). rewrite G1, H1, gotos_app, written_app, !zlen_app.
  split; [now rewrite app_assoc|]. split; [lia|]. split; [lia|]. intros H0. destruct (H4 H0) as [H5 H6]. destruct (G4 H5) as [G5 G6].
  split; [exact G5|]. apply Forall_app. now split.
Qed.
Lemma gx_emit g n s l : gotos l <= g -> zlen l <= 2 * zlen (written_units l) + n -> (0 <= topc s -> Forall fine_goto l) -> gx g n s (emit s l).
Proof. intros H1 H2 H3. exists l. split; [reflexivity|]. split; [exact H1|]. split; [exact H2|]. intros H. split; [exact H|now apply H3]. Qed.
Ltac gemit := apply gx_emit; [cbn; lia|unfold zlen; cbn; lia|intros; repeat constructor; cbn; lia].
Lemma gx_goto s : gx 1 1 s (GotoHead s). Proof. unfold GotoHead. gemit. Qed.
Lemma gx_erase s : gx 0 1 s (eraseline s). Proof. unfold eraseline. gemit. Qed.

Section WithCfg.
Variable C : cfg.
Notation E := (cE C).
Hypothesis HP : 0 <= snd (callPromptWriter E (prompt C)).

Lemma paint_cost l : forall c ts col, paint C c l = Some (ts, col) ->
  gotos ts = 0 /\ zlen ts <= 2 * zlen (written_units ts) /\ Forall fine_goto ts.
Proof.
  induction l as [|x l IH]; intros c ts col H; cbn [paint] in H; [injection H as <- <-; unfold zlen; cbn; repeat split; [lia|constructor]|].
  opt H. destruct p as [ts1 col1]. injection H as <- <-. apply IH in Ev0 as (H1 & H2 & H3).
  rewrite gotos_app, written_app, !zlen_app. cbn [gotos goto_of written_units]. rewrite !zlen_cons.
  destruct (c_color x =? c); cbn [gotos goto_of written_units app]; unfold zlen in *; cbn [List.length] in *;
    (split; [lia|]; split; [lia|]; repeat constructor; exact H3).
Qed.
Lemma gx_puts s a b s' : puts C s a b = Some s' -> gx 0 1 s s'.
Proof.
  unfold puts. intros H. opt H. rename l0 into ts, z into col. injection H as <-. apply paint_cost in Ev1 as (H1 & H2 & H3).
  assert (O : out b0 = out s /\ topc b0 = topc s) by (unfold refreshColor in Ev; opt Ev; injection Ev as <-; split; reflexivity). destruct O as [O1 O2].
  exists (ts ++ if col =? c_init (ccol C) then [] else [TColor (c_init (ccol C))]). cbn [out emit topc]. rewrite O1, O2.
  split; [reflexivity|]. rewrite gotos_app, written_app, !zlen_app.
  destruct (col =? c_init (ccol C)); cbn [gotos goto_of written_units]; unfold zlen in *; cbn [List.length];
    (split; [lia|]; split; [lia|]; intros H0; split; [exact H0|]; apply Forall_app; split; [exact H3|repeat constructor]).
Qed.
Lemma suffix_cost vw l : forall w ts, paint_suffix C vw w l = Some ts -> gotos ts = 0 /\ zlen ts <= 2 * zlen (written_units ts) /\ Forall fine_goto ts.
Proof.
  induction l as [|m l IH]; intros w ts H; cbn [paint_suffix] in H; [injection H as <-; unfold zlen; cbn; repeat split; [lia|constructor]|].
  destruct (_ <=? _); [injection H as <-; unfold zlen; cbn; repeat split; [lia|constructor]|]. opt H. injection H as <-. apply IH in Ev0 as (H1 & H2 & H3).
  cbn [gotos goto_of written_units]. rewrite !zlen_cons. split; [lia|]. split; [lia|]. now constructor.
Qed.

Ltac same := match goal with |- gx _ _ ?a ?b => apply gx_eq; reflexivity end.
Ltac chain_to H := match type of H with gx ?g ?n ?b ?c => match goal with |- gx ?g2 ?n2 ?a c =>
  replace g2 with ((g2 - g) + g) by lia; replace n2 with ((n2 - n) + n) by lia; apply (gx_trans (g2 - g) (n2 - n) g n a b c); [|exact H] end end.
Ltac from_ H := match type of H with gx ?g ?n ?b ?c => match goal with |- gx ?g2 ?n2 b ?d =>
  replace g2 with (g + (g2 - g)) by lia; replace n2 with (n + (n2 - n)) by lia; apply (gx_trans g n (g2 - g) (n2 - n) b c d); [exact H|] end end.
Ltac le_ H := eapply gx_le; [exact H|lia|lia].

Lemma gx_insert s pos l s' : insert s pos l = Some s' -> gx 0 0 s s'.
Proof. unfold insert. intros H. opt H. injection H as <-. same. Qed.
Lemma gx_insertString s pos t s' l : insertString C s pos t = Some (s', l) -> gx 0 0 s s'.
Proof. unfold insertString. intros H. opt H. injection H as <- <-. eapply gx_insert; eauto. Qed.
Lemma gx_InsertString s pos t s' n : InsertString C s pos t = Some (s', n) -> gx 0 0 s s'.
Proof. unfold InsertString. intros H. opt H. injection H as <- <-. eapply gx_insertString; eauto. Qed.
Lemma gx_Delete s pos n s' w : Delete C s pos n = Some (s', w) -> gx 0 0 s s'.
Proof. unfold Delete. intros H. destruct (_ || _); [injection H as <- <-; apply gx_refl|]. opt H. injection H as <- <-. same. Qed.
Lemma gx_joinUndo s : gx 0 0 s (joinUndo s).
Proof. unfold joinUndo. destruct (undoes s) as [|u [|u' r]]; try apply gx_refl. destruct (join2 u' u); [same|apply gx_refl]. Qed.
Lemma gx_repaintW s s' : repaintWithoutUpdateSuffix C s = Some s' -> gx 2 7 s s'.
Proof.
  unfold repaintWithoutUpdateSuffix. intros H. opt H. apply gx_puts in Ev0, H.
  assert (G : gx 0 2 b b0).
  { assert (G0 : gx 0 2 b b) by (le_ (gx_refl b)).
    destruct (pcolor0 C); [injection Ev1 as <-; exact G0|].
    destruct (suffix b) as [[|]|]; [injection Ev1 as <-; exact G0| |injection Ev1 as <-; exact G0].
    opt Ev1. injection Ev1 as <-. apply suffix_cost in Ev2 as (S1 & S2 & S3).
    match goal with |- gx _ _ _ (emit _ (?t :: ?l ++ ?r)) => change (t :: l ++ r) with ([t] ++ (l ++ r)) end.
    apply gx_emit; [rewrite !gotos_app, S1; cbn; lia|rewrite !written_app, !zlen_app; unfold zlen in *; cbn [List.length written_units]; lia|].
    intros _. apply Forall_app. split; [repeat constructor|]. apply Forall_app. split; [exact S3|repeat constructor]. }
  pose proof (gx_goto s) as G1. pose proof (gx_erase b0) as G2. pose proof (gx_goto (eraseline b0)) as G3.
  from_ G1. from_ Ev0. from_ G. from_ G2. from_ G3. exact H.
Qed.
Lemma gx_repaint s s' : repaint C s = Some s' -> gx 2 7 s s'.
Proof.
  unfold repaint. intros H. apply gx_repaintW in H. chain_to H.
  unfold updateSuffix. destruct (pcolor0 C); [apply gx_refl|]. destruct (cells s); same.
Qed.
Lemma gx_Replace s pos t s' : ReplaceAndRepaint C s pos t = Some s' -> gx 2 7 s s'.
Proof.
  unfold ReplaceAndRepaint. intros H. opt H. apply gx_Delete in Ev. apply gx_InsertString in Ev0. apply gx_repaint in H.
  from_ Ev. from_ Ev0. chain_to H. match goal with |- gx _ _ _ (ResetViewStart _ (joinUndo ?q)) => pose proof (gx_joinUndo q) as G; set (q' := q) in * end.
  assert (G0 : gx 0 0 b0 q') by same. from_ G0. from_ G. same.
Qed.
Lemma gx_RepaintAll s s' : RepaintAll C s = Some s' -> gx 2 9 s s'.
Proof.
  unfold RepaintAll. destruct (callPromptWriter E (prompt C)) as [t w] eqn:Hp. intros H. apply gx_repaint in H. cbn [snd] in HP.
  chain_to H. exists [TFlush; TPrompt t]. split; [reflexivity|]. unfold zlen. cbn. split; [lia|]. split; [lia|]. intros _. split; [exact HP|repeat constructor].
Qed.
Lemma gx_RepaintLastLine s s' : RepaintLastLine C s = Some s' -> gx 2 9 s s'.
Proof. unfold RepaintLastLine. intros H. apply gx_repaint in H. chain_to H. gemit. Qed.
Lemma gx_EndOfLine s s' : cmdEndOfLine C s = Some s' -> gx 1 3 s s'.
Proof.
  unfold cmdEndOfLine. intros H. opt H. injection H as <-. pose proof (gx_erase b) as G. chain_to G. destruct (_ <? _).
  - opt Ev0. injection Ev0 as <-. apply gx_puts in Ev1. le_ Ev1.
  - opt Ev0. injection Ev0 as <-. apply gx_puts in Ev2. pose proof (gx_goto s) as G1. from_ G1. exact Ev2.
Qed.
Lemma gx_BackwardDelete s s' : cmdBackwardDeleteChar C s = Some s' -> gx 2 7 s s'.
Proof.
  unfold cmdBackwardDeleteChar. intros H. destruct (_ <? _); [|injection H as <-; le_ (gx_refl s)]. opt H.
  apply gx_Delete in Ev. apply gx_repaint in H. chain_to H.
  match goal with |- gx _ _ s (if _ then set_view ?b _ else _) => assert (G : gx 0 0 s b) by exact Ev; from_ G end. destruct (_ <? _); same.
Qed.
Lemma gx_DeleteChar s s' : cmdDeleteChar C s = Some s' -> gx 2 7 s s'.
Proof. unfold cmdDeleteChar. intros H. opt H. apply gx_Delete in Ev. apply gx_repaint in H. from_ Ev. exact H. Qed.
Lemma gx_self_tail s k s' : self_insert_tail C s k = Some s' -> gx 2 7 s s'.
Proof.
  unfold self_insert_tail. intros H. opt H. apply gx_insertString in Ev. apply gx_repaint in H.
  from_ Ev. chain_to H. destruct (_ <=? _); same.
Qed.
Lemma gx_selfInsert k s s' : selfInsert C k s = Some s' -> gx 4 14 s s'.
Proof.
  unfold selfInsert. intros H. destruct (_ && _); [opt H; apply gx_BackwardDelete in H; le_ H|]. destruct (_ && _).
  - opt H. apply gx_BackwardDelete in Ev0. apply gx_self_tail in H. from_ Ev0. exact H.
  - destruct (pending s); apply gx_self_tail in H; le_ H.
Qed.
Lemma gx_clip s t : gx 0 0 s (clip_write s t).
Proof. unfold clip_write. destruct (clip s); [same|apply gx_refl]. Qed.
Lemma gx_KillWhole s s' : cmdKillWholeLine s = Some s' -> gx 1 2 s s'.
Proof. unfold cmdKillWholeLine. intros H. injection H as <-. pose proof (gx_goto s) as G. from_ G. exact (gx_erase (GotoHead s)). Qed.
Lemma gx_save s s' : saveModifiedHistory C s = Some s' -> gx 0 0 s s'.
Proof.
  unfold saveModifiedHistory. intros H. destruct (_ <? _); [|injection H as <-; same]. opt H.
  destruct (str_eqb _ _); injection H as <-; [apply gx_refl|same].
Qed.
Lemma gx_show s s' : show_history C s = Some s' -> gx 2 5 s s'.
Proof.
  unfold show_history. intros H. opt H. apply gx_KillWhole in Ev. destruct s0.
  - injection H as <-. le_ Ev.
  - opt H. apply gx_InsertString in Ev1. apply gx_EndOfLine in H. from_ Ev. from_ Ev1. exact H.
Qed.

Lemma gx_exec c s s' : builtin c -> exec C c s = Some (s', CONTINUE) -> gx 4 14 s s'.
Proof.
  intros Hb H. assert (N : gx 4 14 s s) by (le_ (gx_refl s)).
  destruct c; cbn [exec] in H; unfold continue_ in H; try (now destruct Hb); try (injection H as <-; exact N); try discriminate H; try (opt H; injection H as <-).
  - apply gx_repaint in Ev. le_ Ev.
  - unfold cmdBackwardChar in Ev. destruct (_ <=? _); [injection Ev as <-; exact N|]. apply gx_repaint in Ev.
    assert (G : gx 2 7 s b); [|le_ G]. chain_to Ev. destruct (_ <? _); same.
  - apply gx_EndOfLine in Ev. le_ Ev.
  - unfold cmdForwardChar in Ev. destruct (_ <=? _).
    + destruct (suffix s) as [[|]|]; try (injection Ev as <-; exact N). apply gx_Replace in Ev. le_ Ev.
    + opt Ev. injection Ev as <-. destruct (_ <? _); [apply gx_puts in Ev1; le_ Ev1|]. opt Ev1. injection Ev1 as <-.
      match goal with H : puts _ _ _ _ = Some ?q |- _ => apply gx_puts in H; pose proof (gx_erase q) as G; pose proof (gx_goto s) as G1;
        assert (G2 : gx 1 3 s (eraseline q)) by (from_ G1; chain_to G; chain_to H; destruct (_ <? _); same); le_ G2 end.
  - apply gx_BackwardDelete in Ev. le_ Ev.
  - apply gx_DeleteChar in Ev. le_ Ev.
  - unfold cmdDeleteOrAbort in H. destruct (_ <? _); [|discriminate]. opt H. injection H as <-. apply gx_DeleteChar in Ev. le_ Ev.
  - unfold cmdKillLine in Ev. opt Ev. injection Ev as <-. pose proof (gx_clip s s0) as G. pose proof (gx_erase (clip_write s s0)) as G1.
    assert (G2 : gx 0 1 s (eraseline (clip_write s s0))) by (from_ G; exact G1). le_ G2.
  - apply gx_KillWhole in Ev. le_ Ev.
  - unfold cmdUnixWordRubout in Ev. opt Ev. apply gx_Delete in Ev3. apply gx_repaint in Ev.
    assert (G : gx 2 7 s b); [|le_ G]. chain_to Ev.
    match goal with |- gx _ _ _ (if _ then _ else ?q) => assert (G : gx 0 0 s q); [|from_ G; destruct (_ <? _); same] end.
    eapply (gx_trans 0 0 0 0); [|exact Ev3]. match goal with |- gx _ _ _ (clip_write ?q ?t) => eapply (gx_trans 0 0 0 0 _ q); [same|apply gx_clip] end.
  - unfold cmdUnixLineDiscard in Ev. opt Ev. apply gx_Delete in Ev1. apply gx_repaint in Ev.
    assert (G : gx 2 7 s b); [|le_ G]. chain_to Ev. eapply (gx_trans 0 0 0 0); [apply gx_clip|exact Ev1].
  - unfold cmdClearScreen in Ev. apply gx_RepaintAll in Ev. assert (G : gx 2 10 s b); [|le_ G]. chain_to Ev. gemit.
  - unfold cmdRepaintOnNewline in Ev. apply gx_RepaintAll in Ev. assert (G : gx 2 10 s b); [|le_ G]. chain_to Ev. gemit.
  - unfold cmdYank in Ev. destruct (clip s); [apply gx_Replace in Ev; le_ Ev|injection Ev as <-; exact N].
  - unfold cmdYankWithQuote in Ev. destruct (clip s); [apply gx_Replace in Ev; le_ Ev|injection Ev as <-; exact N].
  - unfold cmdSwapChar in Ev. destruct (_ =? _).
    + destruct (_ <? _); [injection Ev as <-; exact N|]. opt Ev. apply gx_puts in Ev. assert (G : gx 1 2 s b); [|le_ G]. chain_to Ev.
      pose proof (gx_goto s) as G. exact G.
    + destruct (_ <? _); [injection Ev as <-; exact N|]. opt Ev. apply gx_puts in Ev. assert (G : gx 1 2 s b); [|le_ G]. chain_to Ev.
      pose proof (gx_goto s) as G. from_ G. destruct (_ <=? _); same.
  - unfold cmdBackwardWord in Ev. opt Ev. apply gx_repaint in Ev. assert (G : gx 2 7 s b); [|le_ G]. chain_to Ev. destruct (_ <? _); same.
  - unfold cmdForwardWord in Ev. opt Ev. destruct (_ <? _).
    + opt Ev. injection Ev as <-. apply gx_puts in Ev2. le_ Ev2.
    + apply gx_repaint in Ev. assert (G : gx 2 7 s b); [|le_ G]. chain_to Ev. same.
  - unfold cmdUndo in Ev. destruct (undoes s) as [|u rest]; [injection Ev as <-; gemit|]. opt Ev.
    apply gx_repaint in Ev. assert (G : gx 3 8 s b); [|le_ G]. chain_to Ev. pose proof (gx_goto s) as G. from_ G.
    destruct (u_text u); [injection Ev1 as <-; same|]. opt Ev1. injection Ev1 as <-. same.
  - unfold cmdPreviousHistory in Ev. destruct (_ <=? _); [injection Ev as <-; exact N|]. destruct (_ <=? _).
    + destruct (negb _); [injection Ev as <-; exact N|]. opt Ev. apply gx_save in Ev0. apply gx_show in Ev. assert (G : gx 2 5 s b); [|le_ G]. chain_to Ev. exact Ev0.
    + opt Ev. apply gx_save in Ev0. apply gx_show in Ev. assert (G : gx 2 5 s b); [|le_ G]. chain_to Ev. exact Ev0.
  - unfold cmdNextHistory in Ev. destruct (_ <=? _); [injection Ev as <-; exact N|]. destruct (_ <? _); [injection Ev as <-; exact N|].
    opt Ev. apply gx_save in Ev0. apply gx_show in Ev. assert (G : gx 2 5 s b); [|le_ G]. chain_to Ev. exact Ev0.
  - apply gx_selfInsert in Ev. exact Ev.
Qed.
Lemma gx_exec_end c s s' r : builtin c -> exec C c s = Some (s', r) -> r <> CONTINUE -> gx 0 0 s s'.
Proof.
  intros Hb H Hr. destruct c; cbn [exec] in H; unfold continue_ in H; try (now destruct Hb); try (opt H); try (injection H as <- <-; try congruence; try same).
  unfold cmdDeleteOrAbort in H. destruct (_ <? _); [opt H; injection H as <- <-; congruence|]. injection H as <- <-. apply gx_refl.
Qed.
End WithCfg.

Section WithScfg.
Variable S : scfg.
Notation C := (base S).
Notation E := (cE C).
Hypothesis HP : 0 <= snd (callPromptWriter E (prompt C)).
Hypothesis HB : builtin_keys S.
Ltac same := match goal with |- gx _ _ ?a ?b => apply gx_eq; reflexivity end.
Ltac from_ H := match type of H with gx ?g ?n ?b ?c => match goal with |- gx ?g2 ?n2 b ?d =>
  replace g2 with (g + (g2 - g)) by lia; replace n2 with (n + (n2 - n)) by lia; apply (gx_trans g n (g2 - g) (n2 - n) b c d); [exact H|] end end.
Ltac chain_to H := match type of H with gx ?g ?n ?b ?c => match goal with |- gx ?g2 ?n2 ?a c =>
  replace g2 with ((g2 - g) + g) by lia; replace n2 with ((n2 - n) + n) by lia; apply (gx_trans (g2 - g) (n2 - n) g n a b c); [|exact H] end end.
Ltac le_ H := eapply gx_le; [exact H|lia|lia].

Lemma search_cost vw l : forall w ts, search_paint S vw w l = Some ts -> gotos ts = 0 /\ zlen ts <= 2 * zlen (written_units ts) /\ Forall fine_goto ts.
Proof.
  induction l as [|m l IH]; intros w ts H; cbn [search_paint] in H; [injection H as <-; unfold zlen; cbn; repeat split; [lia|constructor]|].
  destruct (_ <=? _); [injection H as <-; unfold zlen; cbn; repeat split; [lia|constructor]|]. opt H. injection H as <-. apply IH in Ev0 as (H1 & H2 & H3).
  cbn [gotos goto_of written_units]. rewrite !zlen_cons. split; [lia|]. split; [lia|]. now constructor.
Qed.
Lemma finish_cost rc s x : finish S rc s = Some x -> gx 2 11 s (buf_of x).
Proof.
  unfold finish. intros F. opt F. injection F as <-. cbn [buf_of].
  assert (G : gx 2 7 s b).
  { destruct (suffix s); [|injection Ev as <-; le_ (gx_refl s)]. apply gx_repaintW in Ev. exact Ev. }
  from_ G. gemit.
Qed.
Lemma after_cost g n s o x : (forall s' rc, o = Some (s', rc) -> gx g n s s' /\ (rc <> CONTINUE -> gx 0 1 s s')) ->
  0 <= g -> 1 <= n -> after_command S o = Some x -> gx (Z.max g 2) (Z.max (n + 2) 13) s (buf_of x).
Proof.
  unfold after_command. intros H Hg Hn F. opt F. destruct (H b r eq_refl) as [H1 H2].
  assert (G1 : forall q k, gx q k s b -> gx q (k + 1) s (emit b [TCursorOn])).
  { intros q k G. replace q with (q + 0) by lia. apply (gx_trans q k 0 1 s b); [exact G|gemit]. }
  destruct r; try (specialize (H2 ltac:(discriminate)); apply G1 in H2; apply finish_cost in F;
    pose proof (gx_trans _ _ _ _ _ _ _ H2 F) as G; le_ G).
  injection F as <-. cbn [buf_of]. apply G1 in H1.
  assert (G : gx (g + 0) ((n + 1) + 1) s (emit (emit b [TCursorOn]) [TFlush])) by (eapply gx_trans; [exact H1|gemit]). le_ G.
Qed.
Lemma wait_cost ss s x : search_wait S ss s = Some x -> gx 0 3 s (buf_of x).
Proof.
  unfold search_wait. intros F. opt F. injection F as <-. apply search_cost in Ev as (H1 & H2 & H3). cbn [buf_of].
  apply gx_emit; [rewrite gotos_app, H1; cbn; lia|rewrite written_app, !zlen_app; unfold zlen in *; cbn [List.length written_units]; lia|].
  intros _. apply Forall_app. split; [exact H3|repeat constructor].
Qed.
Lemma step_cost e x x' : step S e x = Some x' -> gx 4 17 (buf_of x) (buf_of x').
Proof.
  intros F. destruct x as [m s|s t r]; [|injection F as <-; le_ (gx_refl s)]. destruct e as [k| |w|c]; cbn [step] in F; cbn [buf_of].
  - destruct m as [| |ss].
    + unfold key_normal in F. set (s0 := emit s [TCursorOff]) in *. assert (G0 : gx 0 1 s s0) by (unfold s0; gemit).
      assert (GG : forall c, LookupCommand (kmap S) (gmap S) k = c -> after_command S (exec C c s0) = Some x' -> gx 4 17 s (buf_of x')).
      { intros c Hk F0. apply (after_cost 4 15 s) in F0; [exact F0| |lia|lia]. intros s' rc Hx.
        pose proof (HB k) as Hb. rewrite Hk in Hb. split.
        - destruct rc; [apply (gx_exec C HP c s0 s' Hb) in Hx; from_ G0; exact Hx|..];
            (apply gx_exec_end in Hx; [|exact Hb|discriminate]; from_ G0; le_ Hx).
        - intros Hr. apply gx_exec_end in Hx; [|exact Hb|exact Hr]. from_ G0. exact Hx. }
      destruct (LookupCommand (kmap S) (gmap S) k) eqn:El; try (exact (GG _ eq_refl F)).
      * injection F as <-. cbn [buf_of]. assert (G : gx 0 3 s (emit s0 [TCursorOn; TFlush])) by (from_ G0; gemit). le_ G.
      * apply wait_cost in F. pose proof (gx_goto s0) as G1. assert (G : gx 1 5 s (buf_of x')) by (from_ G0; from_ G1; exact F). le_ G.
    + unfold key_quoted in F. apply (after_cost 4 15 s) in F; [exact F| |lia|lia]. intros s' rc Hx. opt Hx. injection Hx as <- <-. split; [|congruence].
      apply gx_selfInsert in Ev. from_ Ev. gemit.
    + unfold key_search in F. set (s1 := GotoHead (emit s [TCursorOff])) in *.
      assert (G0 : gx 1 2 s s1).
      { assert (G : gx 0 1 s (emit s [TCursorOff])) by gemit. from_ G. apply gx_goto. }
      opt F. destruct s0 as [ss'| |].
      * apply wait_cost in F. assert (G : gx 1 5 s (buf_of x')) by (from_ G0; exact F). le_ G.
      * apply (after_cost 4 15 s) in F; [exact F| |lia|lia]. unfold continue_. intros s' rc Hx. opt Hx. injection Hx as <- <-. split; [|congruence].
        unfold search_accept in Ev0. apply gx_Replace in Ev0. from_ G0.
        match type of Ev0 with gx _ _ ?q _ => assert (G : gx 0 0 s1 q) by same end. from_ G. le_ Ev0.
      * apply (after_cost 4 15 s) in F; [exact F| |lia|lia]. unfold continue_. intros s' rc Hx. opt Hx. injection Hx as <- <-. split; [|congruence].
        unfold search_cancel in Ev0. opt Ev0. apply gx_puts in Ev2, Ev0. from_ G0. from_ Ev2.
        match type of Ev0 with gx _ _ (GotoHead (eraseline ?q)) _ => pose proof (gx_erase q) as G1; pose proof (gx_goto (eraseline q)) as G2 end.
        from_ G1. from_ G2. le_ Ev0.
  - destruct m as [| |ss].
    + injection F as <-. cbn [buf_of]. gemit.
    + apply (after_cost 4 15 s) in F; [exact F| |lia|lia]. intros s' rc Hx. injection Hx as <- <-. split; [gemit|congruence].
    + apply (after_cost 4 15 s) in F; [exact F| |lia|lia]. intros s' rc Hx. injection Hx as <- <-. split; [le_ (gx_refl s)|congruence].
  - destruct m; try (injection F as <-; le_ (gx_refl s)). opt F. injection F as <-. cbn [buf_of]. unfold on_resize in Ev. apply gx_RepaintLastLine in Ev.
    match type of Ev with gx _ _ ?q _ => assert (G : gx 0 0 s q) by same end. from_ G. le_ Ev.
  - injection F as <-. cbn [buf_of]. assert (G : gx 0 0 s (set_clip s c)) by same. le_ G.
Qed.
Lemma start_cost default cur w cl x : start S default cur w cl = Some x ->
  gotos (out (buf_of x)) <= 2 /\ zlen (out (buf_of x)) <= 2 * zlen (written_units (out (buf_of x))) + 11 /\
  0 <= topc (buf_of x) /\ Forall fine_goto (out (buf_of x)).
Proof.
  unfold start. set (s0 := mkBuf _ _ _ _ _ _ _ _ _ _ _ _). intros H.
  assert (G : gx 2 11 s0 (buf_of x)).
  { destruct (callPromptWriter E (prompt C)) as [t pw] eqn:Hp. cbn [snd] in HP. opt H. injection H as <-. cbn [buf_of].
    unfold RepaintAfterPrompt in Ev0. apply gx_repaint in Ev0. apply gx_InsertString in Ev.
    set (s1 := set_topc (emit s0 [TPrompt t]) pw) in *.
    assert (G1 : gx 0 1 s0 s1).
    { exists [TPrompt t]. split; [reflexivity|]. unfold zlen. cbn. split; [lia|]. split; [lia|]. intros _. split; [exact HP|repeat constructor]. }
    set (s2 := if _ <=? _ then _ else s1) in *.
    assert (G2 : gx 0 1 s1 s2).
    { unfold s2. destruct (_ <=? _); [|le_ (gx_refl s1)]. exists [TNewline]. split; [reflexivity|]. unfold zlen. cbn. split; [lia|]. split; [lia|]. intros _. split; [lia|repeat constructor]. }
    from_ G1. from_ G2. from_ Ev. match type of Ev0 with gx _ _ ?q _ => assert (G3 : gx 0 0 b q) by (destruct (_ <? _); same) end.
    from_ G3. from_ Ev0. gemit. }
  destruct G as (l & Ho & H1 & H2 & H3). cbn [out s0 app] in Ho. rewrite Ho. split; [exact H1|]. split; [exact H2|]. apply H3. cbn. lia.
Qed.
End WithScfg.
