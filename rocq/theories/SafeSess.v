(** The whole session never panics while the line stays narrow enough for the terminal.
    Intermediate step of the proofs. *)
From Verif Require Import Base Utf8 Moji Color Prompt Buffer Commands KeyMap Session MojiFacts Abs AbsRef AbsSess AbsSafe AbsInv Safe.

Section WithSess.
Variable S : scfg.
Notation C := (base S).
Notation E := (cE C).
Hypothesis HE : env_ok E.
Hypothesis HP : pred_ok C.
Hypothesis HB : builtin_keys S.

Definition search_line (ss : search) : str :=
  s2l "(i-search)[" ++ ss_str ss ++ s2l "]:" ++ ss_found ss.

(** What is shown fits a terminal of width [w]. *)
Definition fits (w : Z) (x : asess) : Prop :=
  match x with
  | ARunning m a => line_ok C (w - PW C - 3) (aline a) /\
      match m with MSearch ss => lim E (units E (search_line ss)) | _ => True end
  | AFinished a _ _ => line_ok C (w - PW C - 3) (aline a)
  end.

Definition new_width (w : Z) (e : event) (x : asess) : Z :=
  match e, x with EResize w', ARunning MNormal _ => w' | _, _ => w end.

Definition SC (w : Z) (x : sess) : Prop :=
  match x with
  | Running m s => CInv C s /\ termw s = w
  | Finished s t e => CInv C s /\ termw s = w
  end.

Lemma CInv_emit s ts : CInv C s -> CInv C (emit s ts).
Proof. exact (fun H => H). Qed.

Lemma finish_safe rc s : CInv C s -> lim E (emojis (cells s)) ->
  exists x, finish S rc s = Some x /\ SC (termw s) x.
Proof.
  intros HC Hl. unfold finish. destruct (suffix s) eqn:Hs.
  - destruct (repaintW_ok C HE (set_suffix s None)) as (s' & -> & HC' & Hp).
    + exact HC.
    + exact Hl.
    + right. constructor.
    + eexists. split; [reflexivity|]. split; [exact HC'|]. cbn. apply paints_fields in Hp as (_ & _ & _ & _ & _ & -> & _). reflexivity.
  - eexists. split; [reflexivity|]. split; [exact HC|reflexivity].
Qed.

Lemma after_safe s r w : CInv C s -> lim E (emojis (cells s)) -> termw s = w ->
  exists x, after_command S (Some (s, r)) = Some x /\ SC w x.
Proof.
  intros HC Hl <-. cbn [after_command].
  destruct r; try (apply (finish_safe _ (emit s [TCursorOn])); assumption).
  eexists. split; [reflexivity|]. split; [exact HC|reflexivity].
Qed.

Lemma search_paint_ok l : forall vw w, Forall tab_ok l -> exists ts, search_paint S vw w l = Some ts.
Proof.
  induction l as [|m l IH]; intros vw w H; cbn [search_paint]; [eauto|].
  apply Forall_cons_iff in H as [Hm Hl]. destruct (_ <=? _); [eauto|].
  destruct (print_ok E m Hm) as [x ->]. destruct (IH vw (w + width E m) Hl) as [ts ->]. eauto.
Qed.

Lemma search_wait_safe ss s w : CInv C s -> termw s = w -> lim E (units E (search_line ss)) ->
  exists x, search_wait S ss s = Some x /\ SC w x.
Proof.
  intros HC Hw Hl. unfold search_wait. fold (search_line ss).
  destruct (search_paint_ok (StringToMoji E (search_line ss)) (ViewWidth s) 0) as [ts ->].
  - now apply StringToMoji_tab.
  - eexists. split; [reflexivity|]. split; [exact HC|exact Hw].
Qed.

Lemma search_cancel_safe s : CInv C s -> lim E (emojis (cells s)) ->
  exists s', search_cancel S s = Some s' /\ CInv C s' /\ termw s' = termw s /\ emojis (cells s') = emojis (cells s).
Proof.
  intros HC Hl. pose proof HC as ((Hc & Ht) & Hv & Hz). unfold search_cancel.
  destruct (getView2_ok C s Hv Hz) as (e & w & -> & He).
  destruct (puts_ok C HE s (view s) e Hc Hl) as (s1 & -> & Hc1 & Hp1); [lia|lia|].
  pose proof (paints_fields _ _ Hp1) as (F1 & F2 & F3 & F4 & F5 & F6 & F7 & _).
  destruct (puts_ok C HE (GotoHead (eraseline s1)) (view s1) (cursor s1)) as (s2 & H2 & Hc2 & Hp2).
  - exact Hc1.
  - cbn. now rewrite F1.
  - lia.
  - cbn. lia.
  - exists s2. split; [exact H2|].
    assert (HC1 : CInv C (GotoHead (eraseline s1))) by exact (paints_CInv C _ _ Hp1 Hc1 HC).
    split; [eapply paints_CInv; eauto|]. apply paints_fields in Hp2 as (G1 & _ & _ & _ & _ & G6 & _).
    rewrite G1, G6. cbn. split; [exact F6|exact F1].
Qed.

(** The cursor stands in the line. *)
Definition ranged (x : asess) : Prop :=
  match x with ARunning _ a | AFinished a _ _ => 0 <= acur a <= zlen (aline a) end.
(** If the display-free editor makes the step, so does the editor. *)
Lemma step_safe_gen w e x : SC w x -> (forall b, exists y, astep S b e (abss x) = Some y /\ ranged y) ->
  fits w (abss x) -> (forall b x', astep S b e (abss x) = Some x' -> fits (new_width w e (abss x)) x') ->
  exists x', step S e x = Some x' /\ SC (new_width w e (abss x)) x'.
Proof.
  intros HS Htot Hf Hnext. destruct x as [m s|s t r].
  2:{ exists (Finished s t r). split; [reflexivity|]. destruct e; exact HS. }
  destruct HS as [HC Htw]. cbn [abss] in *. destruct Hf as [Hwide Hdraw].
  assert (HW : wide C s) by (unfold wide, V; rewrite Htw; exact Hwide).
  assert (Hlim : lim E (emojis (cells s))) by apply Hwide.
  destruct e as [k| |w'|c].
  - cbn [step]. destruct m as [| |ss].
    + unfold key_normal. cbn [astep] in Hnext, Htot. unfold akey_normal in Hnext, Htot.
      pose proof (HB k) as Hb. remember (LookupCommand (kmap S) (gmap S) k) as c eqn:Hc. clear Hc.
      cbn [new_width] in *.
      assert (G : builtin c -> (forall b, exists y, aafter (aexec C b c (abs s)) = Some y /\ ranged y) ->
                 (forall b x', aafter (aexec C b c (abs s)) = Some x' -> fits w x') ->
                 exists x', after_command S (exec C c (emit s [TCursorOff])) = Some x' /\ SC w x').
      { intros Hb0 Hs0 Hn.
        destruct (Hs0 true) as (y & Hy & Hr). destruct (aexec C true c (abs s)) as [[a' r]|] eqn:Ha; [|discriminate]. cbn [aafter] in Hy.
        assert (HA' : 0 <= acur a' <= zlen (aline a')) by (destruct r; injection Hy as <-; exact Hr).
        assert (Hl' : line_ok C (w - PW C - 3) (aline a')).
        { specialize (Hn true). rewrite Ha in Hn. cbn [aafter] in Hn.
          destruct r; specialize (Hn _ eq_refl); cbn in Hn; try exact Hn. apply Hn. }
        destruct (exec_safe C HE HP c (emit s [TCursorOff]) a' r) as (s' & He & HC' & Ht').
        - exact Hb0.
        - exact HC.
        - exact HW.
        - exact Ha.
        - unfold V. cbn. rewrite Htw. exact Hl'.
        - exact HA'.
        - rewrite He. apply after_safe; [exact HC'| |now rewrite Ht'].
          destruct (exec_ref C c _ _ _ Hb0 He) as [b Hb1]. change (abs (emit s [TCursorOff])) with (abs s) in Hb1.
          specialize (Hn b). rewrite Hb1 in Hn. cbn [aafter] in Hn.
          destruct r; specialize (Hn _ eq_refl); cbn in Hn; apply Hn. }
      destruct c; try (apply G; assumption).
      * eexists. split; [reflexivity|]. split; [exact HC|exact Htw].
      * apply search_wait_safe; [exact HC|exact Htw|]. apply (Hnext true _ eq_refl).
    + unfold key_quoted. cbn [new_width] in *. cbn [astep] in Hnext, Htot.
      destruct (Htot true) as (y & Hy & _). destruct (aselfInsert C k (abs s)) as [a'|] eqn:Ha; [|discriminate].
      destruct (Hnext true _ eq_refl) as [Hl' _].
      destruct (selfInsert_safe C HE HP k s a' HC HW Ha) as (s' & Hs' & HC' & Ht'); [unfold V; rewrite Htw; exact Hl'|].
      rewrite Hs'. apply after_safe; [exact HC'| |cbn; now rewrite Ht'].
      apply selfInsert_ref in Hs'. rewrite Hs' in Ha. injection Ha as Ha.
      change (emojis (cells (emit s' [TCursorOff]))) with (aline (abs s')). rewrite Ha. apply Hl'.
    + unfold key_search. cbn [new_width] in *. cbn [astep] in Hnext, Htot. unfold akey_search in Hnext, Htot.
      destruct (Htot true) as (y & Hy & _). destruct (search_key S k ss) as [[ss'| |]|]; [| | |discriminate].
      * destruct (Hnext true _ eq_refl) as [_ Hd]. apply search_wait_safe; [exact HC|exact Htw|exact Hd].
      * destruct (aaccept S ss (abs s)) as [a'|] eqn:Ha; [|discriminate].
        destruct (Hnext true _ eq_refl) as [Hl' _].
        assert (G : exists s', search_accept S ss (GotoHead (emit s [TCursorOff])) = Some s' /\ CInv C s' /\ termw s' = termw s).
        { unfold search_accept. pose proof Ha as Ha2. unfold aaccept in Ha2.
          match goal with |- context [ReplaceAndRepaint C ?y _ _] => apply (Replace_safe C HE HP y 0 (ss_found ss) a'); [|reflexivity| |] end.
          - split; [constructor|]. exact (proj2 (proj1 HC)).
          - unfold atext in Ha2. cbn [aline abs] in Ha2. rewrite <- cell2string_text in Ha2. exact Ha2.
          - unfold V. cbn. rewrite Htw. exact Hl'. }
        destruct G as (s' & Hs' & HC' & Ht'). rewrite Hs'. cbn [continue_]. apply after_safe; [exact HC'| |now rewrite Ht'].
        apply search_accept_ref in Hs'. change (abs (GotoHead (emit s [TCursorOff]))) with (abs s) in Hs'.
        rewrite Hs' in Ha. injection Ha as Ha. change (emojis (cells s')) with (aline (abs s')). rewrite Ha. apply Hl'.
      * destruct (search_cancel_safe (GotoHead (emit s [TCursorOff])) HC Hlim) as (s' & -> & HC' & Ht' & He').
        cbn [continue_]. apply after_safe; [exact HC'| |rewrite Ht'; exact Htw]. rewrite He'. exact Hlim.
  - cbn [step new_width]. destruct m.
    + eexists. split; [reflexivity|]. split; [exact HC|exact Htw].
    + apply after_safe; [exact HC|exact Hlim|exact Htw].
    + apply after_safe; [exact HC|exact Hlim|exact Htw].
  - cbn [step]. destruct m; try (eexists; split; [reflexivity|]; split; [exact HC|exact Htw]).
    cbn [new_width astep] in *. destruct (Hnext true _ eq_refl) as [Hl' _]. rewrite aupdate_line in Hl'.
    unfold on_resize, RepaintLastLine.
    set (y := emit (ResetViewStart C (set_termw s w')) _).
    destruct (repaint_ok C HE HP y) as (s' & Hr & HC' & _ & Ht' & _).
    + apply CInv_emit, ResetViewStart_ok; [exact HE|apply HC|exact Hl'|].
      cbn. split; [destruct HC as (_ & ? & _); lia|apply HC].
    + apply Hl'.
    + rewrite Hr. eexists. split; [reflexivity|]. split; [exact HC'|exact Ht'].
  - eexists. split; [reflexivity|]. split; [exact HC|]. exact Htw.
Qed.

Lemma step_safe w e x : SC w x -> sInv S (abss x) -> sheads S (abss x) -> ~ bad_swap S e (abss x) ->
  fits w (abss x) -> (forall b x', astep S b e (abss x) = Some x' -> fits (new_width w e (abss x)) x') ->
  exists x', step S e x = Some x' /\ SC (new_width w e (abss x)) x'.
Proof.
  intros HS HI Hh Hsw. apply step_safe_gen; [exact HS|]. intros b. destruct (astep_ok S b e (abss x) HB HI Hh Hsw) as (y & Hy & HI').
  exists y. split; [exact Hy|]. destruct y; apply HI'.
Qed.

(** The events keep the line narrow enough, do not swap two characters at the end, and
    (only with grapheme sequences switched on) leave no unit starting with a joiner. *)
Fixpoint guarded (w : Z) (x : asess) (es : list event) : Prop :=
  fits w x /\ sheads S x /\
  match es with
  | [] => True
  | e :: es' => ~ bad_swap S e x /\
      forall b x', astep S b e x = Some x' -> guarded (new_width w e x) x' es'
  end.

Lemma guarded_here w x es : guarded w x es -> fits w x /\ sheads S x.
Proof. destruct es; cbn; tauto. Qed.

Lemma run_safe es : forall w x, SC w x -> sInv S (abss x) -> guarded w (abss x) es ->
  exists x' w', run S es x = Some x' /\ SC w' x' /\ sInv S (abss x').
Proof.
  induction es as [|e es IH]; intros w x HS HI HG; cbn [run].
  - exists x, w. auto.
  - cbn [guarded] in HG. destruct HG as (Hf & Hh & Hsw & Hn).
    destruct (step_safe w e x HS HI Hh Hsw Hf) as (x' & Hst & HS').
    { intros b x' Hx'. specialize (Hn b x' Hx'). now apply guarded_here in Hn. }
    rewrite Hst. apply step_ref in Hst as [b Hb]; [|exact HB].
    destruct (astep_ok S b e (abss x) HB HI Hh Hsw) as (y & Hy & HI'). rewrite Hb in Hy. injection Hy as <-.
    eapply IH; [exact HS'|exact HI'|]. now apply (Hn b).
Qed.

Lemma start_safe default cur w cl : 0 <= cur -> fits w (ARunning MNormal (astart S default cur cl)) ->
  exists x, start S default cur w cl = Some x /\ SC w x.
Proof.
  intros Hcur [Hl _]. unfold astart in Hl. rewrite aupdate_line in Hl. cbn [aline] in Hl.
  unfold start. destruct (callPromptWriter E (prompt C)) as [t pw] eqn:Hpw.
  set (s0 := mkBuf [] None 0 cur w 0 (zlen (hist C)) [] [] [] cl []).
  set (s1 := set_topc (emit s0 [TPrompt t]) pw).
  set (s2 := if termw s1 - 3 <=? topc s1 then set_topc (emit s1 [TNewline]) 0 else s1).
  assert (H2 : cells s2 = [] /\ termw s2 = w /\ cursor s2 = cur /\ topc s2 <= PW C).
  { unfold s2, PW. rewrite Hpw. cbn [snd]. destruct (_ <=? _); cbn; repeat split; lia. }
  destruct H2 as (Hce & Htw & Hcu & Htc).
  assert (HBs : B C s2) by (split; [rewrite Hce; constructor|exact Htc]).
  assert (Hi : ains (abs s2) 0 (units E default) = Some (apush (aset_line (abs s2) (units E default)) (mkUndo 0 (zlen (units E default)) []))).
  { unfold ains. change (aline (abs s2)) with (emojis (cells s2)). rewrite Hce. change (emojis []) with (@nil moji).
    rewrite sliceInsert_firstn by (unfold zlen; cbn; lia). cbn [Z.to_nat firstn skipn app]. rewrite app_nil_r. reflexivity. }
  destruct (insertString_conv C HE s2 0 default _ HBs (proj2 (proj2 Hl)) Hi) as (s3 & l & H3 & Ha3 & Ho3 & Hz3 & _).
  unfold InsertString. rewrite H3.
  pose proof (only_edit_B C _ _ Ho3 HBs) as HB3. apply only_edit_fields in Ho3 as (T1 & T2 & T3 & T4).
  assert (Hem : emojis (cells s3) = units E default).
  { change (emojis (cells s3)) with (aline (abs s3)). rewrite Ha3. reflexivity. }
  set (s4 := if zlen (cells s3) <? cursor s3 then set_cursor s3 (zlen (cells s3)) else s3).
  unfold RepaintAfterPrompt.
  destruct (RVS_repaint_ok C HE HP s4) as (s5 & Hr & HC5 & Ht5).
  - unfold s4. destruct (_ <? _); exact HB3.
  - unfold wide, V. replace (termw s4) with w by (unfold s4; destruct (_ <? _); cbn; congruence).
    replace (emojis (cells s4)) with (units E default) by (unfold s4; destruct (_ <? _); cbn; congruence). exact Hl.
  - unfold s4. pose proof (zlen_nonneg (cells s3)). destruct (zlen (cells s3) <? cursor s3) eqn:Hx; cbn; lia.
  - rewrite Hr. eexists. split; [reflexivity|]. split; [exact HC5|]. cbn. rewrite Ht5.
    unfold s4; destruct (_ <? _); cbn; congruence.
Qed.

Lemma readline_safe default cur w cl es : 0 <= cur ->
  guarded w (ARunning MNormal (astart S default cur cl)) es ->
  exists x' w', readline S default cur w cl es = Some x' /\ SC w' x' /\ sInv S (abss x').
Proof.
  intros Hc HG. destruct (start_safe default cur w cl Hc (proj1 (guarded_here _ _ _ HG))) as (x & Hx & HS).
  unfold readline. rewrite Hx. pose proof (start_ref _ _ _ _ _ _ Hx) as Ha. eapply run_safe; [exact HS| |].
  - rewrite Ha. split; [exact I|]. now apply astart_ok.
  - rewrite Ha. exact HG.
Qed.

End WithSess.
