(** User commands in lines with tabs: the session goes on. *)
From Verif Require Import Base Utf8 Moji Color Prompt Buffer Commands KeyMap Session MojiFacts Abs AbsRef AbsSess
  AbsSafe AbsInv Safe SafeSess Plain Tabs Spec Reach SafetyFacts SpecTabs TabsFacts Script SpecScript SpecTabScript.
Ltac lia := unfold rune in *; Lia.lia.

Section WithSess.
Variable S : scfg.
Notation C := (base S).
Notation E := (cE C).
Hypothesis HVe : joinlike E RuneError = false.
Hypothesis HVa : forall r, 32 <= r < 127 -> joinlike E r = false.
Hypothesis Hpred : pcolor0 C = [] \/ forall t c, sh S (predictor C t c).
Hypothesis Hhist : Forall (sh S) (hist C).
Hypothesis HE : env_ok E.
Hypothesis Hrw : forall r, rw E r <= 8.
Notation PT := (pred_tabs S HVa Hpred Hrw).

Definition ITS (w : Z) (x : sess) : Prop := SC S w x /\ sInv S (abss x) /\ TS S (abss x) /\ PW C + 3 + 8 < w.
Definition survives (f : buf -> option (buf * result)) (s : buf) : Prop :=
  forall w, ITS w (Running MNormal s) -> exists s' r, f s = Some (s', r) /\ ITS w (Running MNormal s').

Lemma ITS_wide w m s : ITS w (Running m s) -> wide C s /\ heads C (abs s) /\ termw s = w.
Proof.
  intros ((HC & Ht) & HI & HN & Hw). destruct (TS_fits S HVa Hrw w _ Hw HN) as [Hf Hh].
  split; [|split; [exact Hh|exact Ht]]. unfold wide, V. rewrite Ht. exact (proj1 Hf).
Qed.

(** * Sessions whose user commands survive *)
Lemma stepT (T : scfg) w e x : base T = C -> builtin_keys T -> ITS w x -> tab_event T e -> ashort (abss x) -> ~ bad_swap T e (abss x) ->
  exists x' w', step T e x = Some x' /\ ITS w' x'.
Proof.
  destruct T as [C0 km gm]. cbn [base]. intros -> HB (HS & HI & HT & Hw) He Hsh Hsw. set (T := mkScfg C km gm) in *.
  assert (HTT : TS T (abss x)) by exact HT.
  destruct (TS_fits T HVa Hrw w (abss x) Hw HTT) as [Hf Hh].
  pose proof (TS_short T _ HTT Hsh) as HTW.
  set (w' := new_width w e (abss x)).
  assert (Hw' : PW C + 3 + 8 < w').
  { unfold w'. destruct e as [k| |w0|c]; try exact Hw. destruct (abss x) as [[| |ss] a|a t r]; try exact Hw. exact He. }
  assert (Hnx : forall b x', astep T b e (abss x) = Some x' -> TS T x').
  { intros b x' Hx. eapply (TS_step T HVe HVa Hpred Hhist Hrw); eauto. }
  destruct (step_safe T HE (pred_tabs T HVa Hpred Hrw) HB w e x HS HI Hh Hsw Hf) as (x' & Hst & HS').
  { intros b x' Hx. apply (TS_fits T HVa Hrw w' x' Hw'). eapply Hnx; eauto. }
  exists x', w'. split; [exact Hst|]. apply step_ref in Hst as [b Hb]; [|exact HB].
  destruct (astep_ok T b e (abss x) HB HI Hh Hsw) as (y & Hy & HI'). rewrite Hb in Hy. injection Hy as <-.
  split; [exact HS'|]. split; [exact HI'|]. split; [exact (Hnx b _ Hb)|exact Hw'].
Qed.
Definition fineT (e : event) (x : sess) : Prop :=
  tab_event S e /\ ashort (abss x) /\ ~ bad_swap S e (abss x) /\
  forall k s f, e = EKey k -> x = Running MNormal s -> LookupCommand (kmap S) (gmap S) k = CUser f -> survives f (emit s [TCursorOff]).
Lemma stepT_keep w e x : ITS w x -> fineT e x -> exists x' w', step S e x = Some x' /\ ITS w' x'.
Proof.
  intros HI (He & Hsh & Hsw & Hu). destruct e as [k| |w0|c].
  - assert (G : forall T, T = mkScfg C [] [] -> forall m s, m <> MNormal -> x = Running m s -> exists x' w', step T (EKey k) x = Some x' /\ ITS w' x').
    { intros T -> m s Hm ->. apply (stepT (mkScfg C [] []) w); [reflexivity|intros k'; exact I|exact HI| |exact Hsh|].
      - destruct He as [H1 _]. split; [exact H1|]. intros k' [= <-]. exact H1.
      - destruct m; [congruence| |]; cbn; tauto. }
    destruct (LookupCommand (kmap S) (gmap S) k) eqn:Hc; (try (match type of Hc with _ = CUser _ => fail 1 | _ => idtac end; rewrite just_step, Hc;
      match type of Hc with _ = ?c => destruct (stepT (just S k c) w (EKey k) x eq_refl (just_builtin S k c I) HI) as (x' & w' & H1 & H2) end;
      [destruct He as (H1 & H2); rewrite Hc in *; split; [exact H1|]; rewrite just_lookup; assumption
      |exact Hsh
      |destruct x as [[| |ss] s|s t r]; cbn [bad_swap abss] in *; try exact Hsw; rewrite just_lookup; rewrite Hc in Hsw; exact Hsw
      |exists x', w'; split; assumption])).
    destruct x as [[| |ss] s|s t r].
    + cbn [step]. unfold key_normal. rewrite Hc. cbn [exec]. destruct (Hu k s f eq_refl eq_refl Hc w HI) as (s' & r & -> & HI').
      pose proof HI' as ((HC' & Ht') & (Hm & HA') & (HN' & _) & Hw'). destruct (ITS_wide _ _ _ HI') as ((_ & _ & Hlim) & _ & _).
      destruct (after_safe S HE s' r w HC' Hlim Ht') as (x' & Hx & HS'). exists x', w. split; [exact Hx|].
      pose proof (after_ref S (Some (s', r)) x' (Some (abs s', r))) as Ha. rewrite Hx in Ha. specialize (Ha ltac:(intros ? ? [= <- <-]; reflexivity) eq_refl).
      split; [exact HS'|]. split; [|split; [|exact Hw']].
      * cbn [aafter] in Ha. destruct r; injection Ha as <-; try exact HA'. split; [exact I|exact HA'].
      * eapply TS_after; [|exact Ha]. intros a r0 [= <- <-]. exact HN'.
    + destruct (G _ eq_refl MQuoted s ltac:(discriminate) eq_refl) as (x' & w' & H1 & H2). exists x', w'. split; [exact H1|exact H2].
    + destruct (G _ eq_refl (MSearch ss) s ltac:(discriminate) eq_refl) as (x' & w' & H1 & H2). exists x', w'. split; [exact H1|exact H2].
    + exists (Finished s t r), w. split; [reflexivity|exact HI].
  - destruct (stepT (mkScfg C [] []) w EKeyErr x eq_refl) as (x' & w' & H1 & H2); [intros k'; exact I|exact HI|exact He|exact Hsh|intros []|].
    exists x', w'. split; [|exact H2]. rewrite <- H1. destruct x as [[| |ss] s|s t r]; reflexivity.
  - destruct (stepT (mkScfg C [] []) w (EResize w0) x eq_refl) as (x' & w' & H1 & H2); [intros k'; exact I|exact HI|exact He|exact Hsh|intros []|].
    exists x', w'. split; [|exact H2]. rewrite <- H1. destruct x as [[| |ss] s|s t r]; reflexivity.
  - destruct (stepT (mkScfg C [] []) w (EClip c) x eq_refl) as (x' & w' & H1 & H2); [intros k'; exact I|exact HI|exact He|exact Hsh|intros []|].
    exists x', w'. split; [|exact H2]. rewrite <- H1. destruct x as [[| |ss] s|s t r]; reflexivity.
Qed.
Lemma runT es : forall w x, (forall es1 e es2 y, es = es1 ++ e :: es2 -> run S es1 x = Some y -> fineT e y) -> ITS w x -> exists x' w', run S es x = Some x' /\ ITS w' x'.
Proof.
  induction es as [|e es IH]; intros w x Hf HI; cbn [run]; [eauto|].
  destruct (stepT_keep w e x HI (Hf [] e es x eq_refl eq_refl)) as (x1 & w1 & Hst & HI1).
  rewrite Hst. apply (IH w1); [|exact HI1]. intros es1 e1 es2 y -> Hr. apply (Hf (e :: es1) e1 es2 y eq_refl). cbn [run]. now rewrite Hst.
Qed.
Lemma startT default cur w cl : 0 <= cur -> PW C + 3 + 8 < w -> sh S default -> match cl with Some t => sh S t | None => True end ->
  exists x, start S default cur w cl = Some x /\ ITS w x.
Proof.
  intros Hc Hw [Hd Hd'] Hcl. destruct (single_units S _ Hd) as [D1 D2].
  assert (HT : TS S (ARunning MNormal (astart S default cur cl))).
  { split; [|exact I]. unfold astart. apply (TA_aupdate S HVa Hpred). split; [exact D1|]. split; [cbn [aline]; lia|].
    split; [constructor; [cbn; apply (sh_nil S)|constructor]|]. split; [reflexivity|].
    split; [intros k t []|]. split; [cbn; intros t ->; exact Hcl|]. split; [constructor|z0]. }
  destruct (TS_fits S HVa Hrw w _ Hw HT) as [Hf _].
  destruct (start_safe S HE PT default cur w cl Hc Hf) as (x & Hx & HS).
  exists x. split; [exact Hx|]. pose proof (start_ref _ _ _ _ _ _ Hx) as Ha. split; [exact HS|]. rewrite Ha. split; [|split; [exact HT|exact Hw]].
  split; [exact I|]. now apply astart_ok.
Qed.
Lemma readlineT default cur w cl es : 0 <= cur -> PW C + 3 + 8 < w -> sh S default -> match cl with Some t => sh S t | None => True end ->
  (forall es1 e es2 y, es = es1 ++ e :: es2 -> readline S default cur w cl es1 = Some y -> fineT e y) ->
  exists x' w', readline S default cur w cl es = Some x' /\ ITS w' x'.
Proof.
  intros Hc Hw Hd Hcl Hes. destruct (startT default cur w cl Hc Hw Hd Hcl) as (x & Hx & HI). unfold readline in *. rewrite Hx in *. now apply (runT es w).
Qed.

(** * Careful scripts survive *)
Definition JT (w : Z) (s : buf) : Prop :=
  B C s /\ termw s = w /\ InvL C (abs s) /\ TA S 4004 (abs s) /\ PW C + 3 + 8 < w.
Lemma zlen_abs s : zlen (aline (abs s)) = zlen (cells s).
Proof. exact (zlen_emojis (cells s)). Qed.
Lemma JT_ITS w s : JT w s -> in_bounds s -> ITS w (Running MNormal s).
Proof.
  intros (HB & Ht & HI & HN & Hw) (Hv & Hc). split; [split; [exact (conj HB (conj Hv Hc))|exact Ht]|].
  split; [|split; [split; [exact HN|exact I]|exact Hw]]. split; [exact I|]. split; [exact HI|].
  cbn [abss]. rewrite zlen_abs. change (acur (abs s)) with (cursor s). lia.
Qed.
Lemma ITS_JT w s : ITS w (Running MNormal s) -> JT w s /\ in_bounds s.
Proof.
  intros (((HB & Hv & Hc) & Ht) & (_ & HI & _) & (HN & _) & Hw). split; [exact (conj HB (conj Ht (conj HI (conj HN Hw))))|exact (conj Hv Hc)].
Qed.
Lemma TA_fits w a : PW C + 3 + 8 < w -> TA S 4004 a -> line_ok C (w - PW C - 3) (aline a) /\ heads C a.
Proof. intros Hw H. destruct (TS_fits S HVa Hrw w (ARunning MNormal a) Hw (conj H I)) as [[Hf _] Hh]. split; [exact Hf|exact Hh]. Qed.
Lemma JT_facts w s : JT w s -> wide C s /\ heads C (abs s) /\ lim E (emojis (cells s)).
Proof.
  intros (HB & Ht & HI & HN & Hw). destruct (TA_fits w _ Hw HN) as [Hf Hh].
  split; [unfold wide, V; rewrite Ht; exact Hf|]. split; [exact Hh|apply Hf].
Qed.
Lemma JT_repaint w s s' : JT w s -> repaint C s = Some s' -> CInv C s' -> termw s' = termw s -> JT w s'.
Proof.
  intros (HB & Ht & HI & HN & Hw) Hr HC' Ht'. apply repaint_ref in Hr. split; [apply HC'|]. split; [congruence|]. rewrite Hr.
  split; [now apply InvL_aupdate|]. split; [now apply (TA_aupdate S HVa Hpred)|exact Hw].
Qed.
Lemma JT_pw w s ts : JT w s -> JT w (set_topc (emit s ts) (snd (callPromptWriter E (prompt C)))).
Proof.
  intros ((HB & Htc) & Ht & HI & HN & Hw). split; [split; [exact HB|]|exact (conj Ht (conj HI (conj HN Hw)))].
  unfold PW. cbn. lia.
Qed.
Lemma JT_reset w s : JT w s -> JT w (ResetViewStart C s).
Proof. exact (fun H => H). Qed.
Definition JTS (sh : bool) (w : Z) (s : buf) : Prop := JT w s /\ (sh = true -> in_bounds s).
Lemma insideT sh w s : JTS sh w s -> sh = true \/ cursor_inside s -> cursor_inside s.
Proof. intros [_ H] [->|Hc]; [|exact Hc]. destruct (H eq_refl) as [H1 H2]. unfold cursor_inside. lia. Qed.
Lemma JTS_in sh w s : JT w s -> in_bounds s -> JTS sh w s.
Proof. intros H1 H2. split; auto. Qed.
Lemma short_TA s : TA S 4004 (abs s) -> short s -> TA S 800 (abs s).
Proof. intros (H1 & _ & H3) H. split; [exact H1|]. split; [rewrite zlen_abs; exact H|exact H3]. Qed.

Lemma call_survives sh w c s : JTS sh w s -> tab_call_ok C sh c s -> exists s', do_call C c s = Some s' /\ JTS (shown_after c sh) w s'.
Proof.
  intros HJS Hok. pose proof HJS as [HJ HSh]. pose proof HJ as (HB & Ht & HI & HN & Hw). destruct (JT_facts w s HJ) as (Hwd & Hh & Hlim).
  assert (GR : forall pos t, short s -> 0 <= pos <= cursor s -> cursor_inside s -> Tabs.sh S t -> exists s', ReplaceAndRepaint C s pos t = Some s' /\ JTS true w s').
  { intros pos t Hs0 Hp Hc [Hs Hs']. destruct (areplace_ok C (abs s) pos t) as (a & Ha & HA' & _); [exact HI|exact Hh|exact Hp|rewrite zlen_abs; apply Hc|].
    assert (HN' : TA S 4004 a) by (eapply (TA_more S HVa); [eapply (TA_areplace S HVa Hpred 800 800); [lia|exact (short_TA s HN Hs0)|exact Hs|exact Hs'|exact Ha]|lia]).
    destruct (Replace_safe C HE PT s pos t a HB (proj1 Hp) Ha) as (s' & Hr & HC' & Ht').
    { unfold V. rewrite Ht. now apply TA_fits. }
    exists s'. split; [exact Hr|]. apply ReplaceAndRepaint_ref in Hr. rewrite Ha in Hr. injection Hr as Hr. apply JTS_in; [|apply HC'].
    split; [apply HC'|]. split; [congruence|]. rewrite <- Hr. split; [apply HA'|split; assumption]. }
  assert (GD : forall s0, JT w s0 -> in_bounds s0 -> exists s', repaint C s0 = Some s' /\ JTS sh w s').
  { intros s0 H0 Hb. destruct (JT_facts w s0 H0) as (_ & _ & Hl0).
    destruct (repaint_ok C HE PT s0) as (s' & Hr & HC' & _ & Ht' & _); [split; [apply H0|exact Hb]|exact Hl0|].
    exists s'. split; [exact Hr|]. apply JTS_in; [eapply JT_repaint; eauto|apply HC']. }
  destruct c as [pos t|pos n|pos t|t| | | | | | |n|n|ts|c]; cbn [tab_call_ok] in Hok; cbn [do_call shown_after].
  - destruct Hok as (Hs0 & Hp & Hs). destruct (ains_ok C (abs s) pos (units E t)) as (a & Ha & HI' & _ & Hz & _ & _); [exact HI|apply units_self|now rewrite zlen_abs|].
    apply ordinary_sh in Hs as [Hs Hs']. destruct (single_units S _ Hs) as [U1 U2].
    assert (HN' : TA S 4004 a) by (eapply (TA_more S HVa); [eapply (TA_ains S HVa 800 800); [exact (short_TA s HN Hs0)|exact U1|lia|exact Ha]|lia]).
    destruct (insertString_conv C HE s pos t a HB) as (s' & l & Hi & Ha' & Ho & _); [|exact Ha|].
    { apply (sm_lim S HVa Hrw); [exact U1|lia]. }
    unfold InsertString. rewrite Hi. exists s'. split; [reflexivity|]. pose proof Ho as Ho'. apply only_edit_fields in Ho as (T1 & T & _ & T2). split.
    + split; [eapply only_edit_B; eauto|]. split; [congruence|]. rewrite Ha'. auto.
    + intros Hsh. destruct (HSh Hsh) as [H1 H2]. unfold in_bounds. rewrite <- Ha', !zlen_abs in Hz. pose proof (zlen_nonneg (units E t)). rewrite T1, T2, Hz. lia.
  - destruct Hok as [Hs0 Hok]. destruct (adelete_ok C (abs s) pos n HI Hh Hok) as (a & Ha & HI' & _).
    assert (HN' : TA S 4004 a) by (eapply (TA_more S HVa); [eapply (TA_adelete S HVa 800); [lia|exact (short_TA s HN Hs0)|exact Ha]|lia]).
    destruct (Delete_conv C s pos n a HB Ha) as (s' & l & Hi & Ha' & Ho). rewrite Hi. exists s'. split; [reflexivity|]. split; [|discriminate].
    split; [eapply only_edit_B; eauto|]. apply only_edit_fields in Ho as (_ & T & _). split; [congruence|]. rewrite Ha'. auto.
  - destruct Hok as (Hs0 & Hp & Hc & Hs). apply GR; [exact Hs0|exact Hp|now apply (insideT sh w)|now apply ordinary_sh].
  - destruct Hok as (Hs0 & Hc & Hs). apply (insideT sh w s HJS) in Hc. apply GR; [exact Hs0|split; [apply Hc|apply Z.le_refl]|exact Hc|now apply ordinary_sh].
  - apply GD; auto.
  - apply (insideT sh w s HJS) in Hok. unfold RepaintAfterPrompt. destruct (RVS_repaint_ok C HE PT s HB Hwd Hok) as (s' & Hr & HC' & Ht').
    exists s'. split; [exact Hr|]. apply JTS_in; [|apply HC']. eapply JT_repaint; [apply JT_reset; exact HJ|exact Hr|exact HC'|exact Ht'].
  - unfold RepaintAll. pose proof (JT_pw w s [TFlush; TPrompt (fst (callPromptWriter E (prompt C)))] HJ) as HJ'.
    destruct (callPromptWriter E (prompt C)) as [pt pw]. cbn [fst snd] in HJ'. apply GD; [exact HJ'|exact (HSh Hok)].
  - unfold RepaintLastLine. apply GD; [exact HJ|exact (HSh Hok)].
  - apply (insideT sh w s HJS) in Hok. exists (ResetViewStart C s). split; [reflexivity|]. apply JTS_in; [exact HJ|]. apply (ResetViewStart_ok C HE s HB Hwd Hok).
  - exists (GotoHead s). split; [reflexivity|exact HJS].
  - exists (set_cursor s n). split; [reflexivity|]. split; [exact HJ|discriminate].
  - destruct Hok.
  - exists (emit s ts). split; [reflexivity|exact HJS].
  - destruct Hok as (Hs0 & Hb & Hsw & Hq & Hi & Hu & Hk). apply HSh in Hb. pose proof (JT_ITS w s HJ Hb) as ((HC & _) & (_ & HA) & _).
    assert (Hbc : builtin c) by (destruct c; try exact I; now destruct (Hu f)).
    assert (Hsw' : ~ (c = CSwapChar /\ swap_at_end (abs s))).
    { intros [-> [H1 H2]]. rewrite zlen_abs in H1. change (acur (abs s)) with (cursor s) in *. specialize (Hsw eq_refl H1). lia. }
    assert (Hk' : forall k, c = CSelfInsert k -> Tabs.sh S k) by (intros k ->; now apply ordinary_sh, Hk).
    pose proof (fun b a r => TA_exec S HVe HVa Hpred Hhist b c (abs s) a r (short_TA s HN Hs0) Hk') as HX.
    destruct (aexec_ok C true c (abs s) Hbc HA Hh Hsw') as (a & r & Ha & HA').
    destruct (exec_safe C HE PT c s a r Hbc HC Hwd Ha) as (s' & Hx & HC' & Ht').
    { unfold V. rewrite Ht. apply (TA_fits w _ Hw). eapply HX; eauto. }
    { apply HA'. }
    exists s'. split; [destruct c; try contradiction; now rewrite Hx|]. apply JTS_in; [|apply HC']. split; [apply HC'|]. split; [congruence|].
    apply exec_ref in Hx as [b Hx]; [|exact Hbc].
    destruct (aexec_ok C b c (abs s) Hbc HA Hh Hsw') as (a2 & r2 & Ha2 & HA2).
    rewrite Hx in Ha2. injection Ha2 as <- <-. split; [apply HA2|]. split; [|exact Hw]. eapply HX; eauto.
Qed.
Lemma script_survives p : forall sh w s, JTS sh w s -> tab_careful C sh p s -> exists s' r, run_script C p s = Some (s', r) /\ JT w s' /\ in_bounds s'.
Proof.
  induction p as [r| |k IH|c p IH]; intros sh w s HJ Hc; cbn [tab_careful] in Hc; cbn [run_script].
  - exists s, r. split; [reflexivity|]. split; [apply HJ|now apply HJ].
  - destruct Hc.
  - now apply (IH s sh).
  - destruct Hc as [Hok Hn]. destruct (call_survives sh w c s HJ Hok) as (s1 & Hs1 & HJ1). rewrite Hs1. eapply IH; [exact HJ1|now apply Hn].
Qed.
Lemma careful_survives f p s : (forall s0, f s0 = run_script C p s0) -> tab_careful C true p s -> survives f s.
Proof.
  intros Hf Hp w HI. apply ITS_JT in HI as [HJ Hb]. destruct (script_survives p true w s (JTS_in true w s HJ Hb) Hp) as (s' & r & Hr & HJ' & Hb').
  exists s', r. rewrite Hf. split; [exact Hr|now apply JT_ITS].
Qed.
Lemma ordinary_fine e y : ordinary_event S e -> short_line y -> no_swap_at_end S e y ->
  (forall k s f, e = EKey k -> y = Running MNormal s -> LookupCommand (kmap S) (gmap S) k = CUser f -> survives f (emit s [TCursorOff])) -> fineT e y.
Proof.
  intros He [K1 K2] K3 Hu. split; [now apply ordinary_tab_event|]. split; [|split; [|exact Hu]].
  - destruct y as [m s|s t r]; cbn [abss ashort buf_of] in *; rewrite zlen_abs; [|exact K1]. split; [exact K1|].
    destruct m as [| |ss]; auto. exact (K2 ss s eq_refl).
  - unfold bad_swap. destruct e as [k| | |]; try (intros []; fail). destruct y as [[| |ss] s|s t r]; cbn [abss]; try (intros []; fail).
    intros [Hs [Ha Hb]]. rewrite zlen_abs in Ha. specialize (K3 k s eq_refl eq_refl Hs Ha). cbn in Hb. lia.
Qed.
End WithSess.

Lemma scripts_safe S default cur w cl es : ordinary_sources S ->
  ordinary_text (cE (base S)) default -> ordinary_clip (cE (base S)) cl -> Forall (ordinary_event S) es ->
  (forall es1 e es2 x, es = es1 ++ e :: es2 -> readline S default cur w cl es1 = Some x ->
     short_line x /\ no_swap_at_end S e x /\ careful_there S e x) ->
  0 <= cur -> prompt_width (base S) + 11 < w ->
  exists x, readline S default cur w cl es = Some x /\ in_bounds (buf_of x).
Proof.
  intros (H2 & H3 & H4 & H5 & H6 & H7) Hd Hcl Hes Hok Hc Hw.
  assert (P1 : joinlike (cE (base S)) RuneError = false) by now rewrite <- joins_like.
  assert (P2 : forall r, 32 <= r < 127 -> joinlike (cE (base S)) r = false) by (intros r Hr; rewrite <- joins_like; now apply H5).
  assert (P3 : pcolor0 (base S) = [] \/ forall t c, sh S (predictor (base S) t c)) by (destruct H6 as [H6|H6]; [now left|right; intros t c; now apply ordinary_sh]).
  assert (P4 : Forall (sh S) (hist (base S))) by (eapply Forall_impl; [|exact H7]; apply ordinary_sh).
  destruct (readlineT S P1 P2 P3 P4 H2 H3 default cur w cl es) as (x & w' & Hx & HS & _); auto.
  - unfold prompt_width, PW in *. lia.
  - now apply ordinary_sh.
  - destruct cl; [|exact I]. now apply ordinary_sh, Hcl.
  - intros es1 e es2 y He Hr. destruct (Hok es1 e es2 y He Hr) as (K1 & K2 & K3). apply ordinary_fine; try assumption.
    + rewrite He in Hes. apply Forall_app in Hes as [_ Hes]. now inversion Hes.
    + intros k s f Hk Hy Hl. destruct (K3 k s f Hk Hy Hl) as (p & Hf & Hp). now apply (careful_survives S P1 P2 P3 P4 H2 H3 f p).
  - exists x. split; [exact Hx|]. destruct x; apply HS.
Qed.
