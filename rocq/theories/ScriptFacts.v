(** User commands made of public calls keep the session going. *)
From Verif Require Import Base Utf8 Moji Color Prompt Buffer Commands KeyMap Session MojiFacts Abs AbsRef AbsSess
  AbsSafe AbsInv Safe SafeSess Plain Spec Reach SafetyFacts SpecComp CompSafe CompProps Script SpecScript.
Ltac lia := unfold rune in *; Lia.lia.

Section WithSess.
Variable S : scfg.
Notation C := (base S).
Notation E := (cE C).
Hypothesis Hpred : pcolor0 C = [] \/ forall t c, plain S (predictor C t c).
Hypothesis Hhist : Forall (plain S) (hist C).
Hypothesis HV34 : plain_rune S 34.
Hypothesis HVe : joinlike E RuneError = false.
Hypothesis HE : env_ok E.
Hypothesis Hrw : forall r, rw E r <= 8.

(** What holds between two calls. *)
Definition J (w : Z) (s : buf) : Prop :=
  B C s /\ termw s = w /\ InvL C (abs s) /\ NA S (abs s) /\ PW C + 3 + 8 < w.
Lemma zlen_abs s : zlen (aline (abs s)) = zlen (cells s).
Proof. exact (zlen_emojis (cells s)). Qed.
Lemma J_IS w s : J w s -> in_bounds s -> IS S w (Running MNormal s).
Proof.
  intros (HB & Ht & HI & HN & Hw) (Hv & Hc). split; [split; [exact (conj HB (conj Hv Hc))|exact Ht]|].
  split; [|split; [split; [exact HN|exact I]|exact Hw]]. split; [exact I|]. split; [exact HI|].
  cbn [abss]. rewrite zlen_abs. change (acur (abs s)) with (cursor s). lia.
Qed.
Lemma IS_J w s : IS S w (Running MNormal s) -> J w s /\ in_bounds s.
Proof.
  intros (((HB & Hv & Hc) & Ht) & (_ & HI & _) & (HN & _) & Hw). split; [exact (conj HB (conj Ht (conj HI (conj HN Hw))))|exact (conj Hv Hc)].
Qed.
Lemma J_facts w s : J w s -> wide C s /\ heads C (abs s) /\ lim E (emojis (cells s)).
Proof.
  intros (HB & Ht & HI & HN & Hw). destruct (NS_fits S Hrw w (ARunning MNormal (abs s)) Hw (conj HN I)) as [[Hf _] Hh].
  split; [unfold wide, V; rewrite Ht; exact Hf|]. split; [exact Hh|apply Hf].
Qed.
Lemma J_repaint w s s' : J w s -> repaint C s = Some s' -> CInv C s' -> termw s' = termw s -> J w s'.
Proof.
  intros (HB & Ht & HI & HN & Hw) Hr HC' Ht'. apply repaint_ref in Hr. split; [apply HC'|]. split; [congruence|]. rewrite Hr.
  split; [now apply InvL_aupdate|]. split; [now apply NA_aupdate|exact Hw].
Qed.
Lemma J_draw w s : J w s -> in_bounds s -> exists s', repaint C s = Some s' /\ J w s'.
Proof.
  intros HJ Hb. destruct (J_facts w s HJ) as (_ & _ & Hl).
  destruct (repaint_ok C HE (pred_plain S Hpred) s) as (s' & Hr & HC' & _ & Ht' & _); [split; [apply HJ|exact Hb]|exact Hl|].
  exists s'. split; [exact Hr|]. eapply J_repaint; eauto.
Qed.
Lemma J_pw w s ts : J w s -> J w (set_topc (emit s ts) (snd (callPromptWriter E (prompt C)))).
Proof.
  intros ((HB & Htc) & Ht & HI & HN & Hw). split; [split; [exact HB|]|exact (conj Ht (conj HI (conj HN Hw)))].
  unfold PW. cbn. lia.
Qed.
Lemma J_reset w s : J w s -> J w (ResetViewStart C s).
Proof. exact (fun H => H). Qed.
Lemma pm_units t : plain S t -> Forall (pm S) (units E t).
Proof. apply plain_units. Qed.

Definition JS (sh : bool) (w : Z) (s : buf) : Prop := J w s /\ (sh = true -> in_bounds s).
Lemma inside_of sh w s : JS sh w s -> sh = true \/ cursor_inside s -> cursor_inside s.
Proof. intros [_ H] [->|Hc]; [|exact Hc]. destruct (H eq_refl) as [H1 H2]. unfold cursor_inside. lia. Qed.
Lemma JS_in sh w s : J w s -> in_bounds s -> JS sh w s.
Proof. intros H1 H2. split; auto. Qed.

Lemma call_keeps sh w c s : JS sh w s -> call_ok C sh c s -> exists s', do_call C c s = Some s' /\ JS (shown_after c sh) w s'.
Proof.
  intros HJS Hok. pose proof HJS as [HJ HSh]. pose proof HJ as (HB & Ht & HI & HN & Hw). destruct (J_facts w s HJ) as (Hwd & Hh & Hlim).
  assert (GR : forall pos t, 0 <= pos <= cursor s -> cursor_inside s -> plain S t -> exists s', ReplaceAndRepaint C s pos t = Some s' /\ JS true w s').
  { intros pos t Hp Hc Hs. destruct (areplace_ok C (abs s) pos t) as (a & Ha & HA' & _); [exact HI|exact Hh|exact Hp|rewrite zlen_abs; apply Hc|].
    pose proof (NA_areplace S Hpred _ _ _ _ HN Hs Ha) as HN'.
    destruct (Replace_safe C HE (pred_plain S Hpred) s pos t a HB (proj1 Hp) Ha) as (s' & Hr & HC' & Ht').
    { unfold V. rewrite Ht. apply (NS_fits S Hrw w (ARunning MNormal a) Hw (conj HN' I)). }
    exists s'. split; [exact Hr|]. apply ReplaceAndRepaint_ref in Hr. rewrite Ha in Hr. injection Hr as Hr. apply JS_in; [|apply HC'].
    split; [apply HC'|]. split; [congruence|]. rewrite <- Hr. split; [apply HA'|split; assumption]. }
  assert (GD : forall s0, J w s0 -> in_bounds s0 -> exists s', repaint C s0 = Some s' /\ JS sh w s').
  { intros s0 H0 Hb. destruct (J_facts w s0 H0) as (_ & _ & Hl0).
    destruct (repaint_ok C HE (pred_plain S Hpred) s0) as (s' & Hr & HC' & _ & Ht' & _); [split; [apply H0|exact Hb]|exact Hl0|].
    exists s'. split; [exact Hr|]. apply JS_in; [eapply J_repaint; eauto|apply HC']. }
  destruct c as [pos t|pos n|pos t|t| | | | | | |n|n|ts|c]; cbn [call_ok] in Hok; cbn [do_call shown_after].
  - destruct Hok as [Hp Hs]. destruct (ains_ok C (abs s) pos (units E t)) as (a & Ha & HI' & _ & Hz & _ & _); [exact HI|apply units_self|now rewrite zlen_abs|].
    apply simple_plain in Hs. pose proof (NA_ains S _ _ _ _ HN (pm_units t Hs) Ha) as HN'.
    destruct (insertString_conv C HE s pos t a HB) as (s' & l & Hi & Ha' & Ho & _); [|exact Ha|].
    { apply lim_notab. exact (pm_units t Hs). }
    unfold InsertString. rewrite Hi. exists s'. split; [reflexivity|]. pose proof Ho as Ho'. apply only_edit_fields in Ho as (T1 & T & _ & T2). split.
    + split; [eapply only_edit_B; eauto|]. split; [congruence|]. rewrite Ha'. auto.
    + intros Hsh. destruct (HSh Hsh) as [H1 H2]. unfold in_bounds. rewrite <- Ha', !zlen_abs in Hz. pose proof (zlen_nonneg (units E t)). rewrite T1, T2, Hz. lia.
  - destruct (adelete_ok C (abs s) pos n HI Hh Hok) as (a & Ha & HI' & _). pose proof (NA_adelete S _ _ _ _ HN Ha) as HN'.
    destruct (Delete_conv C s pos n a HB Ha) as (s' & l & Hi & Ha' & Ho). rewrite Hi. exists s'. split; [reflexivity|]. split; [|discriminate].
    split; [eapply only_edit_B; eauto|]. apply only_edit_fields in Ho as (_ & T & _). split; [congruence|]. rewrite Ha'. auto.
  - destruct Hok as (Hp & Hc & Hs). apply GR; [exact Hp|now apply (inside_of sh w)|now apply simple_plain].
  - destruct Hok as (Hc & Hs). apply (inside_of sh w s HJS) in Hc. apply GR; [split; [apply Hc|apply Z.le_refl]|exact Hc|now apply simple_plain].
  - apply GD; auto.
  - apply (inside_of sh w s HJS) in Hok. unfold RepaintAfterPrompt. destruct (RVS_repaint_ok C HE (pred_plain S Hpred) s HB Hwd Hok) as (s' & Hr & HC' & Ht').
    exists s'. split; [exact Hr|]. apply JS_in; [|apply HC']. eapply J_repaint; [apply J_reset; exact HJ|exact Hr|exact HC'|exact Ht'].
  - unfold RepaintAll. pose proof (J_pw w s [TFlush; TPrompt (fst (callPromptWriter E (prompt C)))] HJ) as HJ'.
    destruct (callPromptWriter E (prompt C)) as [pt pw]. cbn [fst snd] in HJ'. apply GD; [exact HJ'|exact (HSh Hok)].
  - unfold RepaintLastLine. apply GD; [exact HJ|exact (HSh Hok)].
  - apply (inside_of sh w s HJS) in Hok. exists (ResetViewStart C s). split; [reflexivity|]. apply JS_in; [exact HJ|]. apply (ResetViewStart_ok C HE s HB Hwd Hok).
  - exists (GotoHead s). split; [reflexivity|exact HJS].
  - exists (set_cursor s n). split; [reflexivity|]. split; [exact HJ|discriminate].
  - destruct Hok.
  - exists (emit s ts). split; [reflexivity|exact HJS].
  - destruct Hok as (Hb & Hsw & Hq & Hi & Hu & Hk). apply HSh in Hb. pose proof (J_IS w s HJ Hb) as ((HC & _) & (_ & HA) & _).
    assert (Hbc : builtin c) by (destruct c; try exact I; now destruct (Hu f)).
    destruct (aexec_ok C true c (abs s) Hbc HA Hh) as (a & r & Ha & HA'); [intros [? _]; contradiction|].
    assert (HN' : NA S a).
    { eapply NA_exec; [exact HVe|exact HV34|exact Hpred|exact Hhist|exact HN| |exact Ha]. intros k ->. now apply simple_plain, Hk. }
    destruct (exec_safe C HE (pred_plain S Hpred) c s a r Hbc HC Hwd Ha) as (s' & Hx & HC' & Ht').
    { unfold V. rewrite Ht. apply (NS_fits S Hrw w (ARunning MNormal a) Hw (conj HN' I)). }
    { apply HA'. }
    exists s'. split; [destruct c; try contradiction; now rewrite Hx|]. apply JS_in; [|apply HC']. split; [apply HC'|]. split; [congruence|].
    apply exec_ref in Hx as [b Hx]; [|exact Hbc].
    destruct (aexec_ok C b c (abs s) Hbc HA Hh) as (a2 & r2 & Ha2 & HA2); [intros [? _]; contradiction|].
    rewrite Hx in Ha2. injection Ha2 as <- <-. split; [apply HA2|]. split; [|exact Hw].
    eapply NA_exec; [exact HVe|exact HV34|exact Hpred|exact Hhist|exact HN| |exact Hx]. intros k ->. now apply simple_plain, Hk.
Qed.

Lemma script_keeps p : forall sh w s, JS sh w s -> careful C sh p s -> exists s' r, run_script C p s = Some (s', r) /\ J w s' /\ in_bounds s'.
Proof.
  induction p as [r| |k IH|c p IH]; intros sh w s HJ Hc; cbn [careful] in Hc; cbn [run_script].
  - exists s, r. split; [reflexivity|]. split; [apply HJ|now apply HJ].
  - destruct Hc.
  - now apply (IH s sh).
  - destruct Hc as [Hok Hn]. destruct (call_keeps sh w c s HJ Hok) as (s1 & Hs1 & HJ1). rewrite Hs1. eapply IH; [exact HJ1|now apply Hn].
Qed.
Lemma careful_keeps f p : (forall s, f s = run_script C p s) -> (forall s, in_bounds s -> careful C true p s) -> keeps S f.
Proof.
  intros Hf Hp w s HI. apply IS_J in HI as [HJ Hb]. destruct (script_keeps p true w s (JS_in true w s HJ Hb) (Hp s Hb)) as (s' & r & Hr & HJ' & Hb').
  exists s', r. rewrite Hf. split; [exact Hr|now apply J_IS].
Qed.
End WithSess.

Lemma careful_safe S default cur w cl es : careful_editor S ->
  simple_text (cE (base S)) default -> simple_clip (cE (base S)) cl ->
  (forall es1 e es2 x, es = es1 ++ e :: es2 -> readline S default cur w cl es1 = Some x -> simple_or_command S e x) ->
  0 <= cur -> prompt_width (base S) + 11 < w ->
  exists x, readline S default cur w cl es = Some x /\ in_bounds (buf_of x).
Proof.
  intros (HU & HE & Hrw & H4 & H5 & H6 & H7) Hd Hcl Hes Hc Hw.
  assert (Hpred : pcolor0 (base S) = [] \/ forall t c, plain S (predictor (base S) t c)) by (destruct H6 as [H6|H6]; [now left|right; intros t c; now apply simple_plain]).
  assert (Hhist : Forall (plain S) (hist (base S))) by (eapply Forall_impl; [|exact H7]; apply simple_plain).
  assert (HV34 : plain_rune S 34) by (split; [lia|]; now rewrite <- joins_like).
  destruct (readline_keep S) with (default := default) (cur := cur) (w := w) (cl := cl) (es := es) as (x & w' & Hx & HS & _); auto.
  - now rewrite <- joins_like.
  - intros k f Hk. destruct (HU k f Hk) as (p & Hf & Hp). eapply careful_keeps; try eassumption. now rewrite <- joins_like.
  - unfold prompt_width, PW in *. lia.
  - now apply simple_plain.
  - destruct cl; [|exact I]. now apply simple_plain, Hcl.
  - intros es1 e es2 y He Hr. destruct (Hes es1 e es2 y He Hr) as [H|H]; [left; now apply simple_plain_event|now right].
  - exists x. split; [exact Hx|]. destruct x; apply HS.
Qed.

From Verif Require Import TextFacts LineInv.
(** What the published example does. *)
Lemma example4_does C edit s s' r : run_script C (cmdStartEditor edit) s = Some (s', r) ->
  r = CONTINUE /\
  match edit (written (line s)) with
  | None => s' = s
  | Some t => line s' = split (cE C) t /\ cursor s' = zlen (line s') /\ clip s' = clip s /\ rest_kept s s'
  end.
Proof.
  unfold cmdStartEditor. cbn [run_script].
  assert (K : buf_string s = written (line s)) by (unfold buf_string; rewrite cell2string_text; reflexivity).
  rewrite K. destruct (edit (written (line s))) as [t|]; cbn [run_script]; [|intros [= <- <-]; auto].
  intros H. cbn [do_call] in H.
  destruct (slice (cells s) 0 0) as [l0|] eqn:E0; [|discriminate].
  assert (l0 = []) as -> by (apply slice_some in E0 as (_ & _ & ->); reflexivity).
  destruct (InsertString C (set_cells s []) 0 t) as [[s1 n]|] eqn:Ei; [|discriminate].
  destruct (RepaintAll C (set_cursor s1 (zlen (cells s1)))) as [s2|] eqn:Er; [|discriminate]. injection H as <- <-.
  split; [reflexivity|]. apply InsertString_ref in Ei as [Ei _]. apply RepaintAll_ref in Er.
  unfold ains in Ei. change (aline (abs (set_cells s []))) with (@nil moji) in Ei. rewrite sliceInsert_nil in Ei. apply (f_equal (fun o => match o with Some a => a | None => abs s end)) in Ei.
  assert (Hl : line s2 = split (cE C) t).
  { change (aline (abs s2) = split (cE C) t). rewrite Er, aupdate_line. unfold split. rewrite StringToMoji_units. exact (eq_sym (f_equal aline Ei)). }
  destruct (aupdate_shape C (abs (set_cursor s1 (zlen (cells s1))))) as [x Hx]. rewrite Hx in Er.
  pose proof (f_equal acur Er) as R1. pose proof (f_equal aclip Er) as R2. pose proof (f_equal ahptr Er) as R3.
  pose proof (f_equal amodh Er) as R4. pose proof (f_equal apend Er) as R5. pose proof (f_equal aline Er) as R6.
  pose proof (f_equal aclip Ei) as I2. pose proof (f_equal ahptr Ei) as I3.
  pose proof (f_equal amodh Ei) as I4. pose proof (f_equal apend Ei) as I5. cbn in *.
  split; [exact Hl|]. split; [change (line s2) with (emojis (cells s2)); rewrite R6, zlen_emojis; exact R1|]. split; [congruence|]. split; [split|]; congruence.
Qed.
