(** User commands that read keys keep the session going; QUOTED_INSERT is one of them. *)
From Verif Require Import Base Utf8 Moji Color Prompt Buffer Commands KeyMap Session MojiFacts Abs AbsRef AbsSess
  AbsSafe AbsInv Safe SafeSess Plain Spec Reach SafetyFacts SpecComp CompSafe CompProps Script SpecScript ScriptFacts
  Interact SpecInteract.
Ltac lia := unfold rune in *; Lia.lia.

Section WithSess.
Variable S : scfg.
Notation C := (base S).
Notation E := (cE C).
Hypothesis HVe : joinlike E RuneError = false.
Hypothesis HV34 : plain_rune S 34.
Hypothesis Hpred : pcolor0 C = [] \/ forall t c, plain S (predictor C t c).
Hypothesis Hhist : Forall (plain S) (hist C).
Hypothesis HE : env_ok E.
Hypothesis Hrw : forall r, rw E r <= 8.
Hypothesis Huser : forall k f, LookupCommand (kmap S) (gmap S) k = CUser f -> keeps S f.
Context {Q : Type}.
Variable U : programs Q.
Variable I : Q -> bool -> list moji -> Z -> Prop.
Hypothesis Hb : forall k p s, bound U k = Some p -> in_bounds s -> gcareful C I true p s.
Hypothesis Hr : forall q shown s o, I q shown (line s) (cursor s) -> (shown = true -> in_bounds s) ->
  (forall k, o = Some k -> simple_text E k) -> gcareful C I shown (resume U q o) s.

Definition GI (w : Z) (y : isess Q) : Prop :=
  match y with
  | ISess x => IS S w x
  | IUser q s => exists sh, JS S sh w s /\ I q sh (line s) (cursor s)
  end.
Lemma seg_keeps p : forall sh w s, JS S sh w s -> gcareful C I sh p s ->
  exists s' a, run_seg S p s = Some (s', a) /\
    match a with inl _ => J S w s' /\ in_bounds s' | inr q => GI w (IUser q s') end.
Proof.
  induction p as [r| |k IH|c p IH|q]; intros sh w s HJ Hc; cbn [gcareful] in Hc; cbn [run_seg].
  - exists s, (inl r). split; [reflexivity|]. split; [apply HJ|now apply HJ].
  - destruct Hc.
  - now apply (IH s sh).
  - destruct Hc as [Hok Hn]. destruct (call_keeps S Hpred Hhist HV34 HVe HE Hrw sh w c s HJ Hok) as (s1 & Hs1 & HJ1). rewrite Hs1. eapply IH; [exact HJ1|now apply Hn].
  - exists (emit s [TFlush]), (inr q). split; [reflexivity|]. exists sh. split; [exact HJ|exact Hc].
Qed.
Lemma settle_keeps p sh w s : JS S sh w s -> gcareful C I sh p s -> exists y, settle S (run_seg S p s) = Some y /\ GI w y.
Proof.
  intros HJ Hc. destruct (seg_keeps p sh w s HJ Hc) as (s' & [r|q] & -> & H); cbn [settle].
  - destruct H as [HJ' Hb']. assert (HI' : IS S w (Running MNormal s')) by (eapply J_IS; eassumption).
    pose proof HI' as ((HC' & Ht') & (Hm & HA') & (HN' & _) & Hw'). destruct (IS_wide S Hrw _ _ _ HI') as ((_ & _ & Hlim) & _ & _).
    destruct (after_safe S HE s' r w HC' Hlim Ht') as (x' & Hx & HS'). rewrite Hx. exists (ISess x'). split; [reflexivity|].
    pose proof (after_ref S (Some (s', r)) x' (Some (abs s', r))) as Ha. rewrite Hx in Ha. specialize (Ha ltac:(intros ? ? [= <- <-]; reflexivity) eq_refl).
    split; [exact HS'|]. split; [|split; [|exact Hw']].
    + cbn [aafter] in Ha. destruct r; injection Ha as <-; try exact HA'. split; [exact Logic.I|exact HA'].
    + eapply NS_after; [|exact Ha]. intros a r0 [= <- <-]. exact HN'.
  - exists (IUser q s'). split; [reflexivity|exact H].
Qed.
Lemma istep_keep w e y : GI w y -> simple_there S U e y -> exists y' w', istep S U e y = Some y' /\ GI w' y'.
Proof.
  intros HI He. destruct y as [x|q s]; cbn [simple_there istep] in *.
  - assert (G : simple_or_command S e x -> exists y' w', (let* x' := step S e x in Some (@ISess Q x')) = Some y' /\ GI w' y').
    { intros H. assert (exists x' w', step S e x = Some x' /\ IS S w' x') as (x' & w' & -> & H').
      { destruct H as [H|(k & f & -> & Hk & Hrc)]; [|eapply step_user; eauto].
        eapply step_keep; eauto. now apply simple_plain_event. }
      exists (ISess x'), w'. split; [reflexivity|exact H']. }
    destruct e as [k| |w0|c]; try (apply G; destruct He as [He|(k & p & He & _)]; [exact He|discriminate He]).
    destruct x as [[| |ss] s|s t r]; try (destruct He as [He|(k0 & p & _ & _ & He)]; [now apply G|destruct He]).
    + destruct (bound U k) as [p|] eqn:Hk.
      * destruct (settle_keeps p true w (emit s [TCursorOff])) as (y & Hy & HG).
        -- apply IS_J in HI as [HJ Hi]. split; [exact HJ|]. intros _. exact Hi.
        -- apply (Hb k p); [exact Hk|]. apply IS_J in HI as [_ Hi]. exact Hi.
        -- exists y, w. auto.
      * destruct He as [He|(k0 & p & [= <-] & H0 & _)]; [now apply G|]. rewrite Hk in H0. discriminate H0.
    + exists (ISess (Finished s t r)), w. split; [reflexivity|exact HI].
  - destruct HI as (sh & HJ & Hq). destruct e as [k| |w0|c].
    + destruct (settle_keeps (resume U q (Some k)) sh w s HJ) as (y & Hy & HG); [|exists y, w; auto].
      apply Hr; [exact Hq|apply HJ|]. intros k' [= <-]. exact He.
    + destruct (settle_keeps (resume U q None) sh w s HJ) as (y & Hy & HG); [|exists y, w; auto].
      apply Hr; [exact Hq|apply HJ|discriminate].
    + exists (IUser q s), w. split; [reflexivity|]. exists sh. auto.
    + exists (IUser q (set_clip s c)), w. split; [reflexivity|]. exists sh. split; [|exact Hq].
      destruct HJ as [(H1 & H2 & H3 & (N1 & N2 & N3 & N4 & N5 & N6) & H5) Hsh]. split; [|exact Hsh].
      split; [exact H1|]. split; [exact H2|]. split; [exact H3|]. split; [|exact H5].
      split; [exact N1|]. split; [exact N2|]. split; [exact N3|]. split; [exact N4|]. split; [|exact N6].
      cbn. intros t ->. apply simple_plain. now apply He.
Qed.
Lemma irun_keep es : forall w y, (forall es1 e es2 z, es = es1 ++ e :: es2 -> irun S U es1 y = Some z -> simple_there S U e z) ->
  GI w y -> exists y' w', irun S U es y = Some y' /\ GI w' y'.
Proof.
  induction es as [|e es IH]; intros w y Hf HI; cbn [irun]; [eauto|].
  destruct (istep_keep w e y HI (Hf [] e es y eq_refl eq_refl)) as (y1 & w1 & Hst & HI1).
  rewrite Hst. apply (IH w1); [|exact HI1]. intros es1 e1 es2 z -> Hz. apply (Hf (e :: es1) e1 es2 z eq_refl). cbn [irun]. now rewrite Hst.
Qed.
End WithSess.

Lemma interactive_safe S Q (U : programs Q) default cur w cl es : careful_editor S -> careful_programs S U ->
  simple_text (cE (base S)) default -> simple_clip (cE (base S)) cl ->
  (forall es1 e es2 y, es = es1 ++ e :: es2 -> ireadline S U default cur w cl es1 = Some y -> simple_there S U e y) ->
  0 <= cur -> prompt_width (base S) + 11 < w ->
  exists y, ireadline S U default cur w cl es = Some y /\ match y with ISess x => in_bounds (buf_of x) | IUser _ _ => True end.
Proof.
  intros (HU & HE & Hrw & H4 & H5 & H6 & H7) (I & Hb & Hr) Hd Hcl Hes Hc Hw.
  assert (Hpred : pcolor0 (base S) = [] \/ forall t c, plain S (predictor (base S) t c)) by (destruct H6 as [H6|H6]; [now left|right; intros t c; now apply simple_plain]).
  assert (Hhist : Forall (plain S) (hist (base S))) by (eapply Forall_impl; [|exact H7]; apply simple_plain).
  assert (HV34 : plain_rune S 34) by (split; [lia|]; now rewrite <- joins_like).
  assert (HVe : joinlike (cE (base S)) RuneError = false) by now rewrite <- joins_like.
  assert (Huser : forall k f, LookupCommand (kmap S) (gmap S) k = CUser f -> keeps S f).
  { intros k f Hk. destruct (HU k f Hk) as (p & Hf & Hp). eapply careful_keeps; eassumption. }
  destruct (readline_keep S HVe HV34 Hpred Hhist HE Hrw Huser default cur w cl []) as (x & w' & Hx & HS); auto.
  - unfold prompt_width, PW in *. lia.
  - now apply simple_plain.
  - destruct cl; [|exact Logic.I]. now apply simple_plain, Hcl.
  - intros es1 e es2 y He. destruct es1; discriminate He.
  - unfold ireadline in *. unfold readline in Hx. destruct (start S default cur w cl) as [x0|]; [|discriminate Hx]. injection Hx as ->.
    destruct (irun_keep S HVe HV34 Hpred Hhist HE Hrw Huser U I Hb Hr es w' (ISess x)) as (y & w2 & Hy & HG); [exact Hes|exact HS|].
    exists y. split; [exact Hy|]. destruct y as [x2|q s]; [|exact Logic.I]. destruct HG as (HG & _). destruct x2; apply HG.
Qed.

(** * The units of the line *)
From Verif Require Import TextFacts LineInv EditMore.
Section Units.
Variable S : scfg.
Notation C := (base S).
Notation E := (cE C).
Context {Q : Type}.
Variable U : programs Q.
Variable P : moji -> Prop.
Hypothesis HP : forall t, Forall P (units E t).

Lemma LI_seg (p : seg Q) : forall s s' a, LI P (abs s) -> run_seg S p s = Some (s', a) -> LI P (abs s').
Proof.
  induction p as [r0| |k IH|c p IH|q]; intros s s' a H Ha; cbn [run_seg] in Ha.
  - now injection Ha as <- _.
  - discriminate.
  - eapply IH; eauto.
  - opt Ha. eapply IH; [|exact Ha]. eapply LI_call; eauto.
  - now injection Ha as <- _.
Qed.
Definition LIY (y : isess Q) : Prop := match y with ISess x => LIS P (abss x) | IUser _ s => LI P (abs s) end.
Lemma LI_settle p s y : LI P (abs s) -> settle S (run_seg S p s) = Some y -> LIY y.
Proof.
  intros H Hy. unfold settle in Hy. destruct (run_seg S p s) as [[s' [r|q]]|] eqn:Hs; [| |discriminate Hy]; apply LI_seg in Hs; auto.
  - destruct (after_command S (Some (s', r))) as [x|] eqn:Hx; [|discriminate Hy]. injection Hy as <-.
    pose proof (after_ref S (Some (s', r)) x (Some (abs s', r))) as Ha. rewrite Hx in Ha. specialize (Ha ltac:(intros ? ? [= <- <-]; reflexivity) eq_refl).
    eapply LIS_after; [|exact Ha]. intros a r0 [= <- <-]. exact Hs.
  - now injection Hy as <-.
Qed.
Lemma LIY_step e y y' : scripted S -> LIY y -> istep S U e y = Some y' -> LIY y'.
Proof.
  intros HS H Hy. destruct y as [x|q s]; cbn [istep] in Hy.
  - assert (G : (let* x' := step S e x in Some (@ISess Q x')) = Some y' -> LIY y').
    { intros Hg. destruct (step S e x) as [x'|] eqn:Hx; [|discriminate Hg]. injection Hg as <-. exact (LIS_sstep S P HP e x x' HS H Hx). }
    destruct e as [k| |w0|c]; try (now apply G). destruct x as [[| |ss] s|s t r]; try (now apply G).
    destruct (bound U k) as [p|]; [|now apply G]. eapply LI_settle; [|exact Hy]. exact H.
  - destruct e as [k| |w0|c]; try (eapply LI_settle; [|exact Hy]; exact H); injection Hy as <-; exact H.
Qed.
Lemma LIY_reached y : scripted S -> ireached S U y -> Forall P (line (ibuf y)).
Proof.
  intros HS (d & cur & w & cl & es & H). assert (G : LIY y); [|destruct y as [[]|]; exact G].
  unfold ireadline in H. opt H. apply start_ref in Ev.
  assert (H0 : LIY (ISess s)) by (cbn [LIY]; rewrite Ev; apply LI_aupdate, HP). clear Ev.
  revert H H0. generalize (ISess s : isess Q). clear s. induction es as [|e es IH]; intros y0 H H0; cbn [irun] in H; [now injection H as <-|].
  destruct (istep S U e y0) as [y1|] eqn:He; [|discriminate H]. eapply IH; [exact H|]. eapply LIY_step; eauto.
Qed.
End Units.
Lemma unit_interactive S Q (U : programs Q) y m : scripted S -> ireached S U y -> In m (line (ibuf y)) ->
  split (cE (base S)) (write m) = [m].
Proof.
  intros HS Hy Hm. pose proof (LIY_reached S U (self (cE (base S))) (units_self (cE (base S))) y HS Hy) as H.
  rewrite Forall_forall in H. specialize (H m Hm).
  unfold split. rewrite StringToMoji_units. destruct H as [Hv H]. unfold units. rewrite (runes_write _ m (conj Hv H)). exact H.
Qed.

(** * Everything is flushed before a key is read *)
Definition flushed (s : buf) : Prop := exists ts, out s = ts ++ [TFlush].
Lemma waits_flushed S Q (U : programs Q) e y q s : istep S U e y = Some (IUser q s) ->
  match y with IUser q0 s0 => flushed s0 | ISess _ => True end -> flushed s.
Proof.
  assert (G : forall p s0, settle S (run_seg S p s0) = Some (IUser q s) -> flushed s).
  { induction p as [r| |k IH|c p IH|q']; intros s0; cbn [run_seg].
    - cbn [settle]. destruct (after_command S (Some (s0, r))); discriminate.
    - discriminate.
    - apply IH.
    - destruct (do_call (base S) c s0); [apply IH|discriminate].
    - intros [= <- <-]. exists (out s0). reflexivity. }
  intros H Hy. destruct y as [x|q0 s0]; cbn [istep] in H.
  - assert (G' : (let* x' := step S e x in Some (@ISess Q x')) = Some (IUser q s) -> flushed s) by (destruct (step S e x); discriminate).
    destruct e as [k| |w0|c]; try (now apply G'). destruct x as [[| |ss] s1|s1 t r]; try (now apply G').
    destruct (bound U k) as [p|]; [now apply (G p (emit s1 [TCursorOff]))|now apply G'].
  - destruct e as [k| |w0|c]; try (exact (G _ _ H)); injection H as <- <-; exact Hy.
Qed.
Lemma interactive_flushed S Q (U : programs Q) q s : ireached S U (IUser q s) -> exists ts, out s = ts ++ [TFlush].
Proof.
  intros (d & cur & w & cl & es & H). unfold ireadline in H. destruct (start S d cur w cl) as [x|]; [|discriminate H].
  assert (G : forall es y0, irun S U es y0 = Some (IUser q s) -> match y0 with IUser _ s0 => flushed s0 | ISess _ => True end -> flushed s).
  { clear es H. intros es. induction es as [|e es IH]; intros y0 H H0; cbn [irun] in H; [injection H as ->; exact H0|].
    destruct (istep S U e y0) as [y1|] eqn:He; [|discriminate H]. apply (IH y1 H). destruct y1 as [x1|q1 s1]; [exact Logic.I|]. eapply waits_flushed; [exact He|exact H0]. }
  eapply G; [exact H|exact Logic.I].
Qed.

(** * QUOTED_INSERT *)
Lemma selfInsert_exec C k s : exec C (CSelfInsert k) s = continue_ (selfInsert C k s).
Proof. reflexivity. Qed.
Lemma not_quoted (o : option sess) : (forall s, o <> Some (Running MQuoted s)) ->
  (let* x' := o in Some (@ISess unit x')) = option_map as_user o.
Proof. intros H. destruct o as [[[| |ss] s|s t r]|]; try reflexivity. now destruct (H s). Qed.
Lemma after_not_quoted S o s : after_command S o <> Some (Running MQuoted s).
Proof.
  unfold after_command. destruct o as [[s1 []]|]; try discriminate; unfold finish;
    (destruct (suffix _); [destruct (repaintWithoutUpdateSuffix _ _)|]); discriminate.
Qed.
Lemma wait_not_quoted S ss s0 s : search_wait S ss s0 <> Some (Running MQuoted s).
Proof. unfold search_wait. destruct (search_paint _ _ _ _); discriminate. Qed.
Lemma step_quoted S e x : istep S (quoted_insert S) e (as_user x) = option_map as_user (step S e x).
Proof.
  destruct x as [[| |ss] s|s t r].
  - destruct e as [k| |w|c]; try reflexivity.
    + cbn [as_user istep step]. unfold key_normal. cbn [bound quoted_insert].
      destruct (LookupCommand (kmap S) (gmap S) k); try (apply not_quoted; first [apply after_not_quoted|apply wait_not_quoted]).
      cbn [run_seg do_call settle option_map as_user]. unfold emit. cbn. now rewrite <- !app_assoc.
    + cbn [as_user istep step]. destruct (on_resize S w s); reflexivity.
  - destruct e as [k| |w|c]; try reflexivity.
    + cbn [as_user istep step]. unfold key_quoted. cbn [resume quoted_insert run_seg]. unfold do_call at 1. rewrite selfInsert_exec. unfold continue_.
      destruct (selfInsert (base S) k s) as [s1|]; [|reflexivity]. cbn [run_seg cursor_off_and_return do_call settle].
      rewrite not_quoted by apply after_not_quoted. reflexivity.
  - destruct e as [k| |w|c]; try reflexivity.
    cbn [as_user istep step]. apply not_quoted. unfold key_search. intros s0.
    destruct (search_key S k ss) as [[ss'| |]|]; [apply wait_not_quoted|apply after_not_quoted|apply after_not_quoted|discriminate].
  - destruct e as [k| |w|c]; reflexivity.
Qed.
Lemma quoted_is_user S default cur w cl es :
  ireadline S (quoted_insert S) default cur w cl es = option_map as_user (readline S default cur w cl es).
Proof.
  unfold ireadline, readline. destruct (start S default cur w cl) as [x|] eqn:Hx; [|reflexivity].
  assert (Hq : ISess x = as_user x).
  { unfold start in Hx. destruct (callPromptWriter (cE (base S)) (prompt (base S))) as [t pw]. opt Hx. now injection Hx as <-. }
  rewrite Hq. clear Hx Hq. revert x. induction es as [|e es IH]; intros x; cbn [irun run]; [reflexivity|].
  rewrite step_quoted. destruct (step S e x) as [x'|]; [apply IH|reflexivity].
Qed.

(** * Scripts *)
Lemma script_seg S Q p : forall s, run_seg S (@of_script Q p) s = let* (s', r) := run_script (base S) p s in Some (s', inl r).
Proof.
  induction p as [r| |k IH|c p IH]; intros s; cbn [of_script run_seg run_script]; try reflexivity; [apply IH|].
  destruct (do_call (base S) c s) as [s'|]; [apply IH|reflexivity].
Qed.
Lemma script_step S Q (U : programs Q) T e x : base T = base S ->
  (forall k, match bound U k with
             | Some g => exists p, g = of_script p /\ LookupCommand (kmap T) (gmap T) k = CUser (run_script (base S) p)
             | None => LookupCommand (kmap T) (gmap T) k = LookupCommand (kmap S) (gmap S) k
             end) ->
  istep S U e (ISess x) = option_map ISess (step T e x).
Proof.
  destruct S as [C km gm], T as [C' km' gm']. cbn [base kmap gmap]. intros -> HT.
  assert (G : forall o : option sess, (let* x' := o in Some (@ISess Q x')) = option_map ISess o) by (intros [x'|]; reflexivity).
  destruct x as [[| |ss] s|s t r]; try (destruct e as [k| |w|c]; apply G).
  destruct e as [k| |w|c]; try (apply G). cbn [istep]. pose proof (HT k) as Hk. destruct (bound U k) as [g|].
  - destruct Hk as (p & -> & Hk). cbn [step]. unfold key_normal. cbn [kmap gmap base]. rewrite Hk. cbn [exec]. rewrite script_seg. cbn [base].
    destruct (run_script C p (emit s [TCursorOff])) as [[s' r]|]; [|reflexivity]. unfold settle. apply G.
  - cbn [step]. unfold key_normal. cbn [kmap gmap base]. rewrite Hk. apply G.
Qed.
Lemma scripts_are S Q (U : programs Q) T default cur w cl es : base T = base S ->
  (forall k, match bound U k with
             | Some g => exists p, g = of_script p /\ LookupCommand (kmap T) (gmap T) k = CUser (run_script (base S) p)
             | None => LookupCommand (kmap T) (gmap T) k = LookupCommand (kmap S) (gmap S) k
             end) ->
  ireadline S U default cur w cl es = option_map ISess (readline T default cur w cl es).
Proof.
  intros HT HU. unfold ireadline, readline. replace (start T default cur w cl) with (start S default cur w cl) by (unfold start; now rewrite HT).
  destruct (start S default cur w cl) as [x|]; [|reflexivity]. revert x. induction es as [|e es IH]; intros x; cbn [irun run]; [reflexivity|].
  rewrite (script_step S Q U T e x HT HU). destruct (step T e x) as [x'|]; [apply IH|reflexivity].
Qed.

(** QUOTED_INSERT is careful. *)
Lemma quoted_careful S : careful_programs S (quoted_insert S).
Proof.
  exists (fun _ shown _ _ => shown = true). split.
  - intros k p s Hk _. cbn [bound quoted_insert] in Hk. destruct (LookupCommand (kmap S) (gmap S) k); try discriminate Hk. injection Hk as <-.
    cbn [gcareful call_ok shown_after]. split; [exact Logic.I|auto].
  - intros [] shown s o -> _ Ho. cbn [resume quoted_insert]. destruct o as [k|].
    + cbn [gcareful call_ok shown_after cursor_off_and_return]. split; [|intros s' _; split; [exact Logic.I|auto]].
      split; [reflexivity|]. split; [discriminate|]. split; [discriminate|]. split; [discriminate|]. split; [discriminate|].
      intros k' [= <-]. now apply Ho.
    + cbn [gcareful call_ok shown_after cursor_off_and_return]. split; [exact Logic.I|auto].
Qed.
