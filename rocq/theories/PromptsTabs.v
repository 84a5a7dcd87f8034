(** Prompts that change, in lines with tabs. *)
From Verif Require Import Base Utf8 Moji Color Prompt Buffer Commands KeyMap Session MojiFacts Abs AbsRef AbsSess
  AbsSafe AbsInv Safe SafeSess Plain Tabs Spec Reach SafetyFacts SpecTabs TabsFacts Script SpecScript SpecTabScript TabScript
  SpecIndep Prompts SpecPrompts PromptsFacts.
Ltac lia := unfold rune in *; Lia.lia.

Section WithSess.
Variable S : scfg.
Notation C := (base S).
Notation E := (cE C).
Hypothesis HVe : joinlike E RuneError = false.
Hypothesis HVa : forall r, 32 <= r < 127 -> joinlike E r = false.
Hypothesis Hpred : pcolor0 C = [] \/ forall t c, sh S (predictor C t c).
Hypothesis Hhist : Forall (sh S) (hist C).
Hypothesis HE : env_ok E.
Hypothesis Hrw : forall r, rw E r <= 8.
Hypothesis HB : builtin_keys S.
Notation PT := (pred_tabs S HVa Hpred Hrw).

Definition fineP (e : event) (x : sess) : Prop := tab_event S e /\ ashort (abss x) /\ ~ bad_swap S e (abss x).
Lemma stepP w p e x : PW (base (with_prompt S p)) <= PW C -> ITS S w x -> fineP e x ->
  exists x' w', step (with_prompt S p) e x = Some x' /\ ITS S w' x'.
Proof.
  intros Hp (HS & HI & HT & Hw) (He & Hsh & Hsw).
  destruct (TS_fits S HVa Hrw w (abss x) Hw HT) as [Hf Hh].
  pose proof (TS_short S _ HT Hsh) as HTW.
  set (w' := new_width w e (abss x)).
  assert (Hw' : PW C + 3 + 8 < w').
  { unfold w'. destruct e as [k| |w0|c]; try exact Hw. destruct (abss x) as [[| |ss] a|a t r]; try exact Hw. exact He. }
  assert (Hnx : forall b x', astep S b e (abss x) = Some x' -> TS S x').
  { intros b x' Hx. eapply (TS_step S HVe HVa Hpred Hhist Hrw); eauto. }
  destruct (step_prompt_safe S HE PT HB w p e x Hp HS HI Hh Hsw Hf) as (x' & b & Hst & HS' & Hb).
  { intros b x' Hx. apply (TS_fits S HVa Hrw w' x' Hw'). eapply Hnx; eauto. }
  exists x', w'. split; [exact Hst|].
  destruct (astep_ok S b e (abss x) HB HI Hh Hsw) as (y & Hy & HI'). rewrite Hb in Hy. injection Hy as <-.
  split; [exact HS'|]. split; [exact HI'|]. split; [exact (Hnx b _ Hb)|exact Hw'].
Qed.
Lemma runP pes : Forall (fun pe => PW (base (with_prompt S (fst pe))) <= PW C) pes -> forall w x, ITS S w x ->
  (forall pes1 p e pes2 y, pes = pes1 ++ (p, e) :: pes2 -> run_prompts S pes1 x = Some y -> fineP e y) ->
  exists x' w', run_prompts S pes x = Some x' /\ ITS S w' x'.
Proof.
  induction 1 as [|[p e] pes Hp _ IH]; intros w x HI Hf; cbn [run_prompts]; [eauto|].
  destruct (stepP w p e x Hp HI (Hf [] p e pes x eq_refl eq_refl)) as (x1 & w1 & Hst & HI1).
  rewrite Hst. apply (IH w1 x1 HI1). intros pes1 p1 e1 pes2 y -> Hr. apply (Hf ((p, e) :: pes1) p1 e1 pes2 y eq_refl). cbn [run_prompts]. now rewrite Hst.
Qed.
Lemma startP f default cur w cl : first_not_wider S f -> 0 <= cur -> PW C + 3 + 8 < w -> sh S default -> match cl with Some t => sh S t | None => True end ->
  exists x, start_prompt S f default cur w cl = Some x /\ ITS S w x.
Proof.
  intros Hf Hc Hw [Hd Hd'] Hcl. destruct (single_units S _ Hd) as [D1 D2].
  assert (HT : TS S (ARunning MNormal (astart S default cur cl))).
  { split; [|exact I]. unfold astart. apply (TA_aupdate S HVa Hpred). split; [exact D1|]. split; [cbn [aline]; lia|].
    split; [constructor; [cbn; apply (sh_nil S)|constructor]|]. split; [reflexivity|].
    split; [intros k t []|]. split; [cbn; intros t ->; exact Hcl|]. split; [constructor|z0]. }
  destruct (TS_fits S HVa Hrw w _ Hw HT) as [Hft _].
  destruct (start_prompt_tail S f default cur w cl) as (s2 & Hs & Hp & Ht).
  destruct (tail_safe S HE PT default cur w cl s2 Hc Hp (Ht Hf) Hft) as (x & Hx & HS).
  exists x. split; [now rewrite Hs|]. pose proof (tail_ref S _ _ _ _ _ _ Hp Hx) as Ha. split; [exact HS|]. rewrite Ha. split; [|split; [exact HT|exact Hw]].
  split; [exact I|]. now apply astart_ok.
Qed.
End WithSess.

Lemma tab_prompts_safe S f default cur w cl pes : ordinary_editor S -> ordinary_text (cE (base S)) default -> ordinary_clip (cE (base S)) cl ->
  Forall (fun pe => ordinary_event S (snd pe) /\ not_wider S (fst pe)) pes -> first_not_wider S f -> 0 <= cur -> prompt_width (base S) + 11 < w ->
  (forall pes1 p e pes2 x, pes = pes1 ++ (p, e) :: pes2 -> readline_prompts S f default cur w cl pes1 = Some x -> short_line x /\ no_swap_at_end S e x) ->
  exists x, readline_prompts S f default cur w cl pes = Some x /\ in_bounds (buf_of x).
Proof.
  intros (H1 & H2 & H3 & H4 & H5 & H6 & H7) Hd Hcl Hes Hf Hc Hw Hok.
  assert (P1 : joinlike (cE (base S)) RuneError = false) by now rewrite <- joins_like.
  assert (P2 : forall r, 32 <= r < 127 -> joinlike (cE (base S)) r = false) by (intros r Hr; rewrite <- joins_like; now apply H5).
  assert (P3 : pcolor0 (base S) = [] \/ forall t c, sh S (predictor (base S) t c)) by (destruct H6 as [H6|H6]; [now left|right; intros t c; now apply ordinary_sh]).
  assert (P4 : Forall (sh S) (hist (base S))) by (eapply Forall_impl; [|exact H7]; apply ordinary_sh).
  assert (HB : builtin_keys S) by now apply only_builtin_keys.
  destruct (startP S P2 P3 H2 H3 f default cur w cl) as (x & Hx & HI); auto.
  - unfold prompt_width, PW in *. lia.
  - now apply ordinary_sh.
  - destruct cl; [|exact I]. now apply ordinary_sh, Hcl.
  - unfold readline_prompts in *. rewrite Hx in *.
    destruct (runP S P1 P2 P3 P4 H2 H3 HB pes) with (w := w) (x := x) as (x' & w' & Hr & HS & _); [|exact HI| |].
    + eapply Forall_impl; [|exact Hes]. intros pe [_ K]. exact K.
    + intros pes1 p e pes2 y He Hr. destruct (Hok pes1 p e pes2 y He Hr) as (K1 & K2).
      assert (K : fineT S e y).
      { apply ordinary_fine; try assumption.
        - rewrite He in Hes. apply Forall_app in Hes as [_ Hes]. inversion Hes as [|? ? [K _] _]. exact K.
        - intros k s g _ _ Hk. now destruct (H1 k g). }
      exact (conj (proj1 K) (conj (proj1 (proj2 K)) (proj1 (proj2 (proj2 K))))).
    + exists x'. split; [exact Hr|]. destruct x'; apply HS.
Qed.
