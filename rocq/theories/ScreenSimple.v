(** Sessions with simple text are roomy: the conditions of Spec.v are enough for the screen. *)
From Verif Require Import Base Utf8 Moji Color Prompt Buffer Commands KeyMap Session MojiFacts Abs AbsRef AbsSess
  AbsSafe AbsInv Safe SafeSess Plain Spec Reach SafetyFacts SpecScreen ScreenFacts ScreenPaint ScreenCmd ScreenSess.
Ltac lia := unfold rune in *; Lia.lia.

Section Simple.
Variable S : scfg.
Notation C := (base S).
Notation E := (cE C).
Hypothesis HS : simple_editor S.

Lemma HE : env_ok E. Proof. apply HS. Qed.
Lemma HB : builtin_keys S. Proof. now apply only_builtin_keys, HS. Qed.
Lemma HVe : joinlike E RuneError = false. Proof. rewrite <- joins_like. apply HS. Qed.
Lemma HV34 : plain_rune S 34. Proof. split; [Lia.lia|]. rewrite <- joins_like. apply HS. Qed.
Lemma Hpred : pcolor0 C = [] \/ forall t c, plain S (predictor C t c).
Proof. destruct HS as (_ & _ & _ & _ & _ & [H|H] & _); [now left|right]. intros t c. now apply simple_plain. Qed.
Lemma Hhist : Forall (plain S) (hist C).
Proof. destruct HS as (_ & _ & _ & _ & _ & _ & H). eapply Forall_impl; [|exact H]. apply simple_plain. Qed.
Lemma Hrw : forall r, rw E r <= 8. Proof. apply HS. Qed.

Lemma HPn : pcolor0 C = [] \/ forall t c, nt (StringToMoji E (predictor C t c)).
Proof.
  destruct Hpred as [H|H]; [now left|right]. intros t c. specialize (H t c). apply (plain_units S) in H.
  unfold nt. rewrite <- (StringToMoji_units E) in H. rewrite Forall_map in H. eapply Forall_impl; [|exact H]. intros m Hm. cbn in Hm. apply pm_notab in Hm. now rewrite has_tab_erase in Hm.
Qed.

Lemma NS_roomy w x : prompt_width C + 11 < w -> NS S (abss x) -> SC S w x -> roomy S x.
Proof.
  intros Hw HN HC.
  assert (Ht : termw (buf_of x) = w) by (destruct x; apply HC).
  assert (HA : Forall (pm S) (line (buf_of x))) by (destruct x; [destruct HN as [HN _]|]; apply HN).
  unfold roomy. rewrite Ht. split; [lia|]. split.
  - eapply Forall_impl; [|exact HA]. intros m Hm. split.
    + assert (Hx : nt [m]) by (constructor; [now apply (pm_notab S)|constructor]). apply tabfree_nt in Hx. now inversion Hx.
    + pose proof (pm_width S Hrw m Hm). lia.
  - destruct x as [[| |ss] s|s t r]; try exact I. apply tabfree_nt. destruct HN as [_ [H1 H2]].
    assert (Hs : ~ In 9 (search_text ss)).
    { unfold search_text. intros Hi. apply in_app_or in Hi as [Hi|Hi].
      { cbn in Hi. repeat destruct Hi as [Hi|Hi]; try discriminate; destruct Hi. }
      apply in_app_or in Hi as [Hi|Hi]; [now apply H1|]. apply in_app_or in Hi as [Hi|Hi].
      { cbn in Hi. repeat destruct Hi as [Hi|Hi]; try discriminate; destruct Hi. }
      now apply (plain_notab S) in H2. }
    pose proof (units_notab S Hrw (runes (search_text ss)) (fun Hi => Hs (proj1 (runes_tab _) Hi)) None I) as Hu.
    change (units_from E None (runes (search_text ss))) with (units E (search_text ss)) in Hu. rewrite <- (StringToMoji_units E) in Hu.
    unfold nt. rewrite Forall_forall. intros m Hm. rewrite forallb_forall in Hu. specialize (Hu (erase m) (in_map _ _ _ Hm)). rewrite has_tab_erase in Hu. now destruct (has_tab m).
Qed.

Lemma simple_calm es : Forall (simple_event S) es -> forall w x, prompt_width C + 11 < w -> NS S (abss x) -> SC S w x -> sInv S (abss x) ->
  steady_run S es x -> calm S es x.
Proof.
  induction 1 as [|e es He Hes IH]; intros w x Hw HN HC HI Hst; (split; [now apply (NS_roomy w)|]); [exact I|]. destruct Hst as [Hst Hn]. split; [exact Hst|].
  intros x' Hx'. pose proof (simple_plain_event S e He) as Hpe.
  assert (Hg : guarded S w (abss x) (e :: es)).
  { apply (NS_guarded S HVe HV34 Hpred Hhist Hrw).
    - constructor; [exact Hpe|]. eapply Forall_impl; [|exact Hes]. apply simple_plain_event.
    - unfold prompt_width, PW in *. lia.
    - exact HN. }
  pose proof Hg as (Hf & Hh & Hsw & Hnx).
  destruct (step_safe S HE (pred_plain S Hpred) HB w e x HC HI Hh Hsw Hf) as (y & Hy & HC').
  { intros b x1 Hx1. specialize (Hnx b x1 Hx1). now apply guarded_here in Hnx. }
  rewrite Hx' in Hy. injection Hy as <-.
  apply step_ref in Hx' as Hr; [|exact HB]. destruct Hr as [b Hb].
  destruct (astep_ok S b e (abss x) HB HI Hh Hsw) as (z & Hz & HI'). rewrite Hb in Hz. injection Hz as <-.
  apply (IH (new_width w e (abss x))); auto.
  - destruct e as [k| |w'|c]; try exact Hw. destruct x as [[| |ss] s|s t r]; try exact Hw. exact He.
  - eapply NS_step; [..|exact Hb]; auto using HVe, HV34, Hpred, Hhist.
Qed.
Lemma simple_start default cur w cl x0 es : simple_text E default -> simple_clip E cl -> Forall (simple_event S) es -> 0 <= cur -> prompt_width C + 11 < w ->
  start S default cur w cl = Some x0 -> steady_run S es x0 -> calm S es x0.
Proof.
  intros Hd Hcl Hes Hc Hw H Hst.
  assert (HN : NS S (abss x0)).
  { rewrite (start_ref S default cur w cl x0 H). split; [|exact I]. unfold astart. apply NA_aupdate; [exact Hpred|].
    split; [now apply plain_units, simple_plain|]. split; [repeat constructor|]. split; [reflexivity|].
    split; [intros k t []|]. split; [|constructor]. cbn. intros t ->. now apply simple_plain, Hcl. }
  assert (Hf : fits S w (abss x0)) by (apply (NS_fits S Hrw); [unfold prompt_width, PW in *; lia|exact HN]).
  rewrite (start_ref S default cur w cl x0 H) in Hf.
  destruct (start_safe S HE (pred_plain S Hpred) default cur w cl Hc Hf) as (y & Hy & HC). rewrite H in Hy. injection Hy as <-.
  apply (simple_calm es Hes w); auto. rewrite (start_ref S default cur w cl x0 H). split; [exact I|]. now apply astart_ok.
Qed.
End Simple.
