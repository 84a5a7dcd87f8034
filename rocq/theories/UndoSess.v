(** The undo records over a whole ReadLine: they lead back through former lines. *)
From Verif Require Import Base Utf8 Moji Color Prompt Buffer Commands KeyMap Session MojiFacts
  Abs AbsRef AbsSess AbsSafe AbsInv Safe SafeSess Plain Spec TextFacts Reach SafetyFacts CmdFacts WordFacts
  EditFacts EditProps LineInv EditMore UndoFacts.
From Verif Require HistFacts.

Lemma sub_refl {A} (l : list A) : subseq l l.
Proof. induction l; constructor; auto. Qed.
Lemma sub_trans {A} (l1 l2 l3 : list A) : subseq l1 l2 -> subseq l2 l3 -> subseq l1 l3.
Proof.
  intros H12 H23. revert l1 H12. induction H23 as [l|x l l' H IH|x l l' H IH]; intros l1 H12.
  - inversion H12; subst. constructor.
  - inversion H12; subst; constructor; auto.
  - constructor. auto.
Qed.
Lemma sub_cons {A} x (l l' : list A) : subseq l l' -> subseq l (x :: l').
Proof. constructor. assumption. Qed.

Lemma sub_length {A} (l l' : list A) : subseq l l' -> (List.length l <= List.length l')%nat.
Proof. induction 1; cbn; lia. Qed.

Section WithSess.
Variable S : scfg.
Notation C := (base S).
Notation E := (cE C).
Hypothesis HB : builtin_keys S.

Lemma sane_inv a : AInv C a -> heads C a -> sane C a.
Proof. intros ((H1 & _) & H2) Hh. split; [exact H1|]. split; assumption. Qed.

Lemma join_first t n : join2 (mkUndo 0 0 t) (mkUndo (zlen (@nil moji)) n []) = Some (mkUndo 0 n t).
Proof. unfold join2. cbn. rewrite andb_false_r. destruct t; reflexivity. Qed.
Lemma change_accept ss a a1 : sane C a -> aaccept S ss a = Some a1 -> change C a a1.
Proof.
  intros (Hs & Hh & _) Ha. unfold aaccept in Ha. set (ak := aset_cur _ 0) in Ha.
  pose proof (areplace_here C ak [] [] (ss_found ss) eq_refl eq_refl) as Hr. change (acur ak) with 0 in Hr.
  rewrite Hr in Ha. clear Hr. injection Ha as <-. apply change_aupdate.
  set (n := zlen (units E (ss_found ss))) in *.
  unfold ajoin. cbn [aundo aset_cur apush aset_undo aset_line ak]. rewrite join_first.
  eapply ch_push; [reflexivity|]. cbn [aline aset_undo aset_cur aset_line apush app]. rewrite app_nil_r.
  unfold undo1. cbn [u_del u_pos u_text].
  assert (Hd : (if 0 <? n then sliceDelete (units E (ss_found ss)) 0 n else Some (units E (ss_found ss))) = Some []).
  { pose proof (sliceDelete_spec [] (units E (ss_found ss)) []) as Hdel. rewrite app_nil_r in Hdel. cbn [app] in Hdel.
    change (zlen []) with 0 in Hdel. fold n in Hdel. subst n. destruct (units E (ss_found ss)) as [|m l]; [reflexivity|]. 
    rewrite zlen_cons in *. pose proof (zlen_nonneg l). replace (0 <? _) with true by lia. exact Hdel. }
  rewrite Hd. unfold atext. destruct (text (aline a)) as [|x t] eqn:Ht.
  - apply text_nil_iff in Ht. now rewrite Ht.
  - rewrite <- Ht, units_text by assumption. apply sliceInsert_nil.
Qed.

(** The lines so far, newest first, the present one in front; what the records lead back
    through is taken from the rest of them. *)
Definition TI (past : list (list moji)) (a : astate) : Prop :=
  exists rest tr, past = aline a :: rest /\ chain C (aline a) (aundo a) = Some tr /\ subseq tr rest.

Lemma run_finished es : forall s t e x, run S es (Finished s t e) = Some x -> x = Finished s t e.
Proof. induction es as [|e0 es IH]; intros s t e x H; cbn in H; [now injection H as <-|]. now apply IH in H. Qed.

Lemma chain_length st : forall l tr, chain C l st = Some tr -> List.length tr = List.length st.
Proof.
  induction st as [|u st IH]; intros l tr H; cbn in H; [now injection H as <-|]. opt H. injection H as <-. cbn. f_equal. eauto.
Qed.

(** UNDO walks down the chain; past its end it stays at the empty line. *)
Lemma undo_times_line k : forall s s' tr, chain C (line s) (undoes s) = Some tr -> undo_ok E (line s) (undoes s) ->
  undo_times C k s = Some s' -> line s' = nth k (line s :: tr) [] /\ undoes s' = skipn k (undoes s).
Proof.
  induction k as [|k IH]; intros s s' tr Hch Hok H.
  - cbn in H. injection H as <-. cbn. auto.
  - cbn [undo_times] in H. destruct (exec C CUndo s) as [[s1 r]|] eqn:Hx; [|discriminate].
    apply exec_ref in Hx as [b Hx]; [|exact I]. cbn [aexec] in Hx. destruct (aUndo C (abs s)) as [a1|] eqn:Ha; [|discriminate].
    apply acont_some in Hx as [Hx _]. subst a1. apply aUndo_line in Ha. change (aundo (abs s)) with (undoes s) in Ha.
    destruct (undoes s) as [|u st] eqn:Hu.
    + cbn in Hch. injection Hch as <-. cbn in Hok.
      assert (H1 : line s1 = [] /\ undoes s1 = []).
      { split; [change (aline (abs s1) = []); rewrite Ha; exact Hok|]. change (aundo (abs s1) = []). now rewrite Ha. }
      destruct H1 as [H1 H2]. apply (IH s1 s' []) in H; [|now rewrite H1, H2|now rewrite H1, H2].
      destruct H as [Hl Hun]. rewrite H1 in Hl. rewrite H2, skipn_nil in Hun. split; [|exact Hun].
      rewrite Hl. cbn. destruct k as [|k]; [reflexivity|]. now destruct k.
    + destruct Ha as [Ha1 Ha2]. cbn [chain] in Hch. change (aline (abs s)) with (line s) in Ha1. rewrite Ha1 in Hch.
      change (aundo (abs s1)) with (undoes s1) in Ha2. change (aline (abs s1)) with (line s1) in *.
      destruct (chain C (line s1) st) as [r0|] eqn:Hr; [|discriminate]. injection Hch as <-.
      destruct Hok as (l' & Hl' & _ & Hok). rewrite Ha1 in Hl'. injection Hl' as <-.
      apply (IH s1 s' r0) in H; [|now rewrite Ha2|now rewrite Ha2]. rewrite Ha2 in H. exact H.
Qed.
End WithSess.

(** ** Unwinding everything *)
Section Unwind.
Variable S : scfg.
Notation C := (base S).
Notation E := (cE C).
Lemma simple_inv default cur w cl es x : simple_editor S -> simple_text E default -> simple_clip E cl ->
  Forall (simple_event S) es -> 0 <= cur -> prompt_width C + 11 < w ->
  readline S default cur w cl es = Some x -> sInv S (abss x).
Proof.
  intros (H1 & H2 & H3 & H4 & H5 & H6 & H7) Hd Hcl Hes Hc Hw Hr.
  destruct (plain_readline S) with (default := default) (cur := cur) (w := w) (cl := cl) (es := es) as (x' & w' & Hx & _ & HI); auto.
  - now rewrite <- joins_like.
  - split; [lia|]. now rewrite <- joins_like.
  - destruct H6 as [H6|H6]; [now left|right]. intros t c. now apply simple_plain.
  - eapply Forall_impl; [|exact H7]. apply simple_plain.
  - now apply only_builtin_keys.
  - unfold prompt_width, PW in *. lia.
  - now apply simple_plain.
  - destruct cl; [|exact I]. now apply simple_plain, Hcl.
  - eapply Forall_impl; [|exact Hes]. apply simple_plain_event.
  - rewrite Hr in Hx. injection Hx as <-. exact HI.
Qed.

Lemma unwind_run kz : builtin_keys S -> bound S kz CUndo -> forall st s x, undoes s = st ->
  undo_ok E (line s) st -> run S (repeat (EKey kz) (List.length st)) (Running MNormal s) = Some x ->
  exists s', x = Running MNormal s' /\ line s' = [] /\ undoes s' = [].
Proof.
  intros HB Hk. induction st as [|u st IH]; intros s x Hu Hok H.
  - cbn in H. injection H as <-. eauto.
  - cbn [List.length repeat run] in H. destruct (step S (EKey kz) (Running MNormal s)) as [y|] eqn:Hy; [|discriminate].
    apply step_ref in Hy as [b Hb]; [|exact HB]. cbn [abss astep] in Hb. unfold akey_normal in Hb. unfold bound in Hk. rewrite Hk in Hb.
    cbn [aexec] in Hb. destruct (aUndo C (abs s)) as [a1|] eqn:Ha; [|discriminate]. cbn in Hb. injection Hb as Hb.
    destruct y as [m1 s1|]; [|discriminate]. cbn [abss] in Hb. injection Hb as <- Hb. subst a1.
    apply aUndo_line in Ha. change (aundo (abs s)) with (undoes s) in Ha. rewrite Hu in Ha. destruct Ha as [Ha1 Ha2].
    destruct Hok as (l' & Hl' & _ & Hok). change (aline (abs s)) with (line s) in Ha1. rewrite Ha1 in Hl'. injection Hl' as <-.
    apply (IH s1); [exact Ha2|exact Hok|exact H].
Qed.

Lemma unwinds kz default cur w cl es s : simple_editor S -> simple_text E default -> simple_clip E cl ->
  Forall (simple_event S) es -> 0 <= cur -> prompt_width C + 11 < w ->
  bound S kz CUndo -> simple_text E kz ->
  readline S default cur w cl es = Some (Running MNormal s) ->
  exists s', readline S default cur w cl (es ++ repeat (EKey kz) (List.length (undoes s))) = Some (Running MNormal s') /\
    line s' = [] /\ undoes s' = [].
Proof.
  intros HS Hd Hcl Hes Hc Hw Hk Hkz H.
  pose proof (simple_inv _ _ _ _ _ _ HS Hd Hcl Hes Hc Hw H) as HI. destruct HI as [_ ((_ & _ & HI) & _)].
  destruct (simple_safe S default cur w cl (es ++ repeat (EKey kz) (List.length (undoes s))) HS Hd Hcl) as (x & Hx & _); auto.
  - apply Forall_app. split; [exact Hes|]. apply Forall_forall. intros e He. apply repeat_spec in He. subst e.
    split; [exact Hkz|]. unfold bound in Hk. rewrite Hk. split; [discriminate|discriminate].
  - pose proof Hx as Hx'. unfold readline in Hx, H. destruct (start S default cur w cl) as [y|]; [|discriminate].
    rewrite HistFacts.run_app, H in Hx.
    destruct (unwind_run kz (only_builtin_keys S (proj1 HS)) Hk (undoes s) s x eq_refl HI Hx) as (s' & -> & H1 & H2).
    exists s'. auto.
Qed.
End Unwind.
