(** Sessions with user commands: completion commands never crash the editor. *)
From Verif Require Import Base Utf8 Moji Color Prompt Buffer Commands KeyMap Session MojiFacts Abs AbsRef AbsSess
  AbsSafe AbsInv Safe SafeSess Plain Spec Reach SafetyFacts Completion SpecComp CompFacts.
Ltac lia := unfold rune in *; Lia.lia.

Section WithSess.
Variable S : scfg.
Notation C := (base S).
Notation E := (cE C).
Hypothesis HVe : joinlike E RuneError = false.
Hypothesis HV34 : plain_rune S 34.
Hypothesis Hpred : pcolor0 C = [] \/ forall t c, plain S (predictor C t c).
Hypothesis Hhist : Forall (plain S) (hist C).
Hypothesis HE : env_ok E.
Hypothesis Hrw : forall r, rw E r <= 8.

Definition IS (w : Z) (x : sess) : Prop :=
  SC S w x /\ sInv S (abss x) /\ NS S (abss x) /\ PW C + 3 + 8 < w.
Definition keeps (f : buf -> option (buf * result)) : Prop :=
  forall w s, IS w (Running MNormal s) -> exists s' r, f s = Some (s', r) /\ IS w (Running MNormal s').

Lemma IS_emit w m s ts : IS w (Running m s) -> IS w (Running m (emit s ts)).
Proof. exact (fun H => H). Qed.
Lemma IS_wide w m s : IS w (Running m s) -> wide C s /\ heads C (abs s) /\ termw s = w.
Proof.
  intros ((HC & Ht) & HI & HN & Hw). destruct (NS_fits S Hrw w _ Hw HN) as [Hf Hh].
  split; [|split; [exact Hh|exact Ht]]. unfold wide, V. rewrite Ht. exact (proj1 Hf).
Qed.

(** The line, the display and the terminal width after a replacement. *)
Lemma IS_replace w s pos t : IS w (Running MNormal s) -> 0 <= pos <= cursor s -> plain S t ->
  exists s', ReplaceAndRepaint C s pos t = Some s' /\ IS w (Running MNormal s').
Proof.
  intros HI Hpos Ht. pose proof HI as ((HC & Htw) & (_ & HA) & (HN & _) & Hw). destruct (IS_wide _ _ _ HI) as (Hwd & Hh & _).
  destruct (areplace_ok C (abs s) pos t) as (a' & Ha & HA' & Hl' & _); [apply HA|exact Hh|exact Hpos|apply HA|].
  pose proof (NA_areplace S Hpred _ _ _ _ HN Ht Ha) as HN'.
  assert (Hln : line_ok C (V C s) (aline a')).
  { destruct (NS_fits S Hrw w (ARunning MNormal a') Hw) as [Hf _]; [split; [exact HN'|exact I]|]. unfold V. rewrite Htw. exact (proj1 Hf). }
  destruct (Replace_safe C HE (pred_plain S Hpred) s pos t a' (proj1 HC) (proj1 Hpos) Ha Hln) as (s' & Hs & HC' & Ht').
  exists s'. split; [exact Hs|]. apply ReplaceAndRepaint_ref in Hs. rewrite Ha in Hs. injection Hs as Hs.
  split; [split; [exact HC'|now rewrite Ht']|]. cbn [abss]. rewrite <- Hs. repeat split; try assumption; try apply HA'; try apply HN'.
Qed.

Lemma step_any (T : scfg) w e x : base T = C -> builtin_keys T -> IS w x -> plain_event T e ->
  exists x' w', step T e x = Some x' /\ IS w' x'.
Proof.
  destruct T as [C0 km gm]. cbn [base]. intros -> HB (HS & HI & HN & Hw) He. set (T := mkScfg C km gm) in *.
  assert (Hpl : forall x0, NS S x0 -> NS T x0) by (intros x0 H0; exact H0).
  destruct (NS_fits T Hrw w (abss x) Hw (Hpl _ HN)) as [Hf Hh].
  assert (Hsw : ~ bad_swap T e (abss x)).
  { destruct e as [k| |w'|c]; destruct (abss x) as [[| |ss] a|a t r]; cbn; try tauto. destruct He as (_ & He & _). intros [H1 _]. now apply He. }
  set (w' := new_width w e (abss x)).
  assert (Hw' : PW C + 3 + 8 < w').
  { unfold w'. destruct e as [k| |w0|c]; try exact Hw. destruct (abss x) as [[| |ss] a|a t r]; try exact Hw. exact He. }
  assert (Hnx : forall b x', astep T b e (abss x) = Some x' -> NS T x').
  { intros b x' Hx. eapply NS_step; [exact HVe|exact HV34|exact Hpred|exact Hhist|exact HN|exact He|exact Hx]. }
  destruct (step_safe T HE (pred_plain T Hpred) HB w e x HS HI Hh Hsw Hf) as (x' & Hst & HS').
  { intros b x' Hx. apply (NS_fits T Hrw w' x' Hw'). eapply Hnx; eauto. }
  exists x', w'. split; [exact Hst|]. apply step_ref in Hst as [b Hb]; [|exact HB].
  destruct (astep_ok T b e (abss x) HB HI Hh Hsw) as (y & Hy & HI'). rewrite Hb in Hy. injection Hy as <-.
  split; [exact HS'|]. split; [exact HI'|]. split; [exact (Hnx b _ Hb)|exact Hw'].
Qed.

Hypothesis Huser : forall k f, LookupCommand (kmap S) (gmap S) k = CUser f -> keeps f.

Lemma step_keep w e x : IS w x -> plain_event S e -> exists x' w', step S e x = Some x' /\ IS w' x'.
Proof.
  intros HI He. destruct e as [k| |w0|c].
  - destruct (LookupCommand (kmap S) (gmap S) k) eqn:Hc; (try (match type of Hc with _ = CUser _ => fail 1 | _ => idtac end; rewrite just_step, Hc;
      match type of Hc with _ = ?c => destruct (step_any (just S k c) w (EKey k) x eq_refl (just_builtin S k c I) HI) as (x' & w' & H1 & H2) end;
      [destruct He as (H1 & H2 & H3); rewrite Hc in *; split; [exact H1|]; rewrite just_lookup; split; assumption|exists x', w'; split; assumption])).
    destruct x as [[| |ss] s|s t r].
    + cbn [step]. unfold key_normal. rewrite Hc. cbn [exec]. destruct (Huser k f Hc w (emit s [TCursorOff]) HI) as (s' & r & -> & HI').
      pose proof HI' as ((HC' & Ht') & (Hm & HA') & (HN' & _) & Hw'). destruct (IS_wide _ _ _ HI') as ((_ & _ & Hlim) & _ & _).
      destruct (after_safe S HE s' r w HC' Hlim Ht') as (x' & Hx & HS'). exists x', w. split; [exact Hx|].
      pose proof (after_ref S (Some (s', r)) x' (Some (abs s', r))) as Ha. rewrite Hx in Ha. specialize (Ha ltac:(intros ? ? [= <- <-]; reflexivity) eq_refl).
      split; [exact HS'|]. split; [|split; [|exact Hw']].
      * cbn [aafter] in Ha. destruct r; injection Ha as <-; try exact HA'. split; [exact I|exact HA'].
      * eapply NS_after; [|exact Ha]. intros a r0 [= <- <-]. exact HN'.
    + cbn [step]. destruct (step_any (mkScfg C [] []) w (EKey k) (Running MQuoted s) eq_refl) as (x' & w' & H1 & H2).
      * intros k'. exact I.
      * exact HI.
      * destruct He as (H1 & _). split; [exact H1|]. split; [discriminate|]. intros k' [= <-]. exact H1.
      * exists x', w'. split; [exact H1|exact H2].
    + cbn [step]. destruct (step_any (mkScfg C [] []) w (EKey k) (Running (MSearch ss) s) eq_refl) as (x' & w' & H1 & H2).
      * intros k'. exact I.
      * exact HI.
      * destruct He as (H1 & _). split; [exact H1|]. split; [discriminate|]. intros k' [= <-]. exact H1.
      * exists x', w'. split; [exact H1|exact H2].
    + exists (Finished s t r), w. split; [reflexivity|exact HI].
  - destruct (step_any (mkScfg C [] []) w EKeyErr x eq_refl) as (x' & w' & H1 & H2); [intros k'; exact I|exact HI|exact He|].
    exists x', w'. split; [|exact H2]. rewrite <- H1. destruct x as [[| |ss] s|s t r]; reflexivity.
  - destruct (step_any (mkScfg C [] []) w (EResize w0) x eq_refl) as (x' & w' & H1 & H2); [intros k'; exact I|exact HI|exact He|].
    exists x', w'. split; [|exact H2]. rewrite <- H1. destruct x as [[| |ss] s|s t r]; reflexivity.
  - destruct (step_any (mkScfg C [] []) w (EClip c) x eq_refl) as (x' & w' & H1 & H2); [intros k'; exact I|exact HI|exact He|].
    exists x', w'. split; [|exact H2]. rewrite <- H1. destruct x as [[| |ss] s|s t r]; reflexivity.
Qed.
Lemma step_user w k f x : IS w x -> LookupCommand (kmap S) (gmap S) k = CUser f -> reads_commands x -> exists x' w', step S (EKey k) x = Some x' /\ IS w' x'.
Proof.
  intros HI Hc Hr. destruct x as [[| |ss] s|s t r]; try easy.
  - cbn [step]. unfold key_normal. rewrite Hc. cbn [exec]. destruct (Huser k f Hc w (emit s [TCursorOff]) HI) as (s' & r & -> & HI').
    pose proof HI' as ((HC' & Ht') & (Hm & HA') & (HN' & _) & Hw'). destruct (IS_wide _ _ _ HI') as ((_ & _ & Hlim) & _ & _).
    destruct (after_safe S HE s' r w HC' Hlim Ht') as (x' & Hx & HS'). exists x', w. split; [exact Hx|].
    pose proof (after_ref S (Some (s', r)) x' (Some (abs s', r))) as Ha. rewrite Hx in Ha. specialize (Ha ltac:(intros ? ? [= <- <-]; reflexivity) eq_refl).
    split; [exact HS'|]. split; [|split; [|exact Hw']].
    + cbn [aafter] in Ha. destruct r; injection Ha as <-; try exact HA'. split; [exact I|exact HA'].
    + eapply NS_after; [|exact Ha]. intros a r0 [= <- <-]. exact HN'.
  - exists (Finished s t r), w. split; [reflexivity|exact HI].
Qed.
Definition fine (e : event) (x : sess) : Prop :=
  plain_event S e \/ exists k f, e = EKey k /\ LookupCommand (kmap S) (gmap S) k = CUser f /\ reads_commands x.
Lemma run_keep es : forall w x, (forall es1 e es2 y, es = es1 ++ e :: es2 -> run S es1 x = Some y -> fine e y) -> IS w x -> exists x' w', run S es x = Some x' /\ IS w' x'.
Proof.
  induction es as [|e es IH]; intros w x Hf HI; cbn [run]; [eauto|].
  assert (exists x1 w1, step S e x = Some x1 /\ IS w1 x1) as (x1 & w1 & Hst & HI1).
  { destruct (Hf [] e es x eq_refl eq_refl) as [He|(k & f & -> & Hk & Hr)]; [now apply (step_keep w)|now apply (step_user w k f)]. }
  rewrite Hst. apply (IH w1); [|exact HI1]. intros es1 e1 es2 y -> Hr. apply (Hf (e :: es1) e1 es2 y eq_refl). cbn [run]. now rewrite Hst.
Qed.
Lemma readline_keep default cur w cl es : 0 <= cur -> PW C + 3 + 8 < w -> plain S default ->
  match cl with Some t => plain S t | None => True end ->
  (forall es1 e es2 y, es = es1 ++ e :: es2 -> readline S default cur w cl es1 = Some y -> fine e y) ->
  exists x' w', readline S default cur w cl es = Some x' /\ IS w' x'.
Proof.
  intros Hc Hw Hd Hcl Hes. set (T := mkScfg C [] []).
  destruct (plain_readline T HVe HV34 Hpred Hhist HE Hrw ltac:(intros k; exact I) default cur w cl [] Hc Hw Hd Hcl ltac:(constructor)) as (x & w' & Hx & _).
  unfold readline in *. change (start T default cur w cl) with (start S default cur w cl) in Hx.
  destruct (start S default cur w cl) as [x0|] eqn:Hst; [|discriminate].
  apply (run_keep es w x0); [exact Hes|]. assert (HN : NS T (ARunning MNormal (astart T default cur cl))).
  { split; [|exact I]. unfold astart. apply NA_aupdate; [exact Hpred|]. split; [now apply plain_units|]. split; [repeat constructor|]. split; [reflexivity|].
    split; [intros k t []|]. split; [|constructor]. cbn. intros t ->. exact Hcl. }
  destruct (start_safe T HE (pred_plain T Hpred) default cur w cl Hc (proj1 (NS_fits T Hrw w _ Hw HN))) as (x1 & Hx1 & HS1).
  change (start T default cur w cl) with (start S default cur w cl) in Hx1. rewrite Hst in Hx1. injection Hx1 as <-.
  pose proof (start_ref T _ _ _ _ _ Hst) as Ha. split; [exact HS1|]. rewrite Ha. split; [|split; [exact HN|exact Hw]].
  split; [exact I|]. exact (astart_ok T default cur cl Hc).
Qed.
End WithSess.

(** * Completion keeps the session going *)
Lemma split_loop_bounds quotes del l : forall i st fs lws fs' lws',
  split_loop quotes del l i st fs lws = (fs', lws') -> 0 <= lws <= i ->
  match st with Some (start, _, _) => 0 <= start <= i | None => True end -> 0 <= lws' <= i + zlen l.
Proof.
  induction l as [|c l IH]; intros i st fs lws fs' lws' H Hl Hs.
  - cbn in H. change (zlen (@nil str)) with 0. destruct st as [[[start w] b]|]; injection H as _ <-; lia.
  - rewrite zlen_cons. cbn [split_loop] in H. cbv zeta in H. destruct st as [[[start w] b]|].
    + destruct (0 <=? str_index quotes c); [apply IH in H; [lia|lia|cbn; lia]|].
      destruct (_ && _); [apply IH in H; [lia|lia|exact I]|].
      destruct (_ && _); [apply IH in H; [lia|lia|exact I]|]. apply IH in H; [lia|lia|cbn; lia].
    + destruct (str_contains blanks c); [apply IH in H; [lia|lia|exact I]|].
      destruct (0 <=? str_index quotes c); [apply IH in H; [lia|lia|cbn; lia]|].
      destruct (_ && _); [apply IH in H; [lia|lia|exact I]|].
      destruct (_ && _); [apply IH in H; [lia|lia|exact I]|]. apply IH in H; [lia|lia|cbn; lia].
Qed.
Lemma split_line_ok quotes del s : 0 <= cursor s <= zlen (cells s) ->
  exists fs lws, split_line quotes del s = Some (fs, lws) /\ 0 <= lws <= cursor s.
Proof.
  intros Hc. unfold split_line, slice. replace (_ && _ && _) with true by lia.
  destruct (split_loop quotes del (map cell_str _) 0 None [] 0) as [fs lws] eqn:Hs. exists fs, lws. split; [reflexivity|].
  apply split_loop_bounds in Hs; [|lia|exact I]. rewrite zlen_map in Hs. unfold zlen in Hs at 1. rewrite firstn_length in Hs. lia.
Qed.
Lemma removeUnmatches_ok fold full : forall base source, zlen full <= zlen base ->
  exists nf nb, removeUnmatches fold full base source = Some (nf, nb).
Proof.
  induction full as [|n full IH]; intros base source H; cbn [removeUnmatches]; [eauto|].
  rewrite zlen_cons in H. destruct base as [|b base]; [pose proof (zlen_nonneg full); change (zlen (@nil str)) with 0 in H; lia|]. rewrite zlen_cons in H. cbn [tl].
  destruct (IH base source) as (nf & nb & ->); [lia|]. destruct (_ && _); eauto.
Qed.
Lemma selected_incl {A} (P : A -> Prop) l l' : selected P l l' -> incl l' l.
Proof.
  induction 1; [intros y []| |].
  - intros y [->|Hy]; [now left|right; auto].
  - intros y Hy. right. auto.
Qed.
Lemma even_case_incl up l l' : incl l' l -> even_case up l -> even_case up l'.
Proof.
  intros Hi [H1 H2]. split.
  - rewrite Forall_forall in *. auto.
  - intros a b Ha Hb. apply in_flat_map in Ha as (x & Hx & Ha). apply in_flat_map in Hb as (y & Hy & Hb). apply H2; apply in_flat_map; eauto.
Qed.

Section Completing.
Variable S : scfg.
Notation C := (base S).
Notation E := (cE C).
Hypothesis Hpred : pcolor0 C = [] \/ forall t c, plain S (predictor C t c).
Hypothesis HE : env_ok E.
Hypothesis Hrw : forall r, rw E r <= 8.
Variables up fold : rune -> rune.
Variable P : completion.
Variable postfix : str.
Hypothesis HP : answers E up (List_ P).
Hypothesis Hq : Forall (fun q => plain S (encode_rune q)) (Enclosures P).
Hypothesis Hpf : plain S postfix.

Lemma plain_app_valid a b : valid_utf8 a -> plain S a -> plain S b -> plain S (a ++ b).
Proof. intros Hv Ha Hb. unfold plain, all_runes. rewrite runes_app_valid by assumption. apply Forall_app. split; assumption. Qed.

Lemma complete_keeps w s : IS S w (Running MNormal s) ->
  exists s' l, complete up fold C (Enclosures P) (Delimiters P) P postfix s = Some (s', l) /\ IS S w (Running MNormal s').
Proof.
  intros HI. unfold complete. pose proof HI as ((((_ & _) & Hv & Hcz) & _) & _).
  destruct (split_line_ok (Enclosures P) (Delimiters P) s) as (fs & lws & -> & Hlws); [lia|].
  destruct (rev fs) as [|word fs']; [exists s, []; split; [reflexivity|exact HI]|]. destruct (HP fs) as (names & bases & -> & Hb & Hsimple & Hev).
  set (bs := match bases with [] => names | _ :: _ => bases end).
  destruct (removeUnmatches_ok fold names bs word) as (hits & l & HR); [unfold bs; destruct bases, Hb as [Hb|Hb]; try discriminate; try lia; destruct names; unfold zlen in *; cbn in *; lia|].
  rewrite HR. apply removeUnmatches_spec in HR as (R1 & _ & _). apply selected_incl in R1.
  assert (Hsub : forall x, In x hits -> plain S x /\ valid_utf8 x).
  { intros x Hx. apply R1 in Hx. split; [apply simple_plain; rewrite Forall_forall in Hsimple; auto|]. destruct Hev as [Hev _]. rewrite Forall_forall in Hev. auto. }
  assert (Hquo : forall q qs t, Enclosures P = q :: qs -> plain S t -> plain S (encode_rune q ++ t)).
  { intros q qs t He Ht. rewrite He in Hq. inversion Hq; subst. apply plain_app_valid; [apply valid_utf8_encode_rune|assumption|assumption]. }
  destruct hits as [|x [|y hits]].
  - exists s, []. split; [reflexivity|exact HI].
  - destruct (EqualFold fold word x); [exists (emit s [TBell]), []; split; [reflexivity|exact HI]|].
    destruct (Hsub x (or_introl eq_refl)) as [Hx Hvx].
    set (ins := match Enclosures P with [] => x | _ :: _ => _ end).
    destruct (IS_replace S Hpred HE Hrw w s lws (ins ++ postfix) HI Hlws) as (s' & -> & HI'); [|exists s', []; split; [reflexivity|exact HI']].
    unfold ins. destruct (Enclosures P) as [|q qs] eqn:He; [now apply plain_app_valid|]. destruct (Delimiters P) as [|d ds]; [now apply plain_app_valid|].
    destruct (contains_any _ _); [|now apply plain_app_valid]. rewrite <- !app_assoc. apply (Hquo q qs); [reflexivity|]. apply plain_app_valid; [assumption|assumption|].
    now apply (Hquo q qs).
  - destruct (commonPrefix_ok up (x :: y :: hits)) as (pre & Hpre & Hvp & _); [discriminate|eapply even_case_incl; eassumption|]. rewrite Hpre.
    destruct (EqualFold fold word pre); [exists (emit s [TBell]), l; split; [reflexivity|exact HI]|].
    assert (Hpp : plain S pre).
    { apply commonPrefix_of in Hpre as (m & r & Hm & _ & Hmr); [|discriminate]. destruct (Hsub m Hm) as [Hpm _]. unfold plain, all_runes in Hpm.
      rewrite Hmr, runes_app_valid in Hpm by assumption. now apply Forall_app in Hpm. }
    set (ins := match Enclosures P with [] => pre | _ :: _ => _ end).
    destruct (IS_replace S Hpred HE Hrw w s lws ins HI Hlws) as (s' & -> & HI'); [|exists s', []; split; [reflexivity|exact HI']].
    unfold ins. destruct (Enclosures P) as [|q qs] eqn:He; [assumption|]. destruct (hasToInsertQuotation _ _); [|assumption]. now apply (Hquo q qs).
Qed.
Lemma IS_RepaintAll w s ts : IS S w (Running MNormal s) -> exists s', RepaintAll C (emit s ts) = Some s' /\ IS S w (Running MNormal s').
Proof.
  intros HI. pose proof HI as ((HC & Ht) & (_ & HA) & (HN & _) & Hw). destruct (IS_wide S Hrw _ _ _ HI) as (Hwd & Hh & _).
  destruct (RepaintAll_safe C HE (pred_plain S Hpred) s ts HC Hwd) as (s' & Hs & HC' & Ht'). exists s'. split; [exact Hs|].
  apply RepaintAll_ref in Hs. rewrite abs_emit in Hs. split; [split; [exact HC'|now rewrite Ht']|]. cbn [abss]. rewrite Hs. split; [|split; [|exact Hw]].
  - split; [exact I|]. destruct (aupdate_shape C (abs s)) as [z ->]. exact HA.
  - split; [|exact I]. now apply NA_aupdate.
Qed.
Lemma completion_keeps f : CUser f = CmdCompletion up fold C P postfix -> keeps S f.
Proof.
  intros [= ->] w s HI. destruct (complete_keeps w s HI) as (s' & l & -> & HI'). eauto.
Qed.
Lemma completion_list_keeps box f : CUser f = CmdCompletionOrList up fold C box P postfix -> keeps S f.
Proof.
  intros [= ->] w s HI. destruct (complete_keeps w s HI) as (s' & l & -> & HI'). destruct l as [|x l]; [eauto|].
  destruct (IS_RepaintAll w s' [TNewline; TAttr (box (x :: l))] HI') as (s2 & -> & HI2). eauto.
Qed.
End Completing.
