(** Completion in lines with tabs: the session goes on. *)
From Verif Require Import Base Utf8 Moji Color Prompt Buffer Commands KeyMap Session MojiFacts Abs AbsRef AbsSess
  AbsSafe AbsInv Safe SafeSess Plain Tabs Spec Reach SafetyFacts SpecTabs TabsFacts Script SpecScript SpecTabScript TabScript
  Completion SpecComp CompFacts CompSafe SpecCompTabs.
Ltac lia := unfold rune in *; Lia.lia.

Section Completing.
Variable S : scfg.
Notation C := (base S).
Notation E := (cE C).
Hypothesis HVe : joinlike E RuneError = false.
Hypothesis HVa : forall r, 32 <= r < 127 -> joinlike E r = false.
Hypothesis Hpred : pcolor0 C = [] \/ forall t c, sh S (predictor C t c).
Hypothesis Hhist : Forall (sh S) (hist C).
Hypothesis HE : env_ok E.
Hypothesis Hrw : forall r, rw E r <= 8.
Variables up fold : rune -> rune.
Variable P : completion.
Variable postfix : str.
Hypothesis HP : answers_tabs E up (List_ P).
Hypothesis Hq : Forall (fun q => 0 <= q < 128 /\ joins E q = false) (Enclosures P).
Hypothesis Hpf : text_upto E 390 postfix.

Lemma upto_app a b n m : valid_utf8 a -> text_upto E n a -> text_upto E m b -> text_upto E (n + m) (a ++ b).
Proof.
  intros Hv [A1 A2] [B1 B2]. unfold text_upto. rewrite runes_app_valid by assumption. rewrite zlen_app. split; [|lia].
  intros r Hr. apply in_app_or in Hr as [Hr|Hr]; auto.
Qed.
Lemma upto_more n m t : n <= m -> text_upto E n t -> text_upto E m t.
Proof. intros H [H1 H2]. split; [exact H1|lia]. Qed.

Definition IS1 (w : Z) (s : buf) : Prop := JTS S true w s.
Lemma survive_replace w s pos t : IS1 w s -> short s -> 0 <= pos <= cursor s -> text_upto E 800 t -> exists s', ReplaceAndRepaint C s pos t = Some s' /\ IS1 w s'.
Proof.
  intros HI Hs Hp Ht. destruct (call_survives S HVe HVa Hpred Hhist HE Hrw true w (KReplace pos t) s HI) as (s' & Hs' & HI'); [|exists s'; split; [exact Hs'|exact HI']].
  split; [exact Hs|]. split; [exact Hp|]. split; [now left|exact Ht].
Qed.
Lemma complete_survives w s : IS1 w s -> short s ->
  exists s' l, complete up fold C (Enclosures P) (Delimiters P) P postfix s = Some (s', l) /\ IS1 w s'.
Proof.
  intros HI Hsh. unfold complete. pose proof (proj2 HI eq_refl) as (Hv & Hcz).
  destruct (split_line_ok (Enclosures P) (Delimiters P) s) as (fs & lws & -> & Hlws); [lia|].
  destruct (rev fs) as [|word fs']; [exists s, []; split; [reflexivity|exact HI]|]. destruct (HP fs) as (names & bases & -> & Hb & Hsimple & Hev).
  set (bs := match bases with [] => names | _ :: _ => bases end).
  destruct (removeUnmatches_ok fold names bs word) as (hits & l & HR); [unfold bs; destruct bases, Hb as [Hb|Hb]; try discriminate; try lia; destruct names; unfold zlen in *; cbn in *; lia|].
  rewrite HR. apply removeUnmatches_spec in HR as (R1 & _ & _). apply selected_incl in R1.
  assert (Hsub : forall x, In x hits -> text_upto E 400 x /\ valid_utf8 x).
  { intros x Hx. apply R1 in Hx. split; [rewrite Forall_forall in Hsimple; auto|]. destruct Hev as [Hev _]. rewrite Forall_forall in Hev. auto. }
  assert (Hquo : forall q qs t n, Enclosures P = q :: qs -> text_upto E n t -> text_upto E (1 + n) (encode_rune q ++ t)).
  { intros q qs t n He Ht. rewrite He in Hq. inversion Hq as [|? ? (Q1 & Q2)]; subst. apply upto_app; [apply valid_utf8_encode_rune| |assumption].
    split; rewrite ascii_encode, runes_low by (lia || (intros b [<-|[]]; lia)); [intros r [<-|[]]; exact Q2|unfold zlen; cbn; lia]. }
  destruct hits as [|x [|y hits]].
  - exists s, []. split; [reflexivity|exact HI].
  - destruct (EqualFold fold word x); [exists (emit s [TBell]), []; split; [reflexivity|exact HI]|].
    destruct (Hsub x (or_introl eq_refl)) as [Hx Hvx].
    set (ins := match Enclosures P with [] => x | _ :: _ => _ end).
    destruct (survive_replace w s lws (ins ++ postfix) HI Hsh Hlws) as (s' & -> & HI'); [|exists s', []; split; [reflexivity|exact HI']].
    assert (K : text_upto E 800 (x ++ postfix)) by (apply (upto_more (400 + 390)); [lia|now apply upto_app]).
    unfold ins. destruct (Enclosures P) as [|q qs] eqn:He; [exact K|]. destruct (Delimiters P) as [|d ds]; [exact K|].
    destruct (contains_any _ _); [|exact K]. rewrite <- !app_assoc. apply (upto_more (1 + (400 + (1 + 390)))); [lia|]. apply (Hquo q qs); [reflexivity|]. apply upto_app; [assumption|assumption|].
    now apply (Hquo q qs).
  - destruct (commonPrefix_ok up (x :: y :: hits)) as (pre & Hpre & Hvp & _); [discriminate|eapply even_case_incl; eassumption|]. rewrite Hpre.
    destruct (EqualFold fold word pre); [exists (emit s [TBell]), l; split; [reflexivity|exact HI]|].
    assert (Hpp : text_upto E 400 pre).
    { apply commonPrefix_of in Hpre as (m & r & Hm & _ & Hmr); [|discriminate]. destruct (Hsub m Hm) as [[Hpm Hl] _].
      rewrite Hmr, runes_app_valid in Hpm, Hl by assumption. rewrite zlen_app in Hl. pose proof (zlen_nonneg (runes r)). split; [|lia]. intros c Hc. apply Hpm, in_or_app. now left. }
    set (ins := match Enclosures P with [] => pre | _ :: _ => _ end).
    destruct (survive_replace w s lws ins HI Hsh Hlws) as (s' & -> & HI'); [|exists s', []; split; [reflexivity|exact HI']].
    unfold ins. destruct (Enclosures P) as [|q qs] eqn:He; [apply (upto_more 400); [lia|exact Hpp]|]. destruct (hasToInsertQuotation _ _); [|apply (upto_more 400); [lia|exact Hpp]].
    apply (upto_more (1 + 400)); [lia|now apply (Hquo q qs)].
Qed.
Lemma completion_survives f s : CUser f = CmdCompletion up fold C P postfix -> short s -> survives S f s.
Proof.
  intros [= ->] Hs w HI. apply ITS_JT in HI as [HJ Hb]. destruct (complete_survives w s (JTS_in S true w s HJ Hb) Hs) as (s' & l & -> & HJ' & Hb').
  exists s', CONTINUE. split; [reflexivity|]. apply (JT_ITS S HVa Hrw); auto.
Qed.
Lemma completion_list_survives box f s : CUser f = CmdCompletionOrList up fold C box P postfix -> short s -> survives S f s.
Proof.
  intros [= ->] Hs w HI. apply ITS_JT in HI as [HJ Hb]. destruct (complete_survives w s (JTS_in S true w s HJ Hb) Hs) as (s' & l & -> & HJ').
  destruct l as [|x l]; [exists s', CONTINUE; split; [reflexivity|apply (JT_ITS S HVa Hrw); [exact (proj1 HJ')|exact (proj2 HJ' eq_refl)]]|].
  destruct (call_survives S HVe HVa Hpred Hhist HE Hrw true w KAll (emit s' [TNewline; TAttr (box (x :: l))]) HJ' eq_refl) as (s2 & Hs2 & HJ2).
  cbn [do_call] in Hs2. rewrite Hs2. exists s2, CONTINUE. split; [reflexivity|]. apply (JT_ITS S HVa Hrw); [exact (proj1 HJ2)|exact (proj2 HJ2 eq_refl)].
Qed.
End Completing.

Lemma completing_tabs_safe S up fold box default cur w cl es : completing_tabs S up fold box ->
  ordinary_text (cE (base S)) default -> ordinary_clip (cE (base S)) cl -> Forall (ordinary_event S) es ->
  (forall es1 e es2 x, es = es1 ++ e :: es2 -> readline S default cur w cl es1 = Some x -> short_line x /\ no_swap_at_end S e x) ->
  0 <= cur -> prompt_width (base S) + 11 < w ->
  exists x, readline S default cur w cl es = Some x /\ in_bounds (buf_of x).
Proof.
  intros (HU & H2 & H3 & H4 & H5 & H6 & H7) Hd Hcl Hes Hok Hc Hw.
  assert (P1 : joinlike (cE (base S)) RuneError = false) by now rewrite <- joins_like.
  assert (P2 : forall r, 32 <= r < 127 -> joinlike (cE (base S)) r = false) by (intros r Hr; rewrite <- joins_like; now apply H5).
  assert (P3 : pcolor0 (base S) = [] \/ forall t c, sh S (predictor (base S) t c)) by (destruct H6 as [H6|H6]; [now left|right; intros t c; now apply ordinary_sh]).
  assert (P4 : Forall (sh S) (hist (base S))) by (eapply Forall_impl; [|exact H7]; apply ordinary_sh).
  destruct (readlineT S P1 P2 P3 P4 H2 H3 default cur w cl es) as (x & w' & Hx & HS & _); auto.
  - unfold prompt_width, PW in *. lia.
  - now apply ordinary_sh.
  - destruct cl; [|exact I]. now apply ordinary_sh, Hcl.
  - intros es1 e es2 y He Hr. destruct (Hok es1 e es2 y He Hr) as (K1 & K2). apply ordinary_fine; try assumption.
    + rewrite He in Hes. apply Forall_app in Hes as [_ Hes]. now inversion Hes.
    + intros k s f Hk Hy Hl. destruct (HU k f Hl) as (P & postfix & Hf & Ha & Hp & Hq). subst y. destruct K1 as [K1 _].
      destruct Hf as [Hf|Hf].
      * now apply (completion_survives S P1 P2 P3 P4 H2 H3 up fold P postfix Ha Hq Hp).
      * now apply (completion_list_survives S P1 P2 P3 P4 H2 H3 up fold P postfix Ha Hq Hp box).
  - exists x. split; [exact Hx|]. destruct x; apply HS.
Qed.
