(** The editor makes every step but an UNDO that does not fit. *)
From Verif Require Import Base Utf8 Moji Color Prompt Buffer Commands KeyMap Session MojiFacts Abs AbsRef AbsSess AbsSafe AbsInv Safe SafeSess Plain SafetyFacts CmdFacts EditMore Spec SpecEditor EditorFacts.
From Verif Require Reach.
From Verif Require Import Session Spec SpecEditor SpecExact.
Ltac lia := unfold rune in *; Lia.lia.

Section WithCfg.
Variable C : cfg.
Notation E := (cE C).
Definition rng (a : astate) : Prop := 0 <= acur a <= zlen (aline a) /\ 0 <= ahptr a <= zlen (hist C).
Definition runs {A} (o : option A) : Prop := exists y, o = Some y.
Lemma runs_some {A} (y : A) : runs (Some y). Proof. exists y. reflexivity. Qed.

Lemma adelete_t a pos n : 0 <= pos -> runs (adelete a pos n).
Proof.
  intros Hp. unfold adelete. destruct ((n <=? 0) || (zlen (aline a) <? pos + n)) eqn:Hc; [apply runs_some|].
  destruct (slice_ex (aline a) pos (pos + n)) as (d & p & q & Hd & _); [lia|lia|]. rewrite Hd, sliceDelete_firstn by lia. apply runs_some.
Qed.
Lemma areplace_t a t : 0 <= acur a <= zlen (aline a) -> runs (areplace C a (acur a) t).
Proof. intros H. unfold areplace. rewrite CmdFacts.adelete_none by lia. rewrite ains_eq by exact H. apply runs_some. Qed.
Lemma aself_tail_t a k : 0 <= acur a <= zlen (aline a) -> runs (aself_tail C a k).
Proof. intros H. unfold aself_tail. rewrite ains_eq by exact H. apply runs_some. Qed.
Lemma aDelete_t a : 0 <= acur a <= zlen (aline a) -> runs (aDelete C a).
Proof. intros H. unfold aDelete. destruct (adelete_t a (acur a) 1) as [y ->]; [lia|]. apply runs_some. Qed.
Lemma aBackwardDelete_t a : 0 <= acur a <= zlen (aline a) -> runs (aBackwardDelete C a).
Proof.
  intros H. unfold aBackwardDelete. destruct (0 <? acur a) eqn:H0; [|apply runs_some].
  destruct (adelete_t (aset_cur a (acur a - 1)) (acur a - 1) 1) as [y ->]; [lia|]. apply runs_some.
Qed.
Lemma aBackwardDelete_rng a a' : 0 <= acur a <= zlen (aline a) -> aBackwardDelete C a = Some a' -> 0 <= acur a' <= zlen (aline a').
Proof.
  intros H Ha. unfold aBackwardDelete in Ha. destruct (0 <? acur a) eqn:H0; [|now injection Ha as <-].
  unfold adelete in Ha. cbn [aline aset_cur] in Ha. destruct ((1 <=? 0) || (zlen (aline a) <? acur a - 1 + 1)) eqn:Hx; [lia|].
  destruct (slice _ _ _) as [d|]; [|discriminate]. rewrite sliceDelete_firstn in Ha by lia. injection Ha as <-.
  rewrite aupdate_line, aupdate_cur. cbn. rewrite zlen_app, zlen_firstn, zlen_skipn. lia.
Qed.
Lemma aselfInsert_t k a : 0 <= acur a <= zlen (aline a) -> runs (aselfInsert C k a).
Proof.
  intros H. unfold aselfInsert. destruct (AreZeroWidthJoin E (altgr k) && (0 <? acur a)) eqn:H1.
  { destruct (index_lt (aline a) (acur a - 1)) as (m & ->); [lia|]. now apply aBackwardDelete_t. }
  destruct ((AreVariationSelectorLike E (altgr k) || AreEmojiModifier E (altgr k)) && (0 <? acur a)) eqn:H2.
  { destruct (index_lt (aline a) (acur a - 1)) as (m & ->); [lia|].
    destruct (aBackwardDelete_t a H) as [a1 Ha]. rewrite Ha. apply aself_tail_t. eapply aBackwardDelete_rng; eauto. }
  destruct (apend a); now apply aself_tail_t.
Qed.
Lemma aKillLine_t a : 0 <= acur a <= zlen (aline a) -> runs (aKillLine a).
Proof.
  intros H. unfold aKillLine. destruct (slice_ex (aline a) (acur a) (zlen (aline a))) as (d & ? & ? & -> & _); [lia|lia|].
  destruct (slice_ex (aline a) 0 (acur a)) as (d2 & ? & ? & -> & _); [lia|lia|]. apply runs_some.
Qed.
Lemma aWordRubout_t a : 0 <= acur a <= zlen (aline a) -> runs (aWordRubout C a).
Proof.
  intros Hc. unfold aWordRubout.
  destruct (slice_ex (aline a) 0 (acur a)) as (d & p & q & Hd & Hpq & Hzp & Hzd); [lia|lia|]. rewrite Hd.
  pose proof (count_while_le IsSpaceMoji (rev d)) as Hn. rewrite AbsInv.zlen_rev in Hn.
  set (k := Z.of_nat (count_while IsSpaceMoji (rev d))) in *. assert (0 <= k) by (subst k; lia).
  destruct (aWordTop_ok (aset_cur a (acur a - k))) as (z & Hz & Hzr); [cbn; lia|]. rewrite Hz. cbn [acur aset_cur] in Hzr.
  cbn [aline aset_cur]. destruct (slice_ex (aline a) z (acur a)) as (d2 & p2 & q2 & Hd2 & _); [lia|lia|]. rewrite Hd2.
  destruct (aclip_shape (aset_cur a (acur a - k)) (text d2)) as [cl ->].
  destruct (adelete_t (aset_clip (aset_cur a (acur a - k)) cl) z (acur a - z)) as [y ->]; [lia|]. apply runs_some.
Qed.
Lemma aLineDiscard_t a : 0 <= acur a <= zlen (aline a) -> runs (aLineDiscard C a).
Proof.
  intros Hc. unfold aLineDiscard. destruct (slice_ex (aline a) 0 (acur a)) as (d & p & q & Hd & _); [lia|lia|]. rewrite Hd.
  destruct (adelete_t (aclip_write a (text d)) 0 (acur a)) as [y ->]; [lia|]. apply runs_some.
Qed.
Lemma aSwapChar_t a : 0 <= acur a <= zlen (aline a) -> runs (aSwapChar a).
Proof.
  intros Hc. unfold aSwapChar. destruct (zlen (aline a) =? acur a) eqn:He.
  - destruct (acur a <? 2) eqn:H2; [apply runs_some|].
    destruct (slice_two (aline a) (acur a - 2)) as (p & x & y & q & Hl & Hp & Hd); [lia|lia|].
    replace (acur a - 2 + 2) with (acur a) in Hd by lia. rewrite Hd.
    assert (K : aswap (aline a) (acur a - 2) (acur a - 1) = Some (p ++ y :: x :: q)).
    { rewrite Hl, <- Hp. replace (acur a - 1) with (zlen p + 1) by lia. apply aswap_mid. }
    rewrite K. apply runs_some.
  - destruct (acur a <? 1) eqn:H2; [apply runs_some|].
    destruct (slice_two (aline a) (acur a - 1)) as (p & x & y & q & Hl & Hp & Hd); [lia|lia|].
    replace (acur a - 1 + 2) with (acur a + 1) in Hd by lia. rewrite Hd.
    assert (K : aswap (aline a) (acur a - 1) (acur a) = Some (p ++ y :: x :: q)).
    { rewrite Hl, <- Hp. replace (acur a) with (zlen p + 1) by lia. apply aswap_mid. }
    rewrite K. apply runs_some.
Qed.
Lemma ashow_t a : runs (ashow C a).
Proof.
  unfold ashow. destruct (agetHistory_ok C (aKillWhole a)) as (t & ->). destruct t as [|x t]; [apply runs_some|].
  rewrite ains_eq by (split; [lia|apply zlen_nonneg]). apply runs_some.
Qed.
Lemma aexec_t b c a : builtin c -> c <> CUndo -> rng a -> runs (aexec C b c a).
Proof.
  intros Hb Hu [Hc Hh]. assert (G : forall o, runs o -> runs (acontinue o)) by (intros o [y ->]; apply runs_some).
  destruct c; cbn [aexec]; try destruct Hb; try apply runs_some; try congruence.
  - apply G. unfold aForwardChar. destruct (_ <=? _); [|apply runs_some]. destruct (asuf a); [apply runs_some|now apply areplace_t].
  - now apply G, aBackwardDelete_t.
  - now apply G, aDelete_t.
  - destruct (_ <? _); [now apply G, aDelete_t|apply runs_some].
  - now apply G, aKillLine_t.
  - now apply G, aWordRubout_t.
  - now apply G, aLineDiscard_t.
  - apply G. unfold aYank. destruct (aclip a); [now apply areplace_t|apply runs_some].
  - apply G. unfold aYank. destruct (aclip a); [now apply areplace_t|apply runs_some].
  - now apply G, aSwapChar_t.
  - apply G. unfold aBackwardWord. destruct (slice_ex (aline a) 0 (acur a)) as (d & ? & ? & -> & _); [lia|lia|]. apply runs_some.
  - apply G. unfold aForwardWord. destruct (slice_ex (aline a) (acur a) (zlen (aline a))) as (d & ? & ? & -> & _); [lia|lia|]. apply runs_some.
  - apply G. unfold aPrevious. destruct (_ <=? _); [apply runs_some|]. destruct (_ <=? _); [destruct (negb _); [apply runs_some|]|].
    + destruct (asave_ok C (aset_hptr a (zlen (hist C) + 1))) as (mh & ->); [cbn; lia|]. apply ashow_t.
    + destruct (asave_ok C a) as (mh & ->); [lia|]. apply ashow_t.
  - apply G. unfold aNext. destruct (_ <=? _); [apply runs_some|]. destruct (_ <? _); [apply runs_some|].
    destruct (asave_ok C a) as (mh & ->); [lia|]. apply ashow_t.
  - now apply G, aselfInsert_t.
Qed.
(** The commands that end the session leave the cursor in the line. *)
Lemma aexec_end b c a a' r : aexec C b c a = Some (a', r) -> r <> CONTINUE -> 0 <= acur a <= zlen (aline a) -> 0 <= acur a' <= zlen (aline a').
Proof.
  assert (G : forall o, acontinue o = Some (a', r) -> r = CONTINUE) by (intros [y|] H; [|discriminate]; now injection H).
  intros H Hr Hc. destruct c; cbn [aexec] in H; try (injection H as <- <-); try (exfalso; exact (Hr eq_refl)); try (apply G in H; now exfalso); try discriminate; auto.
  - cbn. pose proof (zlen_nonneg (@nil moji)). lia.
  - destruct (_ <? _); [apply G in H; now exfalso|]. injection H as <- <-. exact Hc.
Qed.
End WithCfg.

Section WithScfg.
Variable S : scfg.
Notation C := (base S).
Notation E := (cE C).
Hypothesis HB : builtin_keys S.
Hypothesis HE : env_ok E.
Hypothesis HP : pcolor0 C = [].
Hypothesis Hre : joins E 65533 = false.
Hypothesis H34 : joins E 34 = false.
Variable Q : rune -> Prop.
Hypothesis Q34 : Q 34.
Notation unj := (unj S Q).
Notation unj_event := (unj_event S Q).
Notation R := (R S Q).
Notation RS := (RS S Q).
Hypothesis Hh : Forall unj (hist C).
Notation happens_ := (happens (hist C) (cycling C) (upper C) (LookupCommand (kmap S) (gmap S))).
Notation fits := (SafeSess.fits S).
Notation new_width := SafeSess.new_width.

Lemma R_rng a p : R a p -> rng C a.
Proof.
  intros H. split; [|rewrite (r_ptr _ _ _ _ H); apply (r_rng _ _ _ _ H)]. rewrite (r_cur _ _ _ _ H), (r_line _ _ _ _ H), zlen_app, !zlen_map.
  pose proof (zlen_nonneg (before p)). pose proof (zlen_nonneg (after p)). lia.
Qed.
Lemma undo_none a p : R a p -> (aUndo C a = None <-> match changes p with c :: _ => 0 < c_new c /\ zlen (whole p) < c_place c + c_new c | [] => False end).
Proof.
  intros H. pose proof (r_chain _ _ _ _ H) as Hch. destruct (aundo a) as [|v us] eqn:Hu.
  - destruct (changes p); [|destruct Hch]. unfold aUndo. rewrite Hu. split; [discriminate|intros []].
  - destruct (changes p) as [|c cs]; [destruct Hch|]. destruct Hch as [(P1 & P2 & P3 & P4 & P5 & P6) Hch].
    rewrite (aUndo_apply S HP a v us Hu), (R_whole S Q _ _ H). split.
    + intros Hn. destruct P4 as [(P4 & P7 & _)|P4]; [auto|]. rewrite P4 in Hn. discriminate.
    + intros [N1 N2]. unfold apply. rewrite P1, P2. replace (0 <? c_new c) with true by lia.
      rewrite sliceDelete_none; [reflexivity|lia|]. rewrite zlen_map. lia.
Qed.

Lemma step_total e x d : unj_event e -> RS x d -> ranged x -> ~ undo_breaks S d e ->
  forall b, exists y, astep S b e x = Some y /\ ranged y.
Proof.
  intros He HR Hx Hn b.
  assert (T : runs (astep S b e x)).
  { destruct x as [m a|a t r]; cbn [astep]; [|apply runs_some].
    destruct e as [k| |w|c].
    - destruct m as [| |ss]; destruct d as [p|p|l f0 i p|t r]; cbn [EditorFacts.RS] in HR; try (now destruct HR).
      + pose proof (R_rng _ _ HR) as Hr. cbn [undo_breaks] in Hn. unfold akey_normal. pose proof (HB k) as Hb.
        destruct (LookupCommand (kmap S) (gmap S) k) eqn:Hc; try apply runs_some.
        all: assert (G : forall c, builtin c -> c <> CUndo -> runs (aafter (aexec C b c a))) by (intros c0 Hb0 Hc0; destruct (aexec_t C b c0 a Hb0 Hc0 Hr) as [[a' [| | |]] Hy]; rewrite Hy; apply runs_some).
        all: try (apply G; [exact Hb|discriminate]).
        cbn [aexec]. destruct (aUndo C a) as [a'|] eqn:Ha; [apply runs_some|]. apply (proj1 (undo_none a p HR)) in Ha. exfalso. auto.
      + destruct (aselfInsert_t C k a) as [y ->]; [apply (R_rng _ _ HR)|]. apply runs_some.
      + destruct HR as (HR & -> & Hl & Hf & Hi). unfold akey_search.
        destruct (search_key_ok S k (mkSearch (encode l) f0 i)) as (act & -> & _).
        { destruct Hi as [[H1 H2]|H1]; [left; cbn; rewrite H2; auto|now right]. }
        destruct act; try apply runs_some. unfold aaccept.
        cbn [ss_found]. match goal with |- context [areplace C ?y 0 f0] => destruct (areplace_t C y f0) as [z Hz] end; [cbn; split; [lia|apply zlen_nonneg]|].
        cbn [acur aset_cur] in Hz. rewrite Hz. apply runs_some.
    - destruct m; apply runs_some.
    - destruct m; apply runs_some.
    - apply runs_some. }
  destruct T as [y Hy]. exists y. split; [exact Hy|].
  pose proof (s_step S HP Hre H34 Q Q34 Hh b e x d y HB He HR Hy) as HR'.
  destruct y as [m a|a t r].
  - assert (exists p, R a p) as [p Hp] by (destruct m; destruct (happens_ e d); cbn [EditorFacts.RS] in HR'; try (now destruct HR'); eauto; destruct HR'; eauto).
    apply (R_rng _ _ Hp).
  - destruct x as [m a0|a0 t0 r0]; cbn [astep] in Hy; [|injection Hy as <- <- <-; exact Hx].
    cbn [ranged] in Hx. destruct e as [k| |w|c].
    + destruct m as [| |ss].
      * unfold akey_normal in Hy. destruct (LookupCommand (kmap S) (gmap S) k) eqn:Hc; try discriminate;
          match type of Hy with aafter ?o = _ => destruct o as [[a' r']|] eqn:Ha end; try discriminate; cbn [aafter] in Hy;
          (assert (Hr' : r' <> CONTINUE) by (intros ->; discriminate));
          pose proof (aexec_end C _ _ _ _ _ Ha Hr' Hx) as K; destruct r'; try discriminate; injection Hy as <- _ _; exact K.
      * destruct (aselfInsert C k a0); discriminate.
      * unfold akey_search in Hy. destruct (search_key S k ss) as [[ss'| |]|]; try discriminate. destruct (aaccept S ss a0); discriminate.
    + destruct m; try discriminate. injection Hy as <- _ _. exact Hx.
    + destruct m; discriminate.
    + discriminate.
Qed.
Lemma step_breaks e x d x' : RS (abss x) d -> step S e x = Some x' -> ~ undo_breaks S d e.
Proof.
  intros HR Hs Hu. apply step_ref in Hs as [b Hb]; [|exact HB]. destruct d as [p|p|l f0 i p|t r]; try (now destruct Hu). destruct e as [k| |w|c]; try (now destruct Hu).
  destruct Hu as [Hc Hu]. destruct (abss x) as [[| |ss] a|a t r]; cbn [EditorFacts.RS] in HR; try (now destruct HR).
  cbn [astep] in Hb. unfold akey_normal in Hb. rewrite Hc in Hb. cbn [aexec] in Hb.
  rewrite (proj2 (undo_none a p HR) Hu) in Hb. discriminate.
Qed.

(** * Room *)
Lemma split_units t : split E t = units E t. Proof. exact (StringToMoji_units E t). Qed.
Lemma erase_u r : erase (u S r) = u S r.
Proof. unfold u, rune2moji. repeat match goal with |- context [if ?c then _ else _] => destruct c end; reflexivity. Qed.
Lemma esum_U l : esum E (map (u S) l) = total_width E (map (u S) l).
Proof. unfold esum, total_width, sumw. f_equal. rewrite map_map. apply map_ext. intros r. apply erase_u. Qed.
Lemma esum_split t : esum E (units E t) = total_width E (split E t).
Proof. unfold esum. rewrite <- StringToMoji_units, map_erase_idem. reflexivity. Qed.
Lemma tab_u r : r <> 9 -> has_tab (rune2moji E r 0) = false.
Proof.
  intros H. unfold rune2moji. replace (r =? 9) with false by lia.
  repeat match goal with |- context [if ?c then _ else _] => destruct c end; reflexivity.
Qed.
Lemma notab_units rs : ~ In 9 rs -> forall o, match o with Some m => has_tab m = false | None => True end ->
  forallb (fun m => negb (has_tab m)) (units_from E o rs) = true.
Proof.
  induction rs as [|r|r n rs IH1 IH2] using rune_list_ind; intros H o Ho.
  - destruct o as [m|]; [cbn; now rewrite Ho|reflexivity].
  - destruct o as [m|]; [|rewrite units_none; cbn; rewrite tab_u; [reflexivity|intros ->; apply H; now left]].
    rewrite units_some1. repeat (match goal with |- context [if ?c then _ else _] => destruct c end; [cbn; now rewrite Ho|]).
    cbn [forallb]. rewrite Ho, tab_u; [reflexivity|intros ->; apply H; now left].
  - assert (Hr : r <> 9) by (intros ->; apply H; now left).
    assert (H' : ~ In 9 (n :: rs)) by (intros Hi; apply H; now right).
    destruct o as [m|]; [|rewrite units_none; apply IH2; [exact H'|now apply tab_u]].
    rewrite units_some2. destruct (isZeroWidthJoin E r); [apply IH1; [intros Hi; apply H'; now right|cbn; now rewrite Ho]|].
    destruct (isVariationSelectorLike E r); [apply (IH2 H'); cbn; now rewrite Ho|].
    destruct (isEmojiModifier E r); [apply (IH2 H'); cbn; now rewrite Ho|].
    cbn [forallb]. rewrite Ho. apply (IH2 H'). now apply tab_u.
Qed.
Lemma lim_text t : (In 9 t -> total_width E (split E t) <= 32767) -> lim E (units E t).
Proof.
  intros H. destruct (in_dec Z.eq_dec 9 t) as [Hi|Hi]; [right; rewrite esum_split; auto|left].
  apply notab_units; [|exact I]. intros Hr. apply (proj1 (runes_tab t)) in Hr. contradiction.
Qed.
Lemma lim_U l : (In 9 l -> total_width E (map (u S) l) <= 32767) -> lim E (map (u S) l).
Proof.
  intros H. destruct (in_dec Z.eq_dec 9 l) as [Hi|Hi]; [right; rewrite esum_U; auto|left].
  apply forallb_forall. intros m Hm. apply in_map_iff in Hm as (r & <- & Hr). unfold u. rewrite tab_u; [reflexivity|]. intros ->. now apply Hi.
Qed.
Lemma PW_prompt : PW C = prompt_width C. Proof. reflexivity. Qed.
Lemma room_line w a p : prompt_width C + 3 < w -> R a p -> room_for S w p -> line_ok C (w - PW C - 3) (aline a).
Proof.
  intros Hw H [H1 H2]. rewrite (R_whole S Q _ _ H). rewrite (alone_U S Q) in H1, H2 by apply (R_goods S Q _ _ H).
  rewrite PW_prompt. split; [lia|]. split; [exact H1|]. apply lim_U. exact H2.
Qed.
Lemma room_fits w m a d : RS (ARunning m a) d -> room S w d -> fits w (ARunning m a).
Proof.
  intros H [Hw Hr]. cbn [SafeSess.fits]. destruct m as [| |ss]; destruct d as [p|p|l f0 i p|t r]; cbn [EditorFacts.RS] in H; try (now destruct H).
  - split; [now apply (room_line w a p)|exact I].
  - split; [now apply (room_line w a p)|exact I].
  - destruct H as (H & -> & _). destruct Hr as [H1 H2]. split; [now apply (room_line w a p)|]. apply lim_text. exact H2.
Qed.
Lemma end_line b c a a' r : aexec C b c a = Some (a', r) -> r <> CONTINUE -> aline a' = aline a \/ aline a' = [].
Proof.
  assert (G : forall o, acontinue o = Some (a', r) -> r = CONTINUE) by (intros [y|] H; [|discriminate]; now injection H).
  intros H Hr. destruct c; cbn [aexec] in H; try (injection H as <- <-); try (exfalso; exact (Hr eq_refl)); try (apply G in H; now exfalso); try discriminate; auto.
  destruct (_ <? _); [apply G in H; now exfalso|]. injection H as <- <-. auto.
Qed.
Lemma finish_fits w b e m a a' t r : fits w (ARunning m a) -> astep S b e (ARunning m a) = Some (AFinished a' t r) ->
  fits (new_width w e (ARunning m a)) (AFinished a' t r).
Proof.
  intros [Hf _] Hy. cbn [astep] in Hy. destruct e as [k| |w'|c].
  - cbn [SafeSess.new_width]. destruct m as [| |ss].
    + unfold akey_normal in Hy. destruct (LookupCommand (kmap S) (gmap S) k) eqn:Hc; try discriminate;
        match type of Hy with aafter ?o = _ => destruct o as [[a1 r1]|] eqn:Ha end; try discriminate; cbn [aafter] in Hy;
        (assert (Hr' : r1 <> CONTINUE) by (intros ->; discriminate));
        (assert (K : line_ok C (w - PW C - 3) (aline a1)) by (destruct (end_line _ _ _ _ _ Ha Hr') as [->| ->]; [exact Hf|split; [apply Hf|split; [constructor|left; reflexivity]]]));
        destruct r1; try discriminate; injection Hy as <- _ _; exact K.
    + destruct (aselfInsert C k a); discriminate.
    + unfold akey_search in Hy. destruct (search_key S k ss) as [[ss'| |]|]; try discriminate. destruct (aaccept S ss a); discriminate.
  - destruct m; try discriminate. injection Hy as <- _ _. exact Hf.
  - destruct m; discriminate.
  - discriminate.
Qed.

(** * Whole sessions *)
Lemma pred_off : pred_ok C. Proof. now left. Qed.
Lemma exact_run es : forall w x d (W : Z -> Prop), W w -> (forall n, In (EResize n) es -> W n) ->
  SafeSess.SC S w x -> RS (abss x) d -> ranged (abss x) -> fits w (abss x) -> Forall unj_event es ->
  (forall es1 es2 n y, es = es1 ++ es2 -> W n -> RS y (fold_left (fun d e => happens_ e d) es1 d) -> room S n (fold_left (fun d e => happens_ e d) es1 d)) ->
  (forall es1 e es2, es = es1 ++ e :: es2 -> ~ undo_breaks S (fold_left (fun d e => happens_ e d) es1 d) e) ->
  exists x' w', run S es x = Some x' /\ SafeSess.SC S w' x'.
Proof.
  induction es as [|e es IH]; intros w x d W Hw HW HS HR Hx Hf Hes Hroom Hno; cbn [run]; [exists x, w; auto|].
  inversion Hes as [|? ? He Hes']. subst.
  pose proof (Hno [] e es eq_refl) as Hn. cbn [fold_left] in Hn.
  pose proof (step_total e (abss x) d He HR Hx Hn) as HT.
  assert (HN : forall b y, astep S b e (abss x) = Some y -> fits (new_width w e (abss x)) y).
  { intros b y Hy. pose proof (s_step S HP Hre H34 Q Q34 Hh b e _ d y HB He HR Hy) as HR'.
    destruct y as [m a|a t r].
    - apply room_fits with (d := happens_ e d); [exact HR'|]. apply (Hroom [e] es _ (ARunning m a)); [reflexivity| |exact HR'].
      destruct e as [k| |n|c]; try exact Hw. destruct (abss x) as [[| |ss] a0|a0 t0 r0]; cbn; try exact Hw. apply HW. now left.
    - destruct (abss x) as [m0 a0|a0 t0 r0]; [now apply (finish_fits w b e m0 a0 a t r)|].
      cbn [astep] in Hy. injection Hy as <- <- <-. destruct e; exact Hf. }
  destruct (step_safe_gen S HE pred_off HB w e x HS HT Hf HN) as (x1 & Hs & HS1). rewrite Hs. cbn.
  apply step_ref in Hs as [b Hb]; [|exact HB].
  destruct (HT b) as (y & Hy & Hry). rewrite Hb in Hy. injection Hy as <-.
  apply (IH (new_width w e (abss x)) x1 (happens_ e d) W).
  - destruct e as [k| |n|c]; try exact Hw. destruct (abss x) as [[| |ss] a0|a0 t0 r0]; cbn; try exact Hw. apply HW. now left.
  - intros n Hn'. apply HW. now right.
  - exact HS1.
  - exact (s_step S HP Hre H34 Q Q34 Hh b e _ d _ HB He HR Hb).
  - exact Hry.
  - exact (HN b _ Hb).
  - exact Hes'.
  - intros es1 es2 n y -> HWn. exact (Hroom (e :: es1) es2 n y eq_refl HWn).
  - intros es1 e' es2 ->. exact (Hno (e :: es1) e' es2 eq_refl).
Qed.
Lemma breaks_run es1 e es2 : forall x d, Forall unj_event (es1 ++ e :: es2) -> RS (abss x) d ->
  undo_breaks S (fold_left (fun d e => happens_ e d) es1 d) e -> run S (es1 ++ e :: es2) x = None.
Proof.
  induction es1 as [|e1 es1 IH]; intros x d Hes HR Hu; cbn [run app fold_left] in *; inversion Hes as [|? ? He Hes']; subst.
  - destruct (step S e x) as [x'|] eqn:Hs; [|reflexivity]. exfalso. exact (step_breaks e x d x' HR Hs Hu).
  - destruct (step S e1 x) as [x1|] eqn:Hs; [|reflexivity]. cbn. apply step_ref in Hs as [b Hb]; [|exact HB].
    apply (IH x1 (happens_ e1 d)); [exact Hes'| |exact Hu]. exact (s_step S HP Hre H34 Q Q34 Hh b e1 _ d _ HB He HR Hb).
Qed.

Section Readline.
Variables (default : str) (cur w : Z) (cl : option str) (es : list event).
Hypothesis Hcur : 0 <= cur.
Hypothesis Hd : unj default.
Hypothesis Hcl : forall t, cl = Some t -> unj t.
Hypothesis Hes : Forall unj_event es.
Hypothesis Hroom : forall es1 es2 n y, es = es1 ++ es2 -> n = w \/ In (EResize n) es -> RS y (paper_of S default cur cl es1) -> room S n (paper_of S default cur cl es1).
Lemma exact_safe : (forall es1 e es2, es = es1 ++ e :: es2 -> ~ undo_breaks S (paper_of S default cur cl es1) e) ->
  exists x, readline S default cur w cl es = Some x /\ in_bounds (buf_of x).
Proof.
  intros Hno. pose proof (s_start S HP Q default cur cl Hcur Hd Hcl) as HR.
  assert (HF : fits w (ARunning MNormal (astart S default cur cl))).
  { apply room_fits with (d := Editing (fresh (hist C) default cur cl)); [exact HR|]. exact (Hroom [] es w (ARunning MNormal (astart S default cur cl)) eq_refl (or_introl eq_refl) HR). }
  destruct (start_safe S HE pred_off default cur w cl Hcur HF) as (x0 & Hs & HS). unfold readline. rewrite Hs. cbn.
  pose proof (start_ref S default cur w cl x0 Hs) as Ha.
  destruct (exact_run es w x0 (Editing (fresh (hist C) default cur cl)) (fun n => n = w \/ In (EResize n) es)) as (x & w' & Hx & HSx); auto.
  - rewrite Ha. exact HR.
  - rewrite Ha. apply (R_rng _ _ HR).
  - rewrite Ha. exact HF.
  - exists x. split; [exact Hx|]. destruct x; apply HSx.
Qed.
Lemma exact_crash : (exists es1 e es2, es = es1 ++ e :: es2 /\ undo_breaks S (paper_of S default cur cl es1) e) ->
  readline S default cur w cl es = None.
Proof.
  intros (es1 & e & es2 & He & Hu). unfold readline. destruct (start S default cur w cl) as [x0|] eqn:Hs; [|reflexivity]. cbn.
  pose proof (start_ref S default cur w cl x0 Hs) as Ha. rewrite He. apply breaks_run with (d := Editing (fresh (hist C) default cur cl)).
  - now rewrite <- He.
  - rewrite Ha. exact (s_start S HP Q default cur cl Hcur Hd Hcl).
  - exact Hu.
Qed.
Lemma breaks_dec d e : undo_breaks S d e \/ ~ undo_breaks S d e.
Proof.
  destruct d as [p|p|l f0 i p|t r]; try (right; exact (fun H => H)). destruct e as [k| |n|c]; try (right; exact (fun H => H)). cbn.
  destruct (LookupCommand (kmap S) (gmap S) k); try (right; intros [H _]; discriminate).
  destruct (changes p) as [|c cs]; [right; intros [_ []]|]. destruct (Z_lt_dec 0 (c_new c)); [|right; intros [_ [? _]]; lia].
  destruct (Z_lt_dec (zlen (whole p)) (c_place c + c_new c)); [left; auto|right; intros [_ [_ ?]]; lia].
Qed.
Lemma breaks_search (l : list event) : forall f, (exists es1 e es2, l = es1 ++ e :: es2 /\ undo_breaks S (f es1) e) \/
  (forall es1 e es2, l = es1 ++ e :: es2 -> ~ undo_breaks S (f es1) e).
Proof.
  induction l as [|e l IH]; intros f; [right; intros [|? ?] ? ? H; discriminate|].
  destruct (breaks_dec (f []) e) as [H|H]; [left; exists [], e, l; auto|].
  destruct (IH (fun es1 => f (e :: es1))) as [(es1 & e' & es2 & -> & Hu)|Hn]; [left; exists (e :: es1), e', es2; auto|right].
  intros [|e0 es1] e' es2 He; injection He as -> ->; [exact H|now apply Hn with (es2 := es2)].
Qed.
Lemma exact_iff : readline S default cur w cl es = None <->
  exists es1 e es2, es = es1 ++ e :: es2 /\ undo_breaks S (paper_of S default cur cl es1) e.
Proof.
  split; [|exact exact_crash]. intros H. destruct (breaks_search es (paper_of S default cur cl)) as [K|K]; [exact K|].
  destruct (exact_safe K) as (x & Hx & _). congruence.
Qed.
End Readline.
End WithScfg.

(** * The properties *)
Lemma exact_room S default cur w cl es : only_builtin S -> sane_widths (cE (base S)) -> pcolor0 (base S) = [] ->
  joins (cE (base S)) 65533 = false -> joins (cE (base S)) 34 = false -> Forall (unjoined (cE (base S))) (hist (base S)) -> 0 <= cur ->
  unjoined (cE (base S)) default -> (forall t, cl = Some t -> unjoined (cE (base S)) t) -> Forall (unjoined_event S) es ->
  (forall es1 es2 n, es = es1 ++ es2 -> n = w \/ In (EResize n) es -> room S n (paper_of S default cur cl es1)) ->
  (readline S default cur w cl es = None <-> exists es1 e es2, es = es1 ++ e :: es2 /\ undo_breaks S (paper_of S default cur cl es1) e).
Proof.
  intros HB HE HP H1 H2 Hh Hc Hd Hcl Hes Hr. assert (G : forall t, unjoined (cE (base S)) t -> unj S (fun _ => True) t) by (intros t H r Hx; exact (conj (H r Hx) I)).
  apply (exact_iff S (Reach.only_builtin_keys S HB) HE HP H1 H2 (fun _ => True) I); auto.
  - eapply Forall_impl; [|exact Hh]. exact G.
  - eapply Forall_impl; [|exact Hes]. intros [k| |n|[t|]] H; cbn in *; auto. destruct H as [Ha Hb]. split; [now apply G|]. split; [auto|]. intros k' Hk. now apply G, Hb.
  - intros es1 es2 n y He Hn _. now apply Hr with (es2 := es2).
Qed.
Definition notab (r : rune) : Prop := r <> 9.
Section Simple.
Variable S : scfg.
Notation E := (cE (base S)).
Lemma simple_unj t : simple_text E t -> unj S notab t.
Proof. intros H r Hr. destruct (H r Hr). split; assumption. Qed.
Lemma simple_key_text k : simple_text E k -> simple_text E (key_text k).
Proof.
  intros H. pose proof (all_altgr (fun r => r <> 9 /\ joins E r = false) k) as K. unfold all_runes in K. rewrite !Forall_forall in K. intros r Hr. apply K; [exact H|exact Hr].
Qed.
Lemma simple_first k : simple_text E k -> notab (first_rune k).
Proof.
  intros H. rewrite <- first_rune_decode. destruct k as [|b t]; [discriminate|]. apply H. rewrite runes_step. now left.
Qed.
Lemma simple_unj_event e : simple_input S e -> unj_event S notab e.
Proof.
  destruct e as [k| |n|[t|]]; cbn; auto.
  - intros [H1 H2]. split; [now apply simple_unj, simple_key_text|]. split; [intros _; now apply simple_first|]. intros k' Hk. now apply simple_unj, simple_key_text, H2.
  - intros H. now apply simple_unj, H.
Qed.
Hypothesis HS : simple_editor S.
Lemma simple_width r : valid_rune r = true -> r <> 9 -> joins E r = false -> width E (u S r) <= 8.
Proof.
  intros Hv Hr Hj. destruct HS as (_ & H2 & H3 & H4 & H5 & _). apply (pm_width S); auto.
  rewrite (joins_like S) in Hj. exists r. split; [reflexivity|]. split; [split; assumption|exact Hv].
Qed.
Lemma goods_notab l : Forall (good S notab) l -> ~ In 9 l.
Proof. intros H Hi. rewrite Forall_forall in H. now destruct (H 9 Hi) as (_ & _ & H'). Qed.
Lemma simple_room_for n a p : prompt_width (base S) + 11 < n -> R S notab a p -> room_for S n p.
Proof.
  intros Hn H. pose proof (R_goods S notab _ _ H) as G. split; [|intros Hi; now apply goods_notab in G].
  rewrite (alone_U S notab) by exact G. apply Forall_forall. intros m Hm. apply in_map_iff in Hm as (r & <- & Hr).
  rewrite Forall_forall in G. destruct (G r Hr) as (G1 & G2 & G3). pose proof (simple_width r G1 G3 G2). lia.
Qed.
Lemma simple_room n y d : prompt_width (base S) + 11 < n -> RS S notab y d -> Forall (simple_text E) (hist (base S)) -> room S n d.
Proof.
  intros Hn H Hh. split; [lia|]. destruct y as [m a|a t r].
  - destruct m as [| |ss]; destruct d as [p|p|l f0 i p|t r]; cbn [EditorFacts.RS] in H; try (now destruct H); try now apply (simple_room_for n a).
    destruct H as (H & _ & Hl & Hf & _). split; [now apply (simple_room_for n a)|]. intros Hi. exfalso. unfold search_row in Hi.
    apply in_app_or in Hi as [Hi|Hi]; [cbn in Hi; repeat destruct Hi as [Hi|Hi]; try discriminate; destruct Hi|].
    apply in_app_or in Hi as [Hi|Hi].
    { apply (proj2 (runes_tab _)) in Hi. rewrite runes_encode in Hi by exact (vals_valid _ _ Hl). unfold vals in Hl. rewrite Forall_forall in Hl. now destruct (Hl 9 Hi) as [_ H']. }
    apply in_app_or in Hi as [Hi|Hi]; [cbn in Hi; repeat destruct Hi as [Hi|Hi]; try discriminate; destruct Hi|].
    apply (proj2 (runes_tab _)) in Hi. apply (from_unjoined S notab) in Hf; [|eapply Forall_impl; [|exact Hh]; exact simple_unj].
    destruct (Hf 9 Hi) as [_ H']. now apply H'.
  - destruct d as [p|p|l f0 i p|t' r']; try (now destruct H).
Qed.
Variables (default : str) (cur w : Z) (cl : option str) (es : list event).
Hypothesis HP : pcolor0 (base S) = [].
Hypothesis Hd : simple_text E default.
Hypothesis Hcl : simple_clip E cl.
Hypothesis Hes : Forall (simple_input S) es.
Hypothesis Hcur : 0 <= cur.
Hypothesis Hw : prompt_width (base S) + 11 < w.
Lemma simple_rooms n : n = w \/ In (EResize n) es -> prompt_width (base S) + 11 < n.
Proof. intros [->|Hn]; [exact Hw|]. rewrite Forall_forall in Hes. exact (Hes _ Hn). Qed.
Lemma simple_iff : readline S default cur w cl es = None <->
  exists es1 e es2, es = es1 ++ e :: es2 /\ undo_breaks S (paper_of S default cur cl es1) e.
Proof.
  pose proof HS as (H1 & H2 & H3 & H4 & H5 & H6 & H7).
  apply (exact_iff S (Reach.only_builtin_keys S H1) H2 HP H4 H5 notab ltac:(discriminate)); auto using simple_unj.
  - eapply Forall_impl; [|exact H7]. exact simple_unj.
  - eapply Forall_impl; [|exact Hes]. exact simple_unj_event.
  - intros es1 es2 n y _ Hn HR. eapply simple_room; eauto using simple_rooms.
Qed.
Lemma simple_bounds x : readline S default cur w cl es = Some x -> in_bounds (buf_of x).
Proof.
  intros Hx. pose proof HS as (H1 & H2 & H3 & H4 & H5 & H6 & H7).
  destruct (exact_safe S (Reach.only_builtin_keys S H1) H2 HP H4 H5 notab ltac:(discriminate)) with (default := default) (cur := cur) (w := w) (cl := cl) (es := es) as (x' & Hx' & K); auto using simple_unj.
  - eapply Forall_impl; [|exact H7]. exact simple_unj.
  - eapply Forall_impl; [|exact Hes]. exact simple_unj_event.
  - intros es1 es2 n y _ Hn HR. eapply simple_room; eauto using simple_rooms.
  - intros es1 e es2 He Hu. assert (N : readline S default cur w cl es = None) by (apply simple_iff; eauto). congruence.
  - congruence.
Qed.
End Simple.

(** * Without SWAPCHAR at the end of the text every change can be taken back *)
Fixpoint sound (l : list rune) (cs : list change) : Prop :=
  match cs with
  | [] => True
  | c :: cs' => (0 < c_new c -> c_place c + c_new c <= zlen l) /\ sound (c_text c) cs'
  end.
Definition PS (p : paper) : Prop := sound (whole p) (changes p).
Lemma PS_go b a p : b ++ a = whole p -> PS p -> PS (go b a p).
Proof. intros H. unfold PS, go, whole at 2. cbn. now rewrite H. Qed.
Lemma PS_change b a back place new p : (0 < new -> place + new <= zlen (b ++ a)) -> PS p -> PS (change_to b a back place new p).
Proof. intros H Hp. split; [exact H|exact Hp]. Qed.
Lemma PS_copy l p : PS p -> PS (copy l p). Proof. exact (fun H => H). Qed.
Lemma PS_type l p : PS p -> PS (type_in l p).
Proof. intros H. apply PS_change; [|exact H]. intros _. rewrite !zlen_app. pose proof (zlen_nonneg (after p)). lia. Qed.
Lemma PS_paste t p : PS p -> PS (paste t p).
Proof.
  intros H. pose proof (PS_type (runes t) p H) as K. unfold paste, as_one. cbn [type_in change_to changes] in *.
  destruct (changes p) as [|c cs] eqn:Hc; [exact K|]. unfold PS in H. rewrite Hc in H. destruct H as [H1 H2]. cbn [c_place c_new].
  destruct ((c_place c =? zlen (before p)) && ((c_new c =? 0) || (zlen (runes t) =? 0))) eqn:Hx; [|exact K].
  split; [|exact H2]. cbn [c_place c_new]. unfold whole in *. cbn [before after]. rewrite !zlen_app in *. pose proof (zlen_nonneg (after p)). pose proof (zlen_nonneg (runes t)). intros Hpos.
  cbn [type_in change_to before after] in *. rewrite !zlen_app. apply andb_true_iff in Hx as [Hx1 Hx2]. apply Z.eqb_eq in Hx1. apply orb_true_iff in Hx2 as [Hx2|Hx2]; apply Z.eqb_eq in Hx2; [lia|]. specialize (H1 ltac:(lia)). lia.
Qed.
Lemma PS_clip f p : PS p -> PS (paste_clip f p).
Proof. intros H. unfold paste_clip. destruct (clipboard p); [now apply PS_paste|exact H]. Qed.
Lemma PS_kill_all p : PS p -> PS (kill_all p). Proof. intros H. apply PS_change; [lia|exact H]. Qed.
Lemma PS_cut stay cut p : PS p -> PS (cut_to stay cut p).
Proof. intros H. unfold cut_to. destruct cut; [exact H|]. apply PS_change; [lia|exact H]. Qed.
Lemma PS_delf p : PS p -> PS (delete_forward p).
Proof. intros H. unfold delete_forward. destruct (after p); [exact H|]. apply PS_change; [lia|exact H]. Qed.
Lemma PS_delb p : PS p -> PS (delete_backward p).
Proof. intros H. unfold delete_backward. destruct (rev (before p)); [exact H|]. apply PS_change; [lia|exact H]. Qed.
Lemma PS_take p : PS p -> PS (take_back p).
Proof.
  unfold PS, take_back. destruct (changes p) as [|c cs] eqn:Hc; [now rewrite Hc|]. intros [_ H]. unfold whole. cbn. now rewrite firstn_skipn.
Qed.
Lemma PS_leave en p : PS p -> PS (leave en p).
Proof. intros H. unfold leave. destruct (_ && _); exact H. Qed.
Lemma PS_visit en i p : PS p -> PS (visit en i p).
Proof.
  intros H. unfold visit. assert (K : PS (kill_all (mkPaper (before p) (after p) (clipboard p) i (edited p) (changes p)))) by (apply PS_kill_all; exact H).
  destruct (shown_at en i p); [exact K|]. now apply PS_type.
Qed.
Lemma PS_backward p : PS p -> PS (backward p).
Proof.
  intros H. unfold backward. destruct (rev (before p)) as [|r b] eqn:Hr; [exact H|]. apply rev_cons_inv in Hr. apply PS_go; [|exact H].
  unfold whole. rewrite Hr. now rewrite <- app_assoc.
Qed.
Lemma PS_forward p : PS p -> PS (forward p).
Proof.
  intros H. unfold forward. destruct (after p) as [|r b] eqn:Hr; [exact H|]. apply PS_go; [|exact H]. unfold whole. rewrite Hr. now rewrite <- app_assoc.
Qed.
Lemma PS_bword p : PS p -> PS (backward_word p).
Proof.
  intros H. unfold backward_word. destruct (span_end gap (before p)) as [l bl] eqn:H1. destruct (span_end _ l) as [rest word] eqn:H2.
  apply span_end_app in H1, H2. apply PS_go; [|exact H]. unfold whole. rewrite H1, H2. now rewrite <- !app_assoc.
Qed.
Lemma PS_fword p : PS p -> PS (forward_word p).
Proof.
  intros H. unfold forward_word. destruct (span _ (after p)) as [word l] eqn:H1. destruct (span gap l) as [bl rest] eqn:H2.
  apply span_app in H1, H2. apply PS_go; [|exact H]. unfold whole. rewrite H1, H2. now rewrite <- !app_assoc.
Qed.
Lemma PS_swap p : PS p -> ~ (after p = [] /\ 2 <= zlen (before p)) -> PS (swap p).
Proof.
  intros H Hn. unfold swap. destruct (after p) as [|y a] eqn:Ha.
  - destruct (rev (before p)) as [|y [|x b]] eqn:Hr; try exact H. exfalso. apply Hn. split; [reflexivity|].
    rewrite <- AbsInv.zlen_rev, Hr, !zlen_cons. pose proof (zlen_nonneg b). lia.
  - destruct (rev (before p)) as [|x b] eqn:Hr; [exact H|]. apply PS_change; [|exact H]. intros _.
    apply rev_cons_inv in Hr. rewrite Hr, !zlen_app, !zlen_cons, zlen_nil. pose proof (zlen_nonneg a). lia.
Qed.
Definition PD (d : desk) : Prop :=
  match d with Editing p | Quoting p | Searching _ _ _ p => PS p | Returned _ _ => True end.
Section Paper.
Variable S : scfg.
Notation happens_ := (happens (hist (base S)) (cycling (base S)) (upper (base S)) (LookupCommand (kmap S) (gmap S))).
Lemma PD_happens e d : PD d -> ~ swap_at_end S d e -> PD (happens_ e d).
Proof.
  intros H Hn. destruct d as [p|p|l f0 i p|t r]; destruct e as [k| |n|c]; cbn [happens PD] in *; auto.
  - cbn [swap_at_end] in Hn. unfold press. destruct (LookupCommand (kmap S) (gmap S) k); cbn [PD]; auto using PS_backward, PS_forward, PS_bword, PS_fword, PS_delf, PS_delb, PS_kill_all, PS_cut, PS_clip, PS_take, PS_type.
    + apply PS_go; [apply app_nil_r|exact H].
    + destruct (whole p); cbn [PD]; auto using PS_delf.
    + apply PS_change; [lia|exact H].
    + unfold rubout_word. destruct (span_end gap (before p)) as [l bl]. destruct (last_word 0 [] [] l). now apply PS_cut.
    + apply PS_swap; [exact H|]. intros K. now apply Hn.
    + unfold previous. destruct (hist (base S)); [exact H|]. destruct (_ <? _); [apply PS_visit, PS_leave; exact H|]. destruct (cycling (base S)); [now apply PS_visit|exact H].
    + unfold next. destruct (hist (base S)); [exact H|]. destruct (_ <? _); [apply PS_visit, PS_leave; exact H|exact H].
  - now apply PS_type.
  - unfold press_search. repeat match goal with |- context [if ?c then _ else _] => destruct c end; cbn [PD]; auto. apply PS_paste, PS_kill_all, H.
Qed.
Lemma PD_fold es : forall d, PD d -> (forall es1 e es2, es = es1 ++ e :: es2 -> ~ swap_at_end S (fold_left (fun d e => happens_ e d) es1 d) e) ->
  PD (fold_left (fun d e => happens_ e d) es d).
Proof.
  induction es as [|e es IH]; intros d H Hn; [exact H|]. cbn [fold_left]. apply IH.
  - apply PD_happens; [exact H|]. exact (Hn [] e es eq_refl).
  - intros es1 e' es2 ->. exact (Hn (e :: es1) e' es2 eq_refl).
Qed.
Lemma PD_fresh default cur cl : PS (fresh (hist (base S)) default cur cl).
Proof. unfold PS, fresh, whole. cbn -[firstn skipn]. rewrite firstn_skipn. split; [lia|exact I]. Qed.
Lemma PD_breaks d e : PD d -> ~ undo_breaks S d e.
Proof.
  intros H Hu. destruct d as [p|p|l f0 i p|t r]; try exact Hu. destruct e as [k| |n|c]; try exact Hu. destruct Hu as [_ Hu].
  cbn in H. unfold PS in H. destruct (changes p) as [|c cs]; [exact Hu|]. destruct H as [H _]. destruct Hu. lia.
Qed.
Lemma no_swap_no_break default cur cl es :
  (forall es1 e es2, es = es1 ++ e :: es2 -> ~ swap_at_end S (paper_of S default cur cl es1) e) ->
  forall es1 e es2, es = es1 ++ e :: es2 -> ~ undo_breaks S (paper_of S default cur cl es1) e.
Proof.
  intros H es1 e es2 ->. apply PD_breaks. unfold paper_of, on_paper. apply PD_fold; [apply PD_fresh|].
  intros es3 e' es4 ->. apply (H es3 e' (es4 ++ e :: es2)). now rewrite <- app_assoc.
Qed.
End Paper.
Lemma simple_inside S default cur w cl es : simple_editor S -> pcolor0 (base S) = [] -> simple_text (cE (base S)) default -> simple_clip (cE (base S)) cl ->
  Forall (simple_input S) es -> 0 <= cur -> prompt_width (base S) + 11 < w ->
  (forall es1 e es2, es = es1 ++ e :: es2 -> ~ swap_at_end S (paper_of S default cur cl es1) e) ->
  exists x, readline S default cur w cl es = Some x /\ in_bounds (buf_of x).
Proof.
  intros HS HP Hd Hcl Hes Hc Hw Hn. pose proof (simple_iff S HS default cur w cl es HP Hd Hcl Hes Hc Hw) as K.
  destruct (readline S default cur w cl es) as [x|] eqn:Hx.
  - exists x. split; [reflexivity|]. eapply simple_bounds; eauto.
  - destruct (proj1 K eq_refl) as (es1 & e & es2 & He & Hu). exfalso. eapply no_swap_no_break; eauto.
Qed.
