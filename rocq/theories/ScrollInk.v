(** Every command keeps the colours right, tabs, scrolling and predictions included, when the row
    is taken to be as long as need be: TabScroll.v again, with ink. *)
From Coq Require Import Sorting.Permutation.
From Verif Require Import Base Utf8 Moji Color Prompt Buffer Commands KeyMap Session MojiFacts Abs AbsRef AbsSess
  AbsSafe AbsInv Safe Spec SpecScreen SpecTabScreen ScreenFacts ScreenPaint ScreenCmd SpecPaint PaintFacts SpecInk InkFacts InkPaint SpecScrollInk.
From Verif Require TabScreen TabScroll TabInk.
Ltac lia := unfold rune in *; Lia.lia.

Section Screen.
Variable C : cfg.
Notation E := (cE C).
Notation K := (ccol C).
Hypothesis HE : env_ok E.
Hypothesis HB : blind K.
Hypothesis HT : true_colours K.
Variable other : iterminal.
Notation D := (idisplay E other).
Notation W := (total_width E).
Notation IW := (itotal E).
Notation laid := (laid E).
Notation ioka := (TabInk.iok_any C HE).
Notation Wp := (TabScreen.W_pos C HE).
Notation nh := TabInk.nh.
Notation inl l := (binked K (laid 0 l)).
Notation dark := (map (fun m => (m, Look (pcolor0 C)))).
Notation ready := (TabScroll.ready C).
Let any : terminal := mkTerminal (fun _ sc => sc) (fun _ _ _ => Blank).

Lemma IWp l : 0 <= IW l. Proof. apply iW_nonneg, ioka. Qed.
Lemma IW_ipart l a b : IW (ipart (inl l) a b) = W (part (laid 0 l) a b).
Proof. unfold itotal. now rewrite binked_part_fst. Qed.
Lemma IW_dark p : IW (dark p) = W p.
Proof. unfold itotal. rewrite map_map. cbn [fst]. now rewrite map_id. Qed.

(** ** Rows *)
Lemma blank_stays l : forall sc x, icol sc + IW l <= x -> irow sc x = IBlank -> irow (D (om l) sc) x = IBlank.
Proof.
  induction l as [|m l IH]; intros sc x Hx H; [exact H|]. rewrite iD_tm_cons. rewrite iW_cons in Hx. pose proof (IWp l). pose proof (TabScreen.width_any C HE (fst m)) as Hm. fold (iwidth E m) in Hm.
  apply IH; [cbn; lia|]. cbn [irow iput]. replace ((icol sc <=? x) && (x <? icol sc + iwidth E m)) with false by lia. now rewrite H.
Qed.
Lemma full_cover c old new sc : ifull E c old sc -> icol sc = c -> IW old <= IW new -> ifull E c new (D (om new) sc).
Proof.
  intros H Hc Hw x Hx. assert (U : iupto E c new (D (om new) sc)) by (apply (iupto_tm E other c new [] sc (Forall_nil _) (ioka _)); now apply iupto_nil).
  destruct (Z_lt_dec x (c + IW new)) as [Hlt|Hge]; [apply U; lia|].
  rewrite iimage_after by (apply ioka || lia). apply blank_stays; [lia|]. rewrite H by exact Hx. apply iimage_after; [apply ioka|lia].
Qed.
Lemma ipart_W l a b c : 0 <= a <= b -> b <= c -> IW (ipart l a b) <= IW (ipart l a c).
Proof. intros H1 H2. rewrite (ipart_split l a b c) by lia. rewrite iW_app. pose proof (IWp (ipart l b c)). lia. Qed.
Lemma over c l v e k sc : 0 <= v <= e -> v <= k -> ifull E c (ipart l v e) sc -> icol sc = c ->
  ifull E c (ipart l v (Z.max e k)) (D (om (ipart l v k)) sc).
Proof.
  intros H1 H2 H Hc. destruct (Z_le_dec k e) as [Hk|Hk].
  - rewrite Z.max_l by lia. rewrite (ipart_split l v k e) in * by lia. apply (ifull_over E other c (ipart l v k) [] (ipart l k e)); [apply ioka|exact H|rewrite iW_nil; lia].
  - rewrite Z.max_r by lia. eapply full_cover; [exact H|exact Hc|]. apply ipart_W; lia.
Qed.
Lemma om_app a b : om (a ++ b) = om a ++ om b. Proof. apply map_app. Qed.
Lemma onward c l v k p q sc : 0 <= v <= p -> p <= k -> p <= q -> ifull E c (ipart l v k) sc -> icol sc = c + IW (ipart l v p) ->
  ifull E c (ipart l v (Z.max k q)) (D (om (ipart l p q)) sc) /\ icol (D (om (ipart l p q)) sc) = c + IW (ipart l v q).
Proof.
  intros H1 H2 H3 H Hc. split; [|rewrite icol_tm, Hc, (ipart_split l v p q) by lia; rewrite iW_app; lia].
  destruct (Z_le_dec q k) as [Hq|Hq].
  - rewrite Z.max_l by lia. rewrite (ipart_split l v p k), (ipart_split l p q k) in * by lia. apply (ifull_over E other c (ipart l p q) (ipart l v p) (ipart l q k)); [apply ioka|exact H|exact Hc].
  - rewrite Z.max_r by lia. rewrite (ipart_split l p k q) by lia. rewrite om_app. rewrite iD_app, (ipart_split l v k q) by lia.
    assert (Hc2 : icol (D (om (ipart l p k)) sc) = c + IW (ipart l v k)) by (rewrite icol_tm, Hc, (ipart_split l v p k) by lia; rewrite iW_app; lia).
    apply ifull_extend; [apply ioka|apply ioka| |exact Hc2].
    rewrite (ipart_split l v p k) in * by lia. pose proof (ifull_over E other c (ipart l p k) (ipart l v p) [] sc) as X. rewrite app_nil_r in X. apply X; [apply ioka|exact H|exact Hc].
Qed.

(** ** States *)
Definition Room (s : buf) : Prop := TabScroll.Room C s /\ nh (line s).
Definition G0 (s : buf) : Prop := TabScroll.G0 C s /\ nh (line s).
Definition G (s : buf) : Prop := TabScroll.G C s /\ nh (line s).
Definition shown (s : buf) (sc : iscreen) : Prop :=
  exists k pred, cursor s <= k <= zlen (line s) /\
    (pred = [] \/ cursor s = zlen (line s) /\ exists rest, suffix s = Some (pred ++ rest)) /\
    (forall x, topc s <= x -> irow sc x = iimage E (topc s) (ipart (inl (line s)) (view s) k ++ dark pred) x) /\
    icol sc = topc s + IW (ipart (inl (line s)) (view s) (cursor s)).
Definition R0 (s s' : buf) : Prop := forall sc, exists vs, iemits s s' vs /\ shown s' (D vs sc).
Definition R (s s' : buf) : Prop := forall sc, shown s sc -> exists vs, iemits s s' vs /\ shown s' (D vs sc).
Lemma R0_R s s' : R0 s s' -> R s s'. Proof. intros H sc _. apply H. Qed.
Lemma R0_pre s0 s s' ts : out s = out s0 ++ ts -> wordless ts -> R0 s s' -> R0 s0 s'.
Proof.
  intros H1 H3 H4 sc. destruct (iemits_wordless s0 s ts H1 H3) as [vs Hv]. destruct (H4 (D vs sc)) as (v1 & O & Sh).
  exists (vs ++ v1). split; [eapply iemits_trans; eauto|]. now rewrite iD_app.
Qed.
Lemma R0_same s0 s s' : out s = out s0 -> R0 s s' -> R0 s0 s'.
Proof. intros H1. apply (R0_pre s0 s s' []); [now rewrite app_nil_r|intros m []]. Qed.
Lemma R_trans s s1 s2 : R s s1 -> R s1 s2 -> R s s2.
Proof.
  intros H1 H4 sc Hs. destruct (H1 sc Hs) as (t1 & O1 & S1). destruct (H4 _ S1) as (t2 & O2 & S2).
  exists (t1 ++ t2). split; [eapply iemits_trans; eauto|]. now rewrite iD_app.
Qed.
Lemma R_refl s : R s s.
Proof. intros sc Hs. exists []. split; [now apply iemits_same|exact Hs]. Qed.
Lemma Room_same s s' : line s' = line s -> Room s -> Room s'.
Proof. intros Hl [H1 H2]. split; [now apply (TabScroll.Room_same C s)|now rewrite Hl]. Qed.

Lemma puts_I s a b s' : Room s -> puts C s a b = Some s' ->
  iemits s s' (om (ipart (inl (line s)) a b)) /\ 0 <= a <= b /\ b <= zlen (line s).
Proof. intros [[Hu Hw] Hn] H. destruct (TabInk.puts_T C HE HB HT s a b s' Hu Hw Hn H) as (H1 & H2 & H3 & _). auto. Qed.
Lemma attr_ink y p z : forall k, inkify k (TAttr y :: tm p ++ [TAttr z]) = om (map (fun m => (m, Look y)) p).
Proof.
  intros k. cbn [inkify]. destruct (inkify_app (tm p) (Look y) [TAttr z]) as [k' ->]. cbn [inkify]. rewrite app_nil_r.
  induction p as [|m p IH]; [reflexivity|]. cbn [tm map inkify om]. f_equal. exact IH.
Qed.
Lemma repaintW_I s s' : repaintWithoutUpdateSuffix C s = Some s' -> Room s -> ready s -> R0 s s'.
Proof.
  intros H HR Hrd. pose proof (repaintW_paints C s s' H) as Hp. unfold repaintWithoutUpdateSuffix in H.
  destruct (getView2 C s) as [[e w]|] eqn:Hg; [|discriminate].
  destruct (puts C (GotoHead s) (view (GotoHead s)) e) as [s2|] eqn:Hp1; [|discriminate].
  pose proof (paints_fields _ _ (puts_paints C _ _ _ _ Hp1)) as (F1 & F2 & F3 & F4 & F5 & F6 & F7 & _).
  apply puts_I in Hp1 as (Em1 & B1 & B2); [|exact HR]. change (line (GotoHead s)) with (line s) in *. change (view (GotoHead s)) with (view s) in *.
  assert (ZC : zlen (line s) = zlen (cells s)) by apply zlen_map.
  assert (L2 : line s2 = line s) by exact F1.
  match type of H with (match ?o with Some _ => _ | None => _ end) = _ => assert (Ho : o = o) by reflexivity; destruct o as [s3|] eqn:Hs3 in H; [|discriminate]; clear Ho end.
  assert (Hpr : exists pred ts, s3 = emit s2 ts /\ (forall k, inkify k ts = om (dark pred)) /\
    (pred = [] \/ cursor s = zlen (line s) /\ (exists rest, suffix s = Some (pred ++ rest)) /\ w + W pred < ViewWidth s)).
  { assert (None3 : s3 = s2 -> exists pred ts, s3 = emit s2 ts /\ (forall k, inkify k ts = om (dark pred)) /\ (pred = [] \/ cursor s = zlen (line s) /\ (exists rest, suffix s = Some (pred ++ rest)) /\ w + W pred < ViewWidth s)).
    { intros ->. exists [], []. split; [destruct s2; unfold emit; cbn; now rewrite app_nil_r|]. auto. }
    destruct (pcolor0 C) as [|y0 y1] eqn:HP; [injection Hs3 as <-; auto|]. destruct (suffix s2) as [[|z0 z1]|] eqn:Hsu; [injection Hs3 as <-; auto| |injection Hs3 as <-; auto].
    opt Hs3. injection Hs3 as <-. unfold Suffix in Ev. rewrite HP, Hsu in Ev. apply (TabScroll.suffix_S C HE) in Ev as (pr & r & E1 & -> & E3).
    exists pr, (TAttr (y0 :: y1) :: tm pr ++ [TAttr (pcolor1 C)]). split; [reflexivity|]. split; [intros k; apply attr_ink|].
    destruct E3 as [E3|E3]; [now left|]. destruct (cursor s2 =? zlen (cells s2)) eqn:Hce; [|destruct pr; [now left|discriminate]]. right.
    assert (zlen (cells s2) = zlen (line s)) by (rewrite <- L2; symmetry; apply zlen_map). rewrite F5 in Hce. cbn [cursor GotoHead emit] in Hce. split; [lia|].
    cbn [suffix GotoHead emit] in F3. split; [exists r; rewrite <- E1; symmetry; exact F3|].
    unfold ViewWidth in *. rewrite F6, F7 in E3. exact E3. }
  clear Hs3. destruct Hpr as (pred & tp & -> & Hvp & Hpred).
  assert (L3 : line (GotoHead (eraseline (emit s2 tp))) = line s) by exact F1.
  pose proof (paints_fields _ _ Hp) as (P1 & P2 & P3 & P4 & P5 & P6 & P7 & _).
  apply puts_I in H as (Em2 & B3 & B4); [|now apply (Room_same s)]. rewrite L3 in Em2, B4. cbn [view cursor GotoHead eraseline emit] in Em2, B3, B4. rewrite F4, F5 in Em2, B3. rewrite F5 in B4. cbn [view cursor GotoHead emit] in Em2, B3, B4.
  set (L := inl (line s)) in *.
  assert (Em : iemits s s' (([OGoto (topc s + 1)] ++ om (ipart L (view s) e ++ dark pred) ++ [OErase]) ++ [OGoto (topc s + 1)] ++ om (ipart L (view s) (cursor s)))).
  { rewrite om_app. rewrite <- !app_assoc. eapply (iemits_trans s (GotoHead s)); [exists [TGoto (topc s + 1)]; split; reflexivity|]. eapply iemits_trans; [exact Em1|].
    apply (iemits_trans _ (emit s2 tp)); [exists tp; split; [reflexivity|exact Hvp]|].
    change ([OErase] ++ [OGoto (topc s + 1)] ++ ?a) with ([OErase; OGoto (topc s + 1)] ++ a).
    eapply iemits_trans; [|exact Em2]. exists [TErase; TGoto (topc s2 + 1)]. split; [cbn; now rewrite <- app_assoc|]. intros k. cbn. rewrite F7. reflexivity. }
  assert (PL : line s' = line s) by exact P1.
  intros sc. eexists. split; [exact Em|]. rewrite iD_app.
  destruct (iscreen_row E other (topc s) (ipart L (view s) e ++ dark pred) sc (ioka _)) as (S1 & S2). rewrite iD_app, iD_goto. set (sc1 := D (_ ++ _) sc) in *.
  destruct Hpred as [-> | (Hce & Hrest & Hwp)].
  - cbn [map] in S1. rewrite app_nil_r in S1. exists (Z.max e (cursor s)), []. cbn [map]. rewrite P4, P5, P7, PL, app_nil_r. fold L. split; [lia|]. split; [now left|]. split.
    + apply over; try lia; [exact S1|reflexivity].
    + rewrite icol_tm. reflexivity.
  - pose proof (Wp pred) as HWp. apply (TabScroll.view_S C HE) in Hg as (d & n & Hd & He & Hn & Hw0 & Hg). assert (HV : 0 < ViewWidth s) by lia. destruct (Hg HV) as [Hw1 Hmax].
    assert (Hdl : zlen d = zlen (cells s) - view s).
    { apply slice_some in Hd as (X1 & X2 & ->). unfold zlen in *. rewrite firstn_length_le; [lia|]. rewrite skipn_length. lia. }
    set (M := laid 0 (line s)) in *. assert (ZM : zlen M = zlen (line s)) by apply TabScreen.zlen_laid.
    destruct (Z_lt_dec e (zlen (line s))) as [Hlt|Hge].
    + destruct (Hrd Hce HV) as [Hf|(d' & Hd' & Hfit)].
      * assert (Hcov : IW (ipart L (view s) e ++ dark pred) <= IW (ipart L (view s) (cursor s))).
        { rewrite iW_app, IW_dark. unfold L, M. rewrite !IW_ipart. fold M. rewrite (TabScroll.slice_laid C s _ _ Hf Hd) in Hw1. rewrite <- He in Hw1. fold M in Hw1.
          assert (ViewWidth s <= W (part M (view s) (e + 1))).
          { destruct (Z_lt_dec (W (part M (view s) (e + 1))) (ViewWidth s)) as [Hx|Hx]; [|lia]. exfalso.
            specialize (Hmax (Datatypes.S n)). rewrite (TabScroll.slice_laid C s _ _ Hf Hd) in Hmax. fold M in Hmax. replace (view s + Z.of_nat (Datatypes.S n)) with (e + 1) in Hmax by lia.
            specialize (Hmax ltac:(unfold zlen in *; lia) Hx). lia. }
          pose proof (TabScroll.part_W C HE M (view s) (e + 1) (cursor s) ltac:(lia) ltac:(lia) ltac:(lia)). lia. }
        exists (cursor s), []. cbn [map]. rewrite P4, P5, P7, PL, app_nil_r. fold M L. split; [lia|]. split; [now left|]. split.
        -- eapply full_cover; [exact S1|reflexivity|exact Hcov].
        -- rewrite icol_tm. reflexivity.
      * exfalso. rewrite Hd in Hd'. injection Hd' as <-. specialize (Hmax (List.length d) (le_n _)). rewrite firstn_all in Hmax. specialize (Hmax Hfit). unfold zlen in *. lia.
    + assert (e = cursor s) by lia. exists (cursor s), pred. rewrite P3, P4, P5, P7, PL. fold M L. split; [lia|]. split; [right; split; [exact Hce|exact Hrest]|]. split.
      * rewrite H in S1. apply (ifull_over E other (topc s) (ipart L (view s) (cursor s)) [] (dark pred)); [apply ioka|exact S1|rewrite iW_nil; cbn; lia].
      * rewrite icol_tm. reflexivity.
Qed.
Lemma repaint_I s s' : repaint C s = Some s' -> Room s' -> ready s -> R0 s s'.
Proof.
  unfold repaint. destruct (updateSuffix_fields C s) as [x Hx]. rewrite Hx. intros H HR Hrd. pose proof (paints_fields _ _ (repaintW_paints C _ s' H)) as (P1 & _).
  apply (R0_same s (set_suffix s x)); [reflexivity|]. apply repaintW_I; [exact H| |now apply TabScroll.ready_suffix]. apply (Room_same s'); [symmetry; exact P1|exact HR].
Qed.

(** ** The commands *)
Notation ready_fresh' := (TabScroll.ready_fresh' C).
Notation ready_delete := (TabScroll.ready_delete C).
Notation ready_reset := (TabScroll.ready_reset C).
Ltac fin H HR := eapply R0_same; [|apply (repaint_I _ _ H); [exact HR|]]; [reflexivity|].
Ltac rdel Hf Ev := match type of Ev with Delete _ ?x ?p ?n = Some (?a, ?w) => assert (Rd : forall s2, cells s2 = cells a -> cursor s2 = p -> ready s2) by (intros s2; exact (ready_delete x p n a w s2 Hf Ev)) end.
Ltac cut H := match type of H with context [if ?b then _ else _] => destruct b end.
Lemma BeginningOfLine_I s s' : G s -> cmdBeginningOfLine C s = Some s' -> Room s' -> R0 s s'.
Proof. intros ((_ & Hfr) & _) H HR'. unfold cmdBeginningOfLine in H. fin H HR'; (apply (ready_fresh' _ s Hfr); reflexivity). Qed.
Lemma BackwardChar_I s s' : G s -> cmdBackwardChar C s = Some s' -> Room s' -> R s s'.
Proof.
  intros ((_ & Hfr) & _) H HR'. unfold cmdBackwardChar in H. destruct (cursor s <=? 0) eqn:H0; [injection H as <-; apply R_refl|]. apply R0_R.
  cbn [cursor view set_cursor] in H. destruct (cursor s - 1 <? view s); fin H HR'; (apply (ready_fresh' _ s Hfr); reflexivity).
Qed.
Lemma BackwardDelete_I s s' : G s -> cmdBackwardDeleteChar C s = Some s' -> Room s' -> R s s'.
Proof.
  intros ((_ & Hfr) & _) H HR'. unfold cmdBackwardDeleteChar in H.
  destruct (0 <? cursor s) eqn:H0; [|injection H as <-; apply R_refl]. apply R0_R. opt H.
  rdel Hfr Ev. apply Delete_shape in Ev as (l & us & -> & _). cbn [cursor view set_cursor set_cells set_undoes] in *. cut H; fin H HR'; apply Rd; reflexivity.
Qed.
Lemma DeleteChar_I s s' : G s -> cmdDeleteChar C s = Some s' -> Room s' -> R0 s s'.
Proof.
  intros ((_ & Hfr) & _) H HR'. unfold cmdDeleteChar in H. opt H. rdel Hfr Ev. apply Delete_shape in Ev as (l & us & -> & _). fin H HR'; apply Rd; reflexivity.
Qed.
Lemma self_tail_I s k s' : G s -> self_insert_tail C s k = Some s' -> Room s' -> R0 s s'.
Proof.
  intros HG H HR'. pose proof HG as (((HR & Hv & Hc) & Hfr) & _). unfold self_insert_tail in H. opt H.
  pose proof (TabScroll.insert_cells C _ _ _ _ _ Ev) as Hi. pose proof (insert_shape C s _ _ _ _ Ev) as (l0 & us & Hb & Hp & _). subst b. cbv zeta in H. destruct (ViewWidth _ <=? _) eqn:Hx; [fin H HR'; apply ready_reset|].
  fin H HR'. cbn [cells cursor view set_cells set_undoes set_cursor] in *. change (ViewWidth (set_cursor _ _)) with (ViewWidth s) in Hx. intros He _. right.
  change (cells (set_cursor _ _)) with l0. change (view (set_cursor _ _)) with (view s). change (ViewWidth (set_cursor _ _)) with (ViewWidth s).
  change (cursor s + zlen l = zlen (emojis l0)) in He. unfold emojis in He. rewrite zlen_map in He. unfold GetWidthBetween in Ev0. cbn [cells set_cells set_undoes] in Ev0.
  destruct (slice l0 (view s) (cursor s)) as [d|] eqn:Hd; [|discriminate]. injection Ev0 as <-.
  assert (Zc : zlen (line s) = zlen (cells s)) by apply zlen_map. assert (Hcl : cursor s = zlen (cells s)).
  { apply (f_equal zlen) in Hi. rewrite !zlen_app, zlen_firstn in Hi. assert (zlen (skipn (Z.to_nat (cursor s)) (cells s)) = zlen (cells s) - cursor s) by (unfold zlen in *; rewrite skipn_length; lia). lia. }
  rewrite Hcl in Hi. unfold zlen at 1 2 in Hi. rewrite Nat2Z.id, firstn_all, skipn_all, app_nil_r in Hi. subst l0.
  exists (d ++ l). split; [|rewrite !range_W in *; rewrite map_app, W_app; lia].
  apply slice_some in Hd as (D1 & D2 & ->). rewrite Hcl in *. destruct (split_at (cells s) (view s)) as (p0 & q & Hq & Hz); [lia|]. rewrite Hq, <- Hz, !zlen_app.
  replace (Z.to_nat (zlen p0 + zlen q - zlen p0)) with (List.length q) by (unfold zlen; lia). rewrite <- app_assoc. rewrite to_nat_zlen, skipn_app, skipn_all, Nat.sub_diag. cbn [app skipn].
  rewrite firstn_app, firstn_all, Nat.sub_diag. cbn [firstn]. rewrite app_nil_r. pose proof (slice_app_mid p0 (q ++ l) []) as X. rewrite app_nil_r, zlen_app, Z.add_assoc in X. exact X.
Qed.
Lemma Room_sub s s1 p d q : Room s -> line s = p ++ d ++ q -> line s1 = p ++ q -> Room s1.
Proof.
  intros (H1 & H3) HL HL1. split; [now apply (TabScroll.Room_sub C HE s s1 p d q)|]. rewrite HL1. eapply TabInk.nh_incl; [|exact H3]. rewrite HL.
  intros m Hm. rewrite !in_app_iff in *. tauto.
Qed.
Lemma selfInsert_I k s s' : G s -> selfInsert C k s = Some s' -> Room s' -> R s s'.
Proof.
  intros HG H HR'. unfold selfInsert in H. destruct (AreZeroWidthJoin E (altgr k) && (0 <? cursor s)).
  { opt H. exact (BackwardDelete_I (set_pending s _) s' HG H HR'). }
  destruct ((AreVariationSelectorLike E (altgr k) || AreEmojiModifier E (altgr k)) && (0 <? cursor s)).
  { opt H. assert (Hd : exists p d q, line s = p ++ d ++ q /\ line b = p ++ q).
    { apply cmdBackwardDeleteChar_ref in Ev0. apply aBackwardDelete_mid in Ev0. exact Ev0. }
    destruct Hd as (p & d & q & H1 & H2).
    assert (Rb : Room b) by (eapply Room_sub; [split; [apply HG|apply HG]|exact H1|exact H2]).
    assert (Gb : G b) by (split; [|apply Rb]; apply (TabScroll.BackwardDelete_S C HE any s b); [apply HG|exact Ev0|apply Rb]).
    eapply R_trans; [apply BackwardDelete_I; [exact HG|exact Ev0|exact Rb]|]. apply R0_R. eapply self_tail_I; [exact Gb|exact H|exact HR']. }
  destruct (pending s).
  - apply R0_R. eapply self_tail_I; eauto.
  - apply R0_R. exact (self_tail_I (set_pending s []) _ s' HG H HR').
Qed.
Lemma Replace_I s pos t s' : ReplaceAndRepaint C s pos t = Some s' -> Room s' -> R0 s s'.
Proof.
  intros H HR'. unfold ReplaceAndRepaint in H. opt H. apply Delete_shape in Ev as (l & us & -> & _).
  unfold InsertString in Ev0. opt Ev0. injection Ev0 as <- <-. pose proof (insert_shape C _ _ _ _ _ Ev) as (l1 & us1 & Hb & _). subst b.
  destruct (joinUndo_shape (set_cursor (set_undoes (set_cells (set_undoes (set_cells s l) us) l1) us1) (pos + zlen l0))) as [us2 Hj]. rewrite Hj in H. fin H HR'; apply ready_reset.
Qed.
Lemma WordRubout_I s s' : G s -> cmdUnixWordRubout C s = Some s' -> Room s' -> R0 s s'.
Proof.
  intros ((_ & Hfr) & _) H HR'. unfold cmdUnixWordRubout in H. opt H.
  match goal with H : context [clip_write ?x ?y] |- _ => destruct (clip_write_shape x y) as [cl Hcl]; rewrite Hcl in * end.
  rdel Hfr Ev2. apply Delete_shape in Ev2 as (l2 & us & -> & _). cbv zeta in H. cut H; fin H HR'; apply Rd; reflexivity.
Qed.
Lemma LineDiscard_I s s' : G s -> cmdUnixLineDiscard C s = Some s' -> Room s' -> R0 s s'.
Proof.
  intros ((_ & Hfr) & _) H HR'. unfold cmdUnixLineDiscard in H. opt H.
  match goal with H : context [clip_write ?x ?y] |- _ => destruct (clip_write_shape x y) as [cl Hcl]; rewrite Hcl in * end.
  rdel Hfr Ev0. apply Delete_shape in Ev0 as (l2 & us & -> & _). fin H HR'; apply Rd; reflexivity.
Qed.
Lemma RepaintAll_I s ts s' : G s -> wordless ts -> RepaintAll C (emit s ts) = Some s' -> Room s' -> R0 s s'.
Proof.
  intros ((_ & Hfr) & _) Hts H HR'. unfold RepaintAll in H. destruct (callPromptWriter E (prompt C)) as [t p] eqn:Hp.
  eapply (R0_pre s _ s' (ts ++ [TFlush; TPrompt t])); [| |apply (repaint_I _ _ H); [exact HR'|(apply (ready_fresh' _ s Hfr); reflexivity)]].
  - cbn. now rewrite app_assoc.
  - intros m Hi. apply in_app_or in Hi as [Hi|[Hi|[Hi|[]]]]; [now apply (Hts m)|discriminate|discriminate].
Qed.
Lemma BackwardWord_I s s' : G s -> cmdBackwardWord C s = Some s' -> Room s' -> R0 s s'.
Proof.
  intros ((_ & Hfr) & _) H HR'. unfold cmdBackwardWord in H. opt H. cbv zeta in H. cut H; fin H HR'; (apply (ready_fresh' _ s Hfr); reflexivity).
Qed.
Lemma R_quiet s ts : (forall k, inkify k ts = []) -> R s (emit s ts).
Proof. intros Hv sc Hs. exists []. split; [exists ts; split; [reflexivity|exact Hv]|exact Hs]. Qed.
Lemma Undo_I s s' : G s -> cmdUndo C s = Some s' -> Room s' -> R s s'.
Proof.
  intros ((_ & Hfr) & _) H HR'. unfold cmdUndo in H.
  destruct (undoes s) as [|u rest]; [injection H as <-; now apply R_quiet|]. apply R0_R. opt H.
  assert (Hb : exists l2 c2, b = set_cursor (set_cells (GotoHead (set_undoes s rest)) l2) c2).
  { destruct (u_text u) as [|x t] eqn:Hut; [injection Ev0 as <-; eexists _, _; reflexivity|]. opt Ev0. injection Ev0 as <-. eexists _, _. reflexivity. }
  destruct Hb as (l2 & c2 & ->).
  eapply (R0_pre s _ s' [TGoto (topc s + 1)]); [| |apply (repaint_I _ _ H); [exact HR'|apply ready_reset]]; [reflexivity|]. intros m [Hi|[]]. discriminate.
Qed.

(** ** The commands that paint less *)
Lemma advance_I s p s1 : G0 s -> puts C s (cursor s) p = Some s1 -> R s (set_cursor s1 p) /\ G (set_cursor s1 p) /\ line s1 = line s.
Proof.
  intros HG H. pose proof HG as ((HR & Hv & Hc) & Hn). destruct (TabScroll.advance_S C HE any s p s1 (proj1 HG) H) as (_ & HG1 & _).
  pose proof (paints_fields _ _ (puts_paints C _ _ _ _ H)) as (F1 & F2 & F3 & F4 & F5 & F6 & F7 & _).
  apply puts_I in H as (Em & Hb1 & Hb2); [|split; assumption]. assert (FL : line s1 = line s) by exact F1.
  split; [|split; [split; [exact HG1|]; change (nh (line s1)); now rewrite FL|exact FL]].
  intros sc (k & pr & Hk & Hpr & Hrow & Hcol). eexists. split; [exact Em|].
  set (L := inl (line s)) in *.
  destruct Hpr as [-> | (Hce & Hrest)].
  2:{ assert (p = cursor s) by lia. subst p. rewrite ipart_nil. exists k, pr. change (line (set_cursor s1 (cursor s))) with (line s1). cbn [view cursor topc suffix set_cursor]. rewrite FL, F3, F4, F7. fold L. auto. }
  cbn [map] in Hrow. rewrite app_nil_r in Hrow. destruct (onward (topc s) L (view s) k (cursor s) p sc ltac:(lia) ltac:(lia) ltac:(lia) Hrow Hcol) as [O1 O2].
  exists (Z.max k p), []. change (line (set_cursor s1 p)) with (line s1). cbn [view cursor topc set_cursor map]. rewrite FL, F4, F7, app_nil_r. fold L. split; [lia|]. split; [now left|]. split; [exact O1|exact O2].
Qed.
Lemma fresh_row s v p s1 s2 : Room s -> puts C (set_view (GotoHead s) v) v p = Some s1 ->
  line s2 = line s1 -> out s2 = out s1 ++ [TErase] -> view s2 = v -> cursor s2 = p -> topc s2 = topc s -> R0 s s2.
Proof.
  intros HR H Hl Ho Hv Hc Ht.
  pose proof (paints_fields _ _ (puts_paints C _ _ _ _ H)) as (F1 & F2 & F3 & F4 & F5 & F6 & F7 & _).
  apply puts_I in H as (Em & Hb1 & Hb2); [|exact HR]. assert (FL : line s1 = line s) by exact F1. change (line (set_view (GotoHead s) v)) with (line s) in *.
  assert (L2 : line s2 = line s) by congruence.
  intros sc. assert (Em2 : iemits s s2 ([OGoto (topc s + 1)] ++ om (ipart (inl (line s)) v p) ++ [OErase])).
  { eapply iemits_trans; [|eapply iemits_trans; [exact Em|]].
    - exists [TGoto (topc s + 1)]. split; reflexivity.
    - exists [TErase]. split; [exact Ho|reflexivity]. }
  eexists. split; [exact Em2|]. destruct (iscreen_row E other (topc s) (ipart (inl (line s)) v p) sc (ioka _)) as (S1 & S2).
  exists p, []. cbn [map]. rewrite L2, Hv, Hc, Ht, app_nil_r. split; [lia|]. split; [now left|]. split; [exact S1|exact S2].
Qed.
Lemma erase_I s : cursor s = zlen (line s) -> R s (eraseline s).
Proof.
  intros Hz sc (k & pr & Hk & _ & Hrow & Hcol). exists [OErase]. split; [exists [TErase]; split; reflexivity|].
  assert (k = cursor s) by lia. subst k. set (l := ipart (inl (line s)) (view s) (cursor s)) in *.
  assert (U : iupto E (topc s) l sc) by (eapply ifull_upto; [apply ioka|apply ioka|exact Hrow|exact Hcol]).
  destruct (iupto_erase E other _ _ _ (ioka _) U) as [H1 H2]. exists (cursor s), []. split; [exact Hk|]. split; [now left|]. cbn [map]. rewrite app_nil_r. split; [exact H1|exact H2].
Qed.
Lemma EndOfLine_I s s' : G0 s -> cmdEndOfLine C s = Some s' -> R s s'.
Proof.
  intros HG H. pose proof HG as ((HR & Hv & Hc) & Hn). unfold cmdEndOfLine in H. destruct (GetWidthBetween C s (view s) (zlen (cells s))) as [w|] eqn:Hw; [|discriminate].
  destruct (w <? ViewWidth s).
  - opt H. injection H as <-. opt Ev. injection Ev as <-. destruct (advance_I s _ _ HG Ev0) as (A1 & A2 & A3).
    eapply R_trans; [exact A1|]. apply erase_I.
    change (line (set_cursor b0 (zlen (cells s)))) with (line b0). cbn [cursor set_cursor]. rewrite A3. symmetry. apply zlen_map.
  - opt H. injection H as <-. opt Ev. injection Ev as <-. apply R0_R.
    pose proof (paints_fields _ _ (puts_paints C _ _ _ _ Ev1)) as (F1 & F2 & F3 & F4 & F5 & F6 & F7 & _).
    eapply fresh_row; [split; [exact HR|exact Hn]|exact Ev1|..]; try reflexivity; [exact F4|exact F7].
Qed.
Lemma ForwardChar_I s s' : G s -> cmdForwardChar C s = Some s' -> Room s' -> R s s'.
Proof.
  intros HG H HR'. pose proof HG as (((HR & Hv & Hc) & Hfr) & Hn). unfold cmdForwardChar in H. destruct (zlen (cells s) <=? cursor s).
  { destruct (suffix s) as [[|m l]|]; [injection H as <-; apply R_refl| |injection H as <-; apply R_refl]. apply R0_R. eapply Replace_I; [exact H|exact HR']. }
  destruct (GetWidthBetween C s (view s) (cursor s + 1)) as [w|] eqn:Hw; [|discriminate]. destruct (w <? ViewWidth s).
  - opt H. injection H as <-. pose proof (paints_fields _ _ (puts_paints C _ _ _ _ Ev)) as (_ & _ & _ & _ & -> & _).
    destruct (advance_I s _ _ (conj (proj1 (proj1 HG)) Hn) Ev) as (A1 & A2 & _). exact A1.
  - opt H. injection H as <-. opt Ev. injection Ev as <-. cbn [cells cursor view GotoHead emit] in *.
    set (v' := if width E (c_moji c0) <? width E (c_moji c) then view s + 1 + 1 else view s + 1).
    assert (Hs3 : set_view (if width E (c_moji c0) <? width E (c_moji c) then set_view (GotoHead s) (view s + 1) else GotoHead s)
       (view (if width E (c_moji c0) <? width E (c_moji c) then set_view (GotoHead s) (view s + 1) else GotoHead s) + 1) = set_view (GotoHead s) v') by (unfold v'; destruct (_ <? _); reflexivity).
    rewrite Hs3 in *. cbn [view cursor set_view GotoHead emit] in *. clear Hs3. clearbody v'.
    pose proof (paints_fields _ _ (puts_paints C _ _ _ _ Ev2)) as (F1 & F2 & F3 & F4 & F5 & F6 & F7 & _). cbn [view cursor topc suffix set_view GotoHead emit] in F3, F4, F5, F7.
    apply R0_R. eapply fresh_row; [split; [exact HR|exact Hn]|exact Ev2|..]; try reflexivity; cbn [view cursor topc set_cursor eraseline emit]; [exact F4|now rewrite F5|exact F7].
Qed.
Lemma ForwardWord_I s s' : G s -> cmdForwardWord C s = Some s' -> Room s' -> R s s'.
Proof.
  intros HG H HR'. pose proof HG as (((HR & Hv & Hc) & Hfr) & Hn). unfold cmdForwardWord in H. opt H. destruct (_ <? ViewWidth s).
  - opt H. injection H as <-. destruct (advance_I s _ _ (conj (proj1 (proj1 HG)) Hn) Ev1) as (A1 & A2 & _). exact A1.
  - apply R0_R. fin H HR'; (apply (ready_fresh' _ s Hfr); reflexivity).
Qed.
Lemma KillLine_I s s' : G s -> cmdKillLine s = Some s' -> R s s'.
Proof.
  intros HG H. pose proof HG as (((HR & Hv & Hcu) & Hfr) & Hn). unfold cmdKillLine in H. opt H. injection H as <-.
  match goal with H : context [clip_write ?x ?y] |- _ => destruct (clip_write_shape x y) as [cl Hcl]; rewrite Hcl in * end.
  cbn [cells cursor eraseline emit push_undo set_undoes set_clip] in Ev0.
  set (s' := set_cells (push_undo (eraseline (set_clip s cl)) _) l) in *.
  assert (Hx : line s' = firstn (Z.to_nat (cursor s)) (line s)).
  { assert (Hx : slice (line s) 0 (cursor s) = Some (line s')) by (change (line s) with (emojis (cells s)); rewrite slice_emojis, Ev0; reflexivity).
    apply part_of_slice in Hx as (Hx & _). rewrite Hx. apply TabScreen.part0. }
  assert (Hz : zlen (line s') = cursor s) by (rewrite Hx, zlen_firstn; lia).
  assert (HL : ipart (inl (line s')) (view s) (cursor s) = ipart (inl (line s)) (view s) (cursor s)).
  { apply binked_part_same; [lia|]. rewrite Hx, <- TabScreen.laid_firstn, firstn_firstn, Nat.min_id. reflexivity. }
  intros sc (k & pr & Hk & _ & Hrow & Hcol). exists [OErase]. split; [exists [TErase]; split; reflexivity|]. set (L := inl (line s)) in *.
  rewrite (ipart_split L (view s) (cursor s) k), <- app_assoc in Hrow by lia.
  assert (U : iupto E (topc s) (ipart L (view s) (cursor s)) sc) by (eapply ifull_upto; [apply ioka|apply ioka|exact Hrow|exact Hcol]).
  destruct (iupto_erase E other _ _ _ (ioka _) U) as [H1 H2]. exists (cursor s), []. change (cursor s') with (cursor s). change (view s') with (view s). change (topc s') with (topc s).
  cbn [map]. rewrite HL, app_nil_r. split; [lia|]. split; [now left|]. split; [exact H1|exact H2].
Qed.
Lemma KillWhole_I s s' : cmdKillWholeLine s = Some s' -> R0 s s' /\ line s' = [] /\
  forall sc, exists vs, iemits s s' vs /\ (forall x, topc s' <= x -> irow (D vs sc) x = iimage E (topc s') [] x) /\ icol (D vs sc) = topc s'.
Proof.
  intros H. unfold cmdKillWholeLine in H. injection H as <-. match goal with |- R0 s ?x /\ _ => set (s' := x) end.
  assert (K : forall sc, exists vs, iemits s s' vs /\ (forall x, topc s <= x -> irow (D vs sc) x = iimage E (topc s) [] x) /\ icol (D vs sc) = topc s).
  { intros sc. exists ([OGoto (topc s + 1)] ++ om [] ++ [OErase]). split; [exists [TGoto (topc s + 1); TErase]; split; [cbn; now rewrite <- app_assoc|reflexivity]|].
    destruct (iscreen_row E other (topc s) [] sc (Forall_nil _)) as (H1 & H2). split; [exact H1|]. rewrite H2, iW_nil. lia. }
  split; [|split; [reflexivity|exact K]]. intros sc. destruct (K sc) as (vs & K1 & K2 & K3). exists vs. split; [exact K1|]. exists 0, []. split; [cbn; unfold zlen; cbn; lia|]. split; [now left|]. split; [exact K2|].
  rewrite K3. change (topc s = topc s + IW []). rewrite iW_nil. lia.
Qed.
Lemma show_I s s' : show_history C s = Some s' -> Room s' -> R s s'.
Proof.
  intros H HR'. unfold show_history in H. destruct (cmdKillWholeLine s) as [s1|] eqn:Hk; [|discriminate].
  destruct (KillWhole_I s s1 Hk) as (HQ & L1 & K). opt H. destruct s0 as [|x t]; [injection H as <-; now apply R0_R|].
  opt H. unfold InsertString in Ev0. opt Ev0. injection Ev0 as <- <-. pose proof (insert_shape C _ _ _ _ _ Ev1) as (l0 & us & Hb & _). subst b0.
  set (s2 := set_cursor (set_view (set_undoes (set_cells s1 l0) us) 0) 0) in *.
  assert (HL : line s' = line s2).
  { apply cmdEndOfLine_ref in H. apply (f_equal aline) in H. exact H. }
  assert (R2 : Room s2) by (apply (Room_same s'); [now symmetry|exact HR']).
  assert (HG2 : G0 s2).
  { split; [|apply R2]. split; [apply R2|]. change (view s2) with 0. change (cursor s2) with 0. split; [lia|apply zlen_nonneg]. }
  intros sc _. destruct (K sc) as (vs & O & Hrow & Hcol). destruct (EndOfLine_I s2 s' HG2 H (D vs sc)) as (v2 & O2 & S2).
  - exists 0, []. change (view s2) with 0. change (cursor s2) with 0. change (topc s2) with (topc s1). split; [pose proof (zlen_nonneg (line s2)); lia|]. split; [now left|]. rewrite !ipart_nil. split; [exact Hrow|]. rewrite Hcol, iW_nil. lia.
  - exists (vs ++ v2). split; [eapply (iemits_trans s s1); [exact O|exact O2]|]. now rewrite iD_app.
Qed.
Lemma history_I s s0 h s' : (s0 = s \/ s0 = set_hptr s h) ->
  (let* s1 := saveModifiedHistory C s0 in show_history C (set_hptr s1 (hptr s1 + 1))) = Some s' \/
  (let* s1 := saveModifiedHistory C s0 in show_history C (set_hptr s1 (hptr s1 - 1))) = Some s' -> Room s' -> R s s'.
Proof.
  intros H0 H HF'. destruct (saveModifiedHistory C s0) as [s1|] eqn:Hsv; [|destruct H; discriminate].
  assert (Hs1 : exists m, s1 = set_modh s0 m).
  { unfold saveModifiedHistory in Hsv. assert (Hr : s0 = set_modh s0 (modh s0)) by (now destruct s0). destruct (hptr s0 <? zlen (hist C)).
    - opt Hsv. destruct (str_eqb s2 (buf_string s0)); injection Hsv as <-; eauto.
    - injection Hsv as <-. eauto. }
  destruct Hs1 as [md ->]. destruct H0 as [-> | ->]; destruct H as [H|H]; (apply show_I in H; [exact H|exact HF']).
Qed.
Lemma PreviousHistory_I s s' : cmdPreviousHistory C s = Some s' -> Room s' -> R s s'.
Proof.
  intros H HF'. unfold cmdPreviousHistory in H. destruct (zlen (hist C) <=? 0); [injection H as <-; apply R_refl|].
  destruct (hptr s <=? 0); [destruct (negb (cycling C)); [injection H as <-; apply R_refl|]|].
  - eapply history_I; [right; reflexivity|right; exact H|exact HF'].
  - eapply (history_I s s 0); [left; reflexivity|right; exact H|exact HF'].
Qed.
Lemma NextHistory_I s s' : cmdNextHistory C s = Some s' -> Room s' -> R s s'.
Proof.
  intros H HF'. unfold cmdNextHistory in H. destruct (zlen (hist C) <=? 0); [injection H as <-; apply R_refl|].
  destruct (zlen (hist C) <? hptr s + 1); [injection H as <-; apply R_refl|].
  eapply (history_I s s 0); [left; reflexivity|left; exact H|exact HF'].
Qed.

(** SWAPCHAR, when the two units are no tabs and stand in the row. *)
Lemma ipart_app (p q : list painted) v k : 0 <= v <= zlen p -> zlen p <= k -> ipart (p ++ q) v k = ipart p v (zlen p) ++ firstn (Z.to_nat (k - zlen p)) q.
Proof.
  intros H1 H2. unfold ipart. rewrite skipn_app. replace (Z.to_nat v - List.length p)%nat with 0%nat by (unfold zlen in *; lia). cbn [skipn].
  rewrite !firstn_app, !skipn_length. rewrite (firstn_all2 (n := Z.to_nat (k - v))) by (rewrite skipn_length; unfold zlen in *; lia).
  rewrite (firstn_all2 (n := Z.to_nat (zlen p - v))) by (rewrite skipn_length; unfold zlen in *; lia). f_equal. f_equal. unfold zlen in *. lia.
Qed.
Lemma swap_row s s2 s' p a b q : G s -> line s = p ++ [a; b] ++ q -> line s2 = p ++ [b; a] ++ q -> tabfree a = true -> tabfree b = true -> q = [] \/ orderless K ->
  view s <= zlen p -> cursor s <= zlen p + 2 ->
  out s2 = out s ++ [TGoto (topc s + 1)] -> view s2 = view s -> cursor s2 = zlen p + 2 -> topc s2 = topc s -> suffix s2 = suffix s ->
  puts C s2 (view s2) (cursor s2) = Some s' -> R s s'.
Proof.
  intros HG Hl Hl2 Ta Tb HO Hvp Hcp Ho Hv2 Hc2 Ht2 Hs2 H. pose proof HG as (((HR & Hv & Hcu) & Hfr) & Hn).
  assert (HR2 : Room s2).
  { split; [|rewrite Hl2; eapply TabInk.nh_incl; [|exact Hn]; rewrite Hl; intros m Hm; rewrite !in_app_iff in *; cbn in *; tauto].
    destruct HR as (F1 & F2). unfold TabScroll.Room. rewrite Hl2. rewrite Hl in *. rewrite !W_app, !W_cons, W_nil in *. split; [|lia].
    apply Forall_app in F1 as [U1 U2]. apply Forall_app in U2 as [_ U2]. apply Forall_app. split; [exact U1|]. apply Forall_app. split; [|exact U2]. constructor; [now left|]. constructor; [now left|constructor]. }
  pose proof (paints_fields _ _ (puts_paints C _ _ _ _ H)) as (P1 & P2 & P3 & P4 & P5 & P6 & P7 & _). assert (PL : line s' = line s2) by exact P1.
  apply puts_I in H as (Em & _ & Hb); [|exact HR2]. rewrite Hv2, Hc2 in Em.
  set (pw0 := W (laid 0 p)). pose proof (Wp (laid 0 p)) as Hpw. fold pw0 in Hpw. pose proof (TabScreen.width_any C HE a). pose proof (TabScreen.width_any C HE b).
  set (tl := laid (pw0 + width E a + width E b) q). set (pl := laid 0 p) in *. assert (Zp : zlen pl = zlen p) by apply TabScreen.zlen_laid.
  assert (L1 : laid 0 (line s) = (pl ++ [a; b]) ++ tl).
  { rewrite Hl, (TabScreen.laid_app C HE) by lia. rewrite Z.add_0_l. fold pl pw0. rewrite (TabScreen.laid_app C HE) by lia. rewrite (TabScreen.laid_two C) by (auto; lia). rewrite !W_cons, W_nil, <- app_assoc. unfold tl. do 3 f_equal. lia. }
  assert (L2 : laid 0 (line s2) = (pl ++ [b; a]) ++ tl).
  { rewrite Hl2, (TabScreen.laid_app C HE) by lia. rewrite Z.add_0_l. fold pl pw0. rewrite (TabScreen.laid_app C HE) by lia. rewrite (TabScreen.laid_two C) by (auto; lia). rewrite !W_cons, W_nil, <- app_assoc. unfold tl. do 3 f_equal. lia. }
  assert (Zs : zlen (line s) = zlen p + 2 + zlen q) by (rewrite Hl; unfold zlen; rewrite !app_length; cbn [List.length]; lia).
  assert (Zs2 : zlen (line s2) = zlen (line s)) by (rewrite Hl, Hl2; unfold zlen; rewrite !app_length; reflexivity).
  assert (HVl : Forall moji_valid (pl ++ [a; b] ++ tl)) by (rewrite app_assoc, <- L1; apply TabInk.valid_laid; apply Hn).
  set (o0 := binked_from K [] (pl ++ [a; b])). set (n0 := binked_from K [] (pl ++ [b; a])). set (rest := binked_from K (pl ++ [a; b]) tl).
  assert (I1 : inl (line s) = o0 ++ rest) by (rewrite L1; unfold binked; rewrite binked_from_app; reflexivity).
  assert (I2 : inl (line s2) = n0 ++ rest).
  { rewrite L2. unfold binked. rewrite binked_from_app. cbn [app]. unfold n0, rest. f_equal. apply TabInk.binked_tail; [|exact HVl]. destruct HO as [-> |HO]; [now left|now right]. }
  assert (Zo : zlen o0 = zlen p + 2) by (unfold zlen, o0; rewrite <- (map_length fst), binked_from_fst, app_length; unfold zlen in *; cbn [List.length]; lia).
  assert (Zn : zlen n0 = zlen p + 2) by (unfold zlen, n0; rewrite <- (map_length fst), binked_from_fst, app_length; unfold zlen in *; cbn [List.length]; lia).
  set (old := ipart o0 (view s) (zlen p + 2)). set (new := ipart n0 (view s) (zlen p + 2)).
  assert (X1 : forall j, zlen p + 2 <= j -> ipart (inl (line s)) (view s) j = old ++ firstn (Z.to_nat (j - (zlen p + 2))) rest) by (intros j Hj; rewrite I1, ipart_app, Zo by lia; reflexivity).
  assert (X2 : forall j, zlen p + 2 <= j -> ipart (inl (line s2)) (view s) j = new ++ firstn (Z.to_nat (j - (zlen p + 2))) rest) by (intros j Hj; rewrite I2, ipart_app, Zn by lia; reflexivity).
  assert (HWn : IW new = IW old).
  { unfold itotal, new, old. rewrite !ipart_fst. unfold n0, o0. rewrite !binked_from_fst. pose proof (TabScroll.part_app2 pl [b; a] [] (view s) (zlen p + 2)) as Y1. pose proof (TabScroll.part_app2 pl [a; b] [] (view s) (zlen p + 2)) as Y2.
    rewrite !app_nil_r in Y1, Y2. rewrite Y1, Y2 by (unfold zlen in *; cbn [List.length]; lia). rewrite !firstn_nil, !app_nil_r, !W_app, !W_cons, W_nil. lia. }
  assert (X3 : ipart (inl (line s2)) (view s) (zlen p + 2) = new) by (rewrite X2 by lia; rewrite Z.sub_diag; apply app_nil_r).
  rewrite X3 in Em.
  intros sc (k & pr & Hk & Hpr & Hrow & Hcol).
  exists ([OGoto (topc s + 1)] ++ om new). split; [eapply (iemits_trans s s2); [exists [TGoto (topc s + 1)]; split; [exact Ho|reflexivity]|exact Em]|].
  rewrite iD_app. set (sc1 := D [OGoto (topc s + 1)] sc). assert (C1 : icol sc1 = topc s) by (unfold sc1; cbn; lia).
  pose proof (zlen_nonneg q) as Hq.
  exists (Z.max k (zlen p + 2)), pr. rewrite P3, P4, P5, P7, PL, Hv2, Hc2, Ht2, Hs2, Zs2, X3. split; [lia|]. split; [destruct Hpr as [Hpr|[Hpr1 Hpr2]]; [now left|right; split; [lia|exact Hpr2]]|]. split; [|rewrite icol_tm, C1; reflexivity].
  destruct (Z_le_dec (zlen p + 2) k) as [Hkp|Hkp].
  - rewrite Z.max_l by lia. rewrite X2, <- app_assoc by lia. apply (ifull_replace E other (topc s) old); [apply ioka|apply ioka|exact HWn| |exact C1]. rewrite X1, <- app_assoc in Hrow by lia. exact Hrow.
  - assert (pr = []) by (destruct Hpr as [Hpr|[Hpr1 _]]; [exact Hpr|lia]). subst pr. cbn [map] in *. rewrite app_nil_r in *. rewrite Z.max_r by lia. rewrite X3. eapply full_cover; [exact Hrow|exact C1|]. rewrite HWn. transitivity (IW (ipart (inl (line s)) (view s) (zlen p + 2))).
    + apply ipart_W; lia.
    + rewrite X1 by lia. rewrite Z.sub_diag. cbn [Z.to_nat firstn]. rewrite app_nil_r. lia.
Qed.
Lemma SwapChar_I s s' : G s -> TabScroll.swappable C s -> zlen (line s) <= cursor s + 1 \/ orderless K -> cmdSwapChar C s = Some s' -> R s s'.
Proof.
  intros HG (Hu & Hvv & Hww) HO H. pose proof HG as (((HR & Hv & Hcu) & Hfr) & Hn). assert (Zc : zlen (line s) = zlen (cells s)) by apply zlen_map. unfold cmdSwapChar in H. destruct (zlen (cells s) =? cursor s) eqn:Hend.
  - destruct (cursor s <? 2) eqn:Hc2; [injection H as <-; apply R_refl|]. opt H. cbn [cells push_undo set_undoes] in Ev0.
    apply swap_ref in Ev0. change (emojis (cells s)) with (line s) in Ev0. replace (cursor s - 1) with (cursor s - 2 + 1) in Ev0 by lia. apply aswap_shape in Ev0 as (p & a & b & q & Hl & Hl' & Hz).
    rewrite Hl in Hu. apply TabScreen.part_two in Hu as [Ta Tb]; [|lia|lia].
    assert (Hq : q = [] \/ orderless K).
    { left. assert (Hz2 : zlen (line s) = cursor s) by lia. rewrite Hl, !zlen_app, !zlen_cons in Hz2. change (zlen (@nil moji)) with 0 in Hz2. destruct q; [reflexivity|]. rewrite zlen_cons in Hz2. pose proof (zlen_nonneg q). lia. }
    refine (swap_row s _ s' p a b q HG Hl _ Ta Tb Hq _ _ _ _ _ _ _ H); [exact Hl'|lia|lia|..]; cbn [out view cursor topc termw suffix GotoHead emit set_cells push_undo set_undoes]; auto. lia.
  - destruct (cursor s <? 1) eqn:Hc2; [injection H as <-; apply R_refl|]. opt H. cbn [cells push_undo set_undoes] in Ev1.
    apply swap_ref in Ev1. change (emojis (cells s)) with (line s) in Ev1. replace (cursor s) with (cursor s - 1 + 1) in Ev1 at 2 by lia. apply aswap_shape in Ev1 as (p & a & b & q & Hl & Hl' & Hz).
    rewrite Hl in Hu. apply TabScreen.part_two in Hu as [Ta Tb]; [|lia|lia].
    assert (Hq : q = [] \/ orderless K).
    { destruct HO as [HO|HO]; [left|now right]. rewrite Hl, !zlen_app, !zlen_cons in HO. change (zlen (@nil moji)) with 0 in HO. destruct q; [reflexivity|]. rewrite zlen_cons in HO. pose proof (zlen_nonneg q). lia. }
    assert (Hw : (ViewWidth s <=? z) = false).
    { unfold GetWidthBetween in Ev0. cbn [cells view push_undo set_undoes] in Ev0. destruct (slice (cells s) (view s) (cursor s + 1)) as [d|] eqn:Hd; [|discriminate]. injection Ev0 as <-. rewrite (TabScroll.slice_fresh C s _ _ _ Hfr Hd). destruct Hww as [Hww|Hww]; lia. }
    cbv zeta in H. change (ViewWidth (GotoHead (set_cells (push_undo s (mkUndo (cursor s - 1) 2 s0)) l))) with (ViewWidth s) in H. rewrite Hw in H.
    refine (swap_row s _ s' p a b q HG Hl _ Ta Tb Hq _ _ _ _ _ _ _ H); [exact Hl'|lia|lia|..]; cbn [out view cursor topc termw suffix GotoHead emit set_cells push_undo set_undoes set_cursor]; auto. lia.
Qed.

Lemma exec_I c s s' r : G s -> (forall f, c <> CUser f) -> c <> CInterrupt ->
  (c = CSwapChar -> TabScroll.swappable C s /\ (zlen (line s) <= cursor s + 1 \/ orderless K)) ->
  exec C c s = Some (s', r) -> Room s' -> R s s' /\ G s'.
Proof.
  intros HG HU HI HS H HF. split; [|split; [|apply HF]; apply (TabScroll.exec_S C HE any c s s' r); [apply HG|exact HU|exact HI|intros Hc; now apply HS|exact H|apply HF]].
  destruct c; cbn [exec] in H; try (exfalso; now apply HI); try (exfalso; now apply (HU f));
    try (unfold continue_ in H; match type of H with (match ?o with Some _ => _ | None => _ end) = _ => destruct o as [s1|] eqn:Ho; [|discriminate] end; injection H as <- <-).
  - injection H as <- <-. apply R_refl.
  - apply R0_R. eapply BeginningOfLine_I; eauto.
  - eapply BackwardChar_I; eauto.
  - eapply EndOfLine_I; [split; [apply HG|apply HG]|exact Ho].
  - eapply ForwardChar_I; eauto.
  - eapply BackwardDelete_I; eauto.
  - apply R0_R. eapply DeleteChar_I; eauto.
  - unfold cmdDeleteOrAbort in H. destruct (0 <? zlen (cells s)).
    + opt H. injection H as <- <-. apply R0_R. eapply DeleteChar_I; eauto.
    + injection H as <- <-. apply R_refl.
  - eapply KillLine_I; eauto.
  - apply R0_R. now apply KillWhole_I.
  - apply R0_R. eapply WordRubout_I; eauto.
  - apply R0_R. eapply LineDiscard_I; eauto.
  - apply R0_R. eapply RepaintAll_I; eauto. intros m [Hm|[]]. discriminate.
  - apply R0_R. eapply RepaintAll_I; eauto. intros m [Hm|[]]. discriminate.
  - injection H as <- <-. apply R_refl.
  - unfold cmdYank in Ho. destruct (clip s); [|injection Ho as <-; apply R_refl]. apply R0_R. eapply Replace_I; eauto.
  - unfold cmdYankWithQuote in Ho. destruct (clip s); [|injection Ho as <-; apply R_refl]. apply R0_R. eapply Replace_I; eauto.
  - destruct (HS eq_refl). eapply SwapChar_I; eauto.
  - apply R0_R. eapply BackwardWord_I; eauto.
  - eapply ForwardWord_I; eauto.
  - eapply Undo_I; eauto.
  - eapply PreviousHistory_I; eauto.
  - eapply NextHistory_I; eauto.
  - injection H as <- <-. apply R_refl.
  - eapply selfInsert_I; eauto.
Qed.
End Screen.
