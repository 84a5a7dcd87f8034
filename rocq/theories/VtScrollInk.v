(** The colours of the bytes when there are tabs and the line scrolls. *)
From Verif Require Import Base Utf8 Moji Color Prompt Buffer Commands KeyMap Session MojiFacts Spec SpecLib SpecTerm SpecScreen SpecPaint SpecInk SpecVt SpecTabScreen SpecVtTabs SpecTabScroll SpecVtScroll SpecScrollInk SpecVtInk SpecVtTabInk SpecVtScrollInk
  Abs AbsRef AbsSess Plain Safe Reach SafetyFacts ColorFacts TermFacts TokFacts SingleLine VtFacts VtInk VtTabInk.
From Verif Require InkPaint InkProps TabScreen TokTabs VtTabs VtScroll ScrollInkSess TabScrollSess PaintFacts.
Ltac lia := unfold rune in *; Lia.lia.

Lemma nth_ipart l a b i u : 0 <= a -> 0 <= i -> nth_error (ipart l a b) (Z.to_nat i) = Some u -> a + i < b /\ nth_error l (Z.to_nat (a + i)) = Some u.
Proof.
  intros Ha Hi H. assert (Hl : (Z.to_nat i < Z.to_nat (b - a))%nat).
  { assert (H2 : nth_error (ipart l a b) (Z.to_nat i) <> None) by congruence. apply nth_error_Some in H2. unfold ipart in H2. rewrite firstn_length in H2. lia. }
  split; [lia|]. unfold ipart in H. rewrite <- (firstn_skipn (Z.to_nat a) l). rewrite nth_error_app2 by (rewrite firstn_length; lia).
  rewrite <- (firstn_skipn (Z.to_nat (b - a)) (skipn (Z.to_nat a) l)). 
  destruct (Nat.le_gt_cases (List.length l) (Z.to_nat a)) as [Hx|Hx].
  - rewrite (skipn_all2 (n := Z.to_nat a)) in H by exact Hx. rewrite firstn_nil in H. now destruct (Z.to_nat i).
  - rewrite firstn_length, Nat.min_l by lia. replace (Z.to_nat (a + i) - Z.to_nat a)%nat with (Z.to_nat i) by lia. rewrite nth_error_app1; [exact H|].
    apply nth_error_Some. congruence.
Qed.

Definition running_view (x : sess) : Prop := match x with Running _ s => 0 <= view s | Finished _ _ _ => True end.
Lemma view_nn S default cur w cl es x : sane_widths (cE (base S)) -> only_builtin S ->
  (forall x0, start S default cur w cl = Some x0 -> calm_scroll S es x0) -> readline S default cur w cl es = Some x -> running_view x.
Proof.
  intros HW HB Hst H. destruct (TabScrollSess.readline_screen S HW (mkTerminal (fun _ sc => sc) (fun _ _ _ => Blank)) HB default cur w cl es x (mkScreen 0 (fun _ => Blank)) Hst H) as [G _].
  destruct x as [m s|s t e]; [|exact I]. destruct G as ((_ & Hv & _) & _). cbn. lia.
Qed.

Lemma vt_scroll_ink V worn S default cur w cl es x : single_editor S -> SpecVtTabs.single_text (cE (base S)) default -> single_clip (cE (base S)) cl ->
  Forall (single_event S) es -> prompt_width (base S) + 3 < w < 9223372036854775808 ->
  blind (ccol (base S)) -> true_colours (ccol (base S)) ->
  (forall x0, start S default cur w cl = Some x0 -> calm_scroll S es x0 /\ heard_run S es x0) ->
  counts_like V (cE (base S)) ->
  ready_after V (fst (callPromptWriter (cE (base S)) (prompt (base S)))) -> ready_after V (last_line_prompt (prompt (base S))) ->
  (pcolor0 (base S) <> [] -> colours_only V worn (pcolor0 (base S)) /\ colours_only V worn (pcolor1 (base S))) ->
  readline S default cur w cl es = Some x ->
  forall lf c0, v_state (c_vt c0) = Ground -> 0 <= v_col (c_vt c0) ->
  vt_scroll_colours V worn (base S) x (cbytes V worn (out_bytes (cE (base S)) lf (out (buf_of x))) c0).
Proof.
  intros HS Hd Hcl Hes Hw HB HT Hst CL HP1 HP2 HCo H lf c0 Hv Hc0. pose proof (proj1 (proj2 HS)) as HW. pose proof (pw_nn S HW) as Hpn.
  assert (Hpw : pw S + 3 < w) by (unfold prompt_width in Hw; unfold pw in *; lia).
  assert (HPn : 0 <= pw S < 9223372036854775807) by lia.
  pose proof (TokTabs.readline_GS S HS default cur w cl es x Hpw Hd Hcl Hes H) as G.
  pose proof (view_nn S default cur w cl es x HW (proj1 HS) (fun x0 Hx => proj1 (Hst x0 Hx)) H) as HVi.
  destruct x as [m s|s t e]; [|exact I]. destruct G as [(N & Ht & Hf) Hm]. cbn [buf_of running_view] in *.
  rewrite (ctoks_bytes V worn S HW CL lf HPn (conj HP1 HP2) HCo _ Hf).
  destruct (csim_end V worn S HW CL lf HPn (conj HP1 HP2) HCo (out s) c0 Hv Hc0 Hf) as [kk Q]. set (c := ctoks V worn S lf (out s) c0) in *.
  pose proof (ScrollInkSess.screen_ink_scroll S default cur w cl es (Running m s) HW (proj1 HS) HB HT Hst H (IT V S lf (out s) c0) (isc0 c0)) as R. cbn [buf_of] in R.
  pose proof (cs_row _ _ _ _ _ _ _ Q) as Q4. pose proof (cs_part _ _ _ _ _ _ _ Q) as Q5.
  set (sc := idisplay _ _ _ _) in *. destruct N as (N1 & _ & _ & _ & _ & N6). change (Forall (um S) (line s)) in N1.
  assert (Norm : ishows_scrolled (base S) s sc -> vt_scroll_colours V worn (base S) (Running MNormal s) c).
  { intros (k & pr & R0 & Rp & R1 & R2). cbv zeta in R1. set (L := laid (cE (base S)) 0 (line s)) in *.
    assert (N2 : Forall (um S) (map erase (line s))).
    { apply Forall_map. eapply Forall_impl; [|exact N1]. cbn beta. intros y (r & -> & Hr). exists r. split; [|exact Hr].
      unfold rune2moji. repeat match goal with |- context [if ?b then _ else _] => destruct b end; reflexivity. }
    destruct (VtTabs.laid_ok V S HS CL (line s) N2 0 ltac:(lia)) as [L1 L2]. fold L in L1, L2.
    set (us := ipart (inked (ccol (base S)) (cursor s) L) (view s) k ++ map (fun y => (y, Look (pcolor0 (base S)))) pr) in *.
    assert (Hus : map fst us = part L (view s) k ++ pr).
    { unfold us. rewrite map_app, InkPaint.ipart_fst, inked_fst, map_map. cbn [fst]. now rewrite map_id. }
    assert (At : forall l1 u l2 x, us = l1 ++ u :: l2 -> topc s + total_width (cE (base S)) (map fst l1) <= x < topc s + total_width (cE (base S)) (map fst l1) + width (cE (base S)) (fst u) ->
        TokTabs.drawn S (fst u) /\ stands_in V worn (snd u) (c_ink c x)).
    { intros l1 u l2 x El Hx. pose proof (total_nn (base S) (map fst l1) HW).
      destruct (Q5 x u (x - (topc s + total_width (cE (base S)) (map fst l1)))) as (A1 & _ & A2); [lia| |split; assumption].
      rewrite R1 by lia. rewrite El. apply iimage_at; [exact HW|]. exact Hx. }
    assert (Hpr : Forall (TokTabs.drawn S) pr).
    { assert (Un : Forall (um S) (map erase pr)).
      { destruct Rp as [-> | (_ & rest & Rp)]; [constructor|]. cbn in N6. rewrite Rp in N6. cbn [suflist] in N6. rewrite map_app in N6. now apply Forall_app in N6. }
      apply Forall_forall. intros y Hy. rewrite Forall_forall in Un. specialize (Un (erase y) (in_map _ _ _ Hy)).
      apply (VtTabs.um_cases S HS) in Un as [Un|(p & ->)]; [now left|]. apply in_split in Hy as (p1 & p2 & Ep).
      pose proof (TabScreen.rem4 p). assert (Hwd : 1 <= width (cE (base S)) (MTab p)) by (cbn [width]; lia).
      set (l1 := ipart (inked (ccol (base S)) (cursor s) L) (view s) k ++ map (fun y => (y, Look (pcolor0 (base S)))) p1).
      destruct (At l1 (MTab p, Look (pcolor0 (base S))) (map (fun y => (y, Look (pcolor0 (base S)))) p2) (topc s + total_width (cE (base S)) (map fst l1))) as (A1 & _); [|cbn [fst]; lia|exact A1].
      unfold us, l1. rewrite Ep, map_app, <- app_assoc. reflexivity. }
    assert (Hdr : Forall (TokTabs.drawn S) (map fst us)) by (rewrite Hus; apply Forall_app; split; [now apply VtScroll.Forall_part|exact Hpr]).
    assert (Hlk : stretch (look V L) (view s) k ++ look V pr = look V (map fst us)) by (rewrite Hus, VtScroll.look_stretch; unfold look; now rewrite map_app).
    exists (look V L), k, pr, (look V pr). split; [exact L2|]. split; [exact R0|]. split; [exact Rp|]. split; [now apply (VtTabs.look_tab V S HS CL)|]. rewrite Hlk. split.
    - intros x Hx. rewrite <- Q4 by lia. rewrite R1 by exact Hx. rewrite iimage_fst. now apply (rend_image V S HW CL lf HPn (conj HP1 HP2)).
    - assert (Wf : forall n, vcolumns V (List.concat (firstn n (look V (map fst us)))) = total_width (cE (base S)) (firstn n (map fst us))).
      { intros n. rewrite VtTabs.look_firstn. destruct (look_ok V S HW CL HPn (conj HP1 HP2) (firstn n (map fst us))) as (_ & W1 & _); [|exact W1]. now apply VtTabs.Forall_firstn. }
      intros i x ((Hi1 & Hi2) & Hx). rewrite !Wf in Hx. assert (Hm2 : exists u, nth_error us (Z.to_nat i) = Some u).
      { destruct (nth_error us (Z.to_nat i)) as [u|] eqn:Hn; [now exists u|]. apply nth_error_None in Hn. unfold zlen, look in Hi2. rewrite !map_length in Hi2. lia. }
      destruct Hm2 as [u Hu]. pose proof Hu as Hu2. replace (Z.to_nat (i + 1)) with (Datatypes.S (Z.to_nat i)) in Hx by lia.
      apply nth_error_split in Hu2 as (l1 & l2 & El & Hl). pose proof (f_equal (map fst) El) as E2. rewrite map_app in E2. cbn [map] in E2.
      assert (F1 : firstn (Z.to_nat i) (map fst us) = map fst l1).
      { rewrite E2, <- Hl, <- (map_length fst l1), firstn_app, firstn_all, Nat.sub_diag. apply app_nil_r. }
      assert (F2 : firstn (Datatypes.S (Z.to_nat i)) (map fst us) = map fst l1 ++ [fst u]).
      { rewrite E2, <- Hl, <- (map_length fst l1), firstn_app. rewrite firstn_all2 by lia. f_equal. now replace (Datatypes.S (List.length (map fst l1)) - List.length (map fst l1))%nat with 1%nat by lia. }
      rewrite F1, F2, ScreenFacts.W_app in Hx. cbn [total_width map fold_right] in Hx.
      destruct (At l1 u l2 x El ltac:(lia)) as [_ A2].
      assert (ZI : zlen (ipart (inked (ccol (base S)) (cursor s) L) (view s) k) = Z.max 0 (k - view s)).
      { assert (ZL : List.length (inked (ccol (base S)) (cursor s) L) = List.length (line s)) by (rewrite <- (map_length fst), inked_fst; apply laid_len).
        unfold ipart, zlen. rewrite firstn_length, skipn_length, ZL. unfold zlen in R0. lia. }
      unfold us in Hu. destruct (view s + i <? k) eqn:Hk.
      + rewrite nth_error_app1 in Hu by (unfold zlen in ZI; lia). apply nth_ipart in Hu as [_ Hu]; [|exact HVi|lia].
        assert (Hmm : exists m2, nth_error L (Z.to_nat (view s + i)) = Some m2).
        { destruct (nth_error L (Z.to_nat (view s + i))) as [m2|] eqn:Hn; [now exists m2|]. apply nth_error_None in Hn. rewrite <- (inked_fst (ccol (base S)) (cursor s) L), map_length in Hn. apply nth_error_None in Hn. congruence. }
        destruct Hmm as [m2 Hm2]. destruct (inked_laid (cE (base S)) (ccol (base S)) (cursor s) (line s) (Z.to_nat (view s + i)) m2 Hm2) as (q & K1 & m0 & K2). fold L in K1.
        exists (m0, q). split; [exact K2|]. rewrite Hu in K1. injection K1 as ->. exact A2.
      + rewrite nth_error_app2 in Hu by (unfold zlen in ZI; lia). apply nth_error_In in Hu. apply in_map_iff in Hu as (y & <- & _). exact A2. }
  destruct m as [| |ss]; [exact (Norm R)|exact (Norm R)|exact I].
Qed.

(** * VimBatch *)
Lemma vim_scroll_from V worn C x c : ccol C = VimBatch -> Forall moji_valid (line (buf_of x)) -> running_view x ->
  vt_scroll_colours V worn C x c -> vim_scroll_on_screen V worn C x c.
Proof.
  intros HK HV HVi H.
  assert (Norm : forall s, Forall moji_valid (line s) -> 0 <= view s -> vt_scroll_colours V worn C (Running MNormal s) c -> vim_scroll_on_screen V worn C (Running MNormal s) c).
  { clear x HV H HVi. intros s HV HVi (gs & k & pr & ps & H1 & H2 & H3 & H4 & H5 & H6). exists gs, k, pr, ps. split; [exact H1|]. split; [exact H2|]. split; [exact H3|]. split; [exact H4|]. split; [exact H5|].
    intros i x Hi. specialize (H6 i x Hi). destruct (view s + i <? k) eqn:Hk; [|exact H6]. destruct H6 as (u & U1 & U2). destruct Hi as ((Hi & _) & _).
    set (j := view s + i) in *. assert (Hj : 0 <= j) by lia.
    assert (Hm : exists m, nth_error (line s) (Z.to_nat j) = Some m).
    { destruct (nth_error (line s) (Z.to_nat j)) as [m|] eqn:Hn; [now exists m|]. apply nth_error_None in Hn. rewrite <- (inked_fst (ccol C) (cursor s) (line s)) in Hn. rewrite map_length in Hn. apply nth_error_None in Hn. congruence. }
    destruct Hm as [m Hm]. unfold inked in U1. rewrite (inked_from_nth _ _ _ [] _ _ Hm) in U1. injection U1 as <-. cbn [app snd stands_in] in U2. rewrite HK in U2.
    replace (Z.to_nat (j + 1)) with (Datatypes.S (Z.to_nat j)) by lia.
    assert (HV2 : Forall moji_valid (firstn (Datatypes.S (Z.to_nat j)) (line s))) by (rewrite <- (firstn_skipn (Datatypes.S (Z.to_nat j)) (line s)) in HV; now apply Forall_app in HV).
    rewrite (InkPaint.marked_blind VimBatch InkProps.vim_blind) in U2 by exact HV2. set (h := runes (Spec.written _)) in *.
    assert (Hh : h <> []).
    { unfold h. rewrite PaintFacts.runes_written by exact HV2. destruct (line s) as [|y l]; [now destruct (Z.to_nat j)|]. cbn [firstn flat_map]. pose proof (mrunes_nonempty y). destruct (mrunes y); [congruence|discriminate]. }
    destruct (exists_last Hh) as (a & r & Hr). rewrite Hr in *. unfold answer in U2. rewrite removelast_last, last_last in U2.
    destruct (vim_color_ok a r) as (codes & V1 & V2). destruct (U2 codes V2) as [q Hq]. now exists a, r, codes, q. }
  destruct x as [[| |ss] s|]; try exact I; exact (Norm s HV HVi H).
Qed.
Lemma vt_scroll_vim V worn S default cur w cl es x : single_editor S -> SpecVtTabs.single_text (cE (base S)) default -> single_clip (cE (base S)) cl ->
  Forall (single_event S) es -> prompt_width (base S) + 3 < w < 9223372036854775808 ->
  ccol (base S) = VimBatch ->
  (forall x0, start S default cur w cl = Some x0 -> calm_scroll S es x0) ->
  counts_like V (cE (base S)) ->
  ready_after V (fst (callPromptWriter (cE (base S)) (prompt (base S)))) -> ready_after V (last_line_prompt (prompt (base S))) ->
  (pcolor0 (base S) <> [] -> colours_only V worn (pcolor0 (base S)) /\ colours_only V worn (pcolor1 (base S))) ->
  readline S default cur w cl es = Some x ->
  forall lf c0, v_state (c_vt c0) = Ground -> 0 <= v_col (c_vt c0) ->
  vim_scroll_on_screen V worn (base S) x (cbytes V worn (out_bytes (cE (base S)) lf (out (buf_of x))) c0).
Proof.
  intros HS Hd Hcl Hes Hw HK Hst CL HP1 HP2 HCo H lf c0 Hv Hc0. apply (vim_scroll_from V worn (base S)); [exact HK| | |].
  - apply (reached_valid S x); [apply builtin_scripted, HS|]. now exists default, cur, w, cl, es.
  - exact (view_nn S default cur w cl es x (proj1 (proj2 HS)) (proj1 HS) Hst H).
  - apply (vt_scroll_ink V worn S default cur w cl es x); auto; [rewrite HK; apply InkProps.vim_blind|rewrite HK; apply InkProps.vim_true|].
    intros x0 Hx. split; [now apply Hst|]. apply single_heard; auto; [rewrite HK; exact InkProps.vim_orderless|].
    pose proof (pw_nn S (proj1 (proj2 HS))) as Hpn. eapply TokTabs.start_GS; eauto. unfold prompt_width in Hw. unfold pw in *. lia.
Qed.
