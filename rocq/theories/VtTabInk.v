(** The colours of the bytes when there are tabs and the line fits. *)
From Verif Require Import Base Utf8 Moji Color Prompt Buffer Commands KeyMap Session MojiFacts Spec SpecLib SpecTerm SpecScreen SpecPaint SpecInk SpecVt SpecTabScreen SpecVtTabs SpecTabInk SpecVtInk SpecVtTabInk
  Abs AbsRef AbsSess Plain Safe Reach SafetyFacts ColorFacts TermFacts TokFacts SingleLine VtFacts VtInk.
From Verif Require InkPaint InkProps TabScreen TokTabs VtTabs TabInkSess PaintFacts.
Ltac lia := unfold rune in *; Lia.lia.

Lemma um_heard S m : um S m -> heard_as_is m = true.
Proof.
  intros (r & -> & _ & _). unfold rune2moji. repeat (match goal with |- context [if ?b then _ else _] => destruct b end; try reflexivity).
Qed.
Lemma GS_line S x : TokTabs.GS S x -> Forall (fun m => heard_as_is m = true) (line (buf_of x)).
Proof.
  intros H. assert (K : Forall (um S) (line (buf_of x))) by (destruct x as [m s|s t e]; [destruct H as [(N & _) _]; apply N|exact H]).
  eapply Forall_impl; [|exact K]. intros m. apply um_heard.
Qed.
Lemma single_heard S es : single_editor S -> orderless (ccol (base S)) -> Forall (single_event S) es -> forall x, TokTabs.GS S x -> heard_run S es x.
Proof.
  intros HS HO. induction 1 as [|e es He Hes IH]; intros x HN; cbn [heard_run].
  - split; [|exact I]. exact (GS_line S x HN).
  - split; [exact (GS_line S x HN)|]. split.
    + destruct e as [k| | |]; try exact I. destruct x as [[| |]|]; try exact I. intros _. now right.
    + intros x' Hx'. apply IH. eapply TokTabs.step_GS; eauto.
Qed.
Lemma written_laid E l : forall c, Spec.written (laid E c l) = Spec.written l.
Proof. induction l as [|m l IH]; intros c; [reflexivity|]. destruct m; cbn [SpecTabScreen.laid]; unfold Spec.written in *; cbn [map concat flat_map]; rewrite ?IH; reflexivity. Qed.
Lemma laid_first E n : forall c l, firstn n (laid E c l) = laid E c (firstn n l).
Proof. induction n as [|n IH]; intros c [|m l]; try reflexivity. destruct m; cbn [laid firstn]; now rewrite IH. Qed.
Lemma laid_skip E n : forall c l, exists c', skipn n (laid E c l) = laid E c' (skipn n l).
Proof. induction n as [|n IH]; intros c [|m l]; try (now exists c). destruct m; cbn [laid skipn]; apply IH. Qed.
Lemma laid_len E l : forall c, List.length (laid E c l) = List.length l.
Proof. induction l as [|m l IH]; intros c; [reflexivity|]. destruct m; cbn [laid List.length]; now rewrite IH. Qed.
Lemma marked_laid E cur l c : marked cur (laid E c l) = marked cur l.
Proof.
  unfold marked, zlen. rewrite laid_len, laid_first, !written_laid. destruct (laid_skip E (Z.to_nat cur) c l) as [c' ->]. now rewrite written_laid.
Qed.
Lemma inked_laid E K cur l j m : nth_error (laid E 0 l) j = Some m ->
  exists k, nth_error (inked K cur (laid E 0 l)) j = Some (m, k) /\ exists m0, nth_error (inked K cur l) j = Some (m0, k).
Proof.
  intros H. assert (Hm : exists m0, nth_error l j = Some m0).
  { destruct (nth_error l j) as [m0|] eqn:Hn; [now exists m0|]. apply nth_error_None in Hn. rewrite <- (laid_len E l 0) in Hn. apply nth_error_None in Hn. congruence. }
  destruct Hm as [m0 Hm]. unfold inked. eexists. split; [exact (inked_from_nth K cur _ [] j m H)|]. exists m0. rewrite (inked_from_nth K cur _ [] j m0 Hm).
  cbn [app]. now rewrite laid_first, marked_laid.
Qed.

Lemma vt_tab_ink V worn S default cur w cl es x : single_editor S -> pcolor0 (base S) = [] -> SpecVtTabs.single_text (cE (base S)) default -> single_clip (cE (base S)) cl ->
  Forall (single_event S) es -> prompt_width (base S) + 3 < w < 9223372036854775808 ->
  blind (ccol (base S)) -> true_colours (ccol (base S)) ->
  (forall x0, start S default cur w cl = Some x0 -> calm_tabs S es x0 /\ heard_run S es x0) ->
  counts_like V (cE (base S)) ->
  ready_after V (fst (callPromptWriter (cE (base S)) (prompt (base S)))) -> ready_after V (last_line_prompt (prompt (base S))) ->
  readline S default cur w cl es = Some x ->
  forall lf c0, v_state (c_vt c0) = Ground -> 0 <= v_col (c_vt c0) ->
  vt_tab_colours V worn (base S) x (cbytes V worn (out_bytes (cE (base S)) lf (out (buf_of x))) c0).
Proof.
  intros HS HP0 Hd Hcl Hes Hw HB HT Hst CL HP1 HP2 H lf c0 Hv Hc0. pose proof (proj1 (proj2 HS)) as HW. pose proof (pw_nn S HW) as Hpn.
  assert (Hpw : pw S + 3 < w) by (unfold prompt_width in Hw; unfold pw in *; lia).
  assert (HPn : 0 <= pw S < 9223372036854775807) by lia.
  assert (HCo : pcolor0 (base S) <> [] -> colours_only V worn (pcolor0 (base S)) /\ colours_only V worn (pcolor1 (base S))) by (intros K; now rewrite HP0 in K).
  pose proof (TokTabs.readline_GS S HS default cur w cl es x Hpw Hd Hcl Hes H) as G.
  destruct x as [m s|s t e]; [|exact I]. destruct G as [(N & Ht & Hf) Hm]. cbn [buf_of].
  rewrite (ctoks_bytes V worn S HW CL lf HPn (conj HP1 HP2) HCo _ Hf).
  destruct (csim_end V worn S HW CL lf HPn (conj HP1 HP2) HCo (out s) c0 Hv Hc0 Hf) as [kk Q]. set (c := ctoks V worn S lf (out s) c0) in *.
  pose proof (TabInkSess.screen_ink_tabs S default cur w cl es (Running m s) HW (proj1 HS) HP0 HB HT Hst H (IT V S lf (out s) c0) (isc0 c0)) as R. cbn [buf_of] in R.
  pose proof (cs_row _ _ _ _ _ _ _ Q) as Q4. pose proof (cs_part _ _ _ _ _ _ _ Q) as Q5.
  set (sc := idisplay _ _ _ _) in *. destruct N as (N1 & _).
  assert (Norm : ishows_tabs (base S) s sc -> vt_tab_colours V worn (base S) (Running MNormal s) c).
  { intros (R1 & _). cbv zeta in R1. set (L := laid (cE (base S)) 0 (line s)) in *. change (Forall (um S) (line s)) in N1.
    assert (N2 : Forall (um S) (map erase (line s))).
    { apply Forall_map. eapply Forall_impl; [|exact N1]. cbn beta. intros y (r & -> & Hr). exists r. split; [|exact Hr].
      unfold rune2moji. repeat match goal with |- context [if ?b then _ else _] => destruct b end; reflexivity. }
    destruct (VtTabs.laid_ok V S HS CL (line s) N2 0 ltac:(lia)) as [L1 L2]. fold L in L1, L2.
    exists (look V L). split; [exact L2|]. split.
    - intros x Hx. rewrite <- Q4 by lia. rewrite R1 by exact Hx. rewrite iimage_fst, inked_fst. now apply (rend_image V S HW CL lf HPn (conj HP1 HP2)).
    - assert (Wf : forall n, vcolumns V (List.concat (firstn n (look V L))) = total_width (cE (base S)) (firstn n L)).
      { intros n. rewrite VtTabs.look_firstn. destruct (look_ok V S HW CL HPn (conj HP1 HP2) (firstn n L)) as (_ & W1 & _); [|exact W1]. now apply VtTabs.Forall_firstn. }
      intros i x ((Hi1 & Hi2) & Hx). rewrite !Wf in Hx. assert (Hm2 : exists m2, nth_error L (Z.to_nat i) = Some m2).
      { destruct (nth_error L (Z.to_nat i)) as [m2|] eqn:Hn; [now exists m2|]. apply nth_error_None in Hn. unfold zlen, look in Hi2. rewrite map_length in Hi2. lia. }
      destruct Hm2 as [m2 Hm2]. destruct (inked_laid (cE (base S)) (ccol (base S)) (cursor s) (line s) (Z.to_nat i) m2 Hm2) as (k & K1 & m0 & K2). fold L in K1.
      exists (m0, k). split; [exact K2|]. cbn [snd].
      replace (Z.to_nat (i + 1)) with (Datatypes.S (Z.to_nat i)) in Hx by lia.
      apply nth_error_split in K1 as (l1 & l2 & El & Hl). pose proof (f_equal (map fst) El) as E2. rewrite inked_fst, map_app in E2. cbn [map fst] in E2.
      assert (F1 : firstn (Z.to_nat i) L = map fst l1).
      { rewrite E2, <- Hl, <- (map_length fst l1), firstn_app, firstn_all, Nat.sub_diag. apply app_nil_r. }
      assert (F2 : firstn (Datatypes.S (Z.to_nat i)) L = map fst l1 ++ [m2]).
      { rewrite E2, <- Hl, <- (map_length fst l1), firstn_app. rewrite firstn_all2 by lia. f_equal. now replace (Datatypes.S (List.length (map fst l1)) - List.length (map fst l1))%nat with 1%nat by lia. }
      rewrite F1, F2, ScreenFacts.W_app in Hx. cbn [total_width map fold_right] in Hx. pose proof (total_nn (base S) (map fst l1) HW).
      apply (Q5 x (m2, k) (x - (topc s + total_width (cE (base S)) (map fst l1)))); [lia|]. rewrite R1 by lia. rewrite El. apply iimage_at; [exact HW|]. cbn [fst]. lia. }
  destruct m as [| |ss]; [exact (Norm R)|exact (Norm R)|exact I].
Qed.

(** * VimBatch *)
Lemma vim_tabs_from V worn C x c : ccol C = VimBatch -> Forall moji_valid (line (buf_of x)) ->
  vt_tab_colours V worn C x c -> vim_tabs_on_screen V x c.
Proof.
  intros HK HV H.
  assert (Norm : forall s, Forall moji_valid (line s) -> vt_tab_colours V worn C (Running MNormal s) c -> vim_tabs_on_screen V (Running MNormal s) c).
  { clear x HV H. intros s HV (gs & H1 & H2 & H3). exists gs. split; [exact H1|]. split; [exact H2|]. intros i x Hi. destruct (H3 i x Hi) as (u & U1 & U2). destruct Hi as ((Hi & _) & _).
    assert (Hm : exists m, nth_error (line s) (Z.to_nat i) = Some m).
    { destruct (nth_error (line s) (Z.to_nat i)) as [m|] eqn:Hn; [now exists m|]. apply nth_error_None in Hn. rewrite <- (inked_fst (ccol C) (cursor s) (line s)) in Hn. rewrite map_length in Hn. apply nth_error_None in Hn. congruence. }
    destruct Hm as [m Hm]. unfold inked in U1. rewrite (inked_from_nth _ _ _ [] _ _ Hm) in U1. injection U1 as <-. cbn [app snd stands_in] in U2. rewrite HK in U2.
    replace (Z.to_nat (i + 1)) with (Datatypes.S (Z.to_nat i)) by lia.
    assert (HV2 : Forall moji_valid (firstn (Datatypes.S (Z.to_nat i)) (line s))) by (rewrite <- (firstn_skipn (Datatypes.S (Z.to_nat i)) (line s)) in HV; now apply Forall_app in HV).
    rewrite (InkPaint.marked_blind VimBatch InkProps.vim_blind) in U2 by exact HV2. set (h := runes (Spec.written _)) in *.
    assert (Hh : h <> []).
    { unfold h. rewrite PaintFacts.runes_written by exact HV2. destruct (line s) as [|y l]; [now destruct (Z.to_nat i)|]. cbn [firstn flat_map]. pose proof (mrunes_nonempty y). destruct (mrunes y); [congruence|discriminate]. }
    destruct (exists_last Hh) as (a & r & Hr). rewrite Hr in *. unfold answer in U2. rewrite removelast_last, last_last in U2.
    destruct (vim_color_ok a r) as (codes & V1 & V2). destruct (U2 codes V2) as [q Hq]. now exists a, r, codes, q. }
  destruct x as [[| |ss] s|]; try exact I; exact (Norm s HV H).
Qed.
Lemma vt_tab_vim V S default cur w cl es x : single_editor S -> pcolor0 (base S) = [] -> SpecVtTabs.single_text (cE (base S)) default -> single_clip (cE (base S)) cl ->
  Forall (single_event S) es -> prompt_width (base S) + 3 < w < 9223372036854775808 ->
  ccol (base S) = VimBatch ->
  (forall x0, start S default cur w cl = Some x0 -> calm_tabs S es x0) ->
  counts_like V (cE (base S)) ->
  ready_after V (fst (callPromptWriter (cE (base S)) (prompt (base S)))) -> ready_after V (last_line_prompt (prompt (base S))) ->
  readline S default cur w cl es = Some x ->
  forall worn lf c0, v_state (c_vt c0) = Ground -> 0 <= v_col (c_vt c0) ->
  vim_tabs_on_screen V x (cbytes V worn (out_bytes (cE (base S)) lf (out (buf_of x))) c0).
Proof.
  intros HS HP0 Hd Hcl Hes Hw HK Hst CL HP1 HP2 H worn lf c0 Hv Hc0. apply (vim_tabs_from V worn (base S)); [exact HK| |].
  - apply (reached_valid S x); [apply builtin_scripted, HS|]. now exists default, cur, w, cl, es.
  - apply (vt_tab_ink V worn S default cur w cl es x); auto; [rewrite HK; apply InkProps.vim_blind|rewrite HK; apply InkProps.vim_true|].
    intros x0 Hx. split; [now apply Hst|]. apply single_heard; auto; [rewrite HK; exact InkProps.vim_orderless|].
    pose proof (pw_nn S (proj1 (proj2 HS))) as Hpn. eapply TokTabs.start_GS; eauto. unfold prompt_width in Hw. unfold pw in *. lia.
Qed.
