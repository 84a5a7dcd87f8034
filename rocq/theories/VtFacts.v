(** The terminal of SpecVt.v follows the one of SpecScreen.v when it is given the bytes of
    the tokens. *)
From Verif Require Import Base Utf8 Moji Color Prompt Buffer Commands KeyMap Session MojiFacts Spec SpecLib SpecTerm SpecScreen SpecVt
  Abs AbsRef AbsSess Plain Safe Reach SafetyFacts ColorFacts TermFacts ScreenSimple TokFacts.
From Verif Require SpecEtiq EtiqFacts PaintFacts ScreenProps TokTabs.
Ltac lia := unfold rune in *; Lia.lia.

Section Vt.
Variable V : vterm.
Notation tw := (vt_width V).
Notation vrune := (vrune V).
Notation vbytes := (vbytes V).
Notation picture := (picture V).
Notation W := (vcolumns V).

Definition printable (r : rune) : Prop := control r = false /\ 1 <= tw r.

Lemma W_app a b : W (a ++ b) = W a + W b.
Proof. induction a as [|r a IH]; cbn [app vcolumns]; lia. Qed.
Lemma W_nonneg a : Forall printable a -> 0 <= W a.
Proof. induction 1 as [|r a [_ Hr] _ IH]; cbn [vcolumns]; lia. Qed.
Lemma picture_left rs : Forall printable rs -> forall c x, x < c -> picture c rs x = Empty.
Proof.
  induction 1 as [|r rs [_ Hr] _ IH]; intros c x Hx; cbn [SpecVt.picture]; [reflexivity|].
  replace (c <=? x) with false by lia. cbn. apply IH. lia.
Qed.
Lemma picture_shift rs d : forall c x, picture (c + d) rs (x + d) = picture c rs x.
Proof.
  induction rs as [|r rs IH]; intros c x; cbn [SpecVt.picture]; [reflexivity|].
  replace (c + d <=? x + d) with (c <=? x) by (apply Bool.eq_true_iff_eq; lia). replace (x + d <? c + d + tw r) with (x <? c + tw r) by (apply Bool.eq_true_iff_eq; lia).
  destruct (_ && _); [f_equal; lia|]. replace (c + d + tw r) with (c + tw r + d) by lia. apply IH.
Qed.
Lemma picture_zero rs c x : picture c rs x = picture 0 rs (x - c).
Proof. rewrite <- (picture_shift rs c 0 (x - c)). f_equal; lia. Qed.
Lemma picture_in a b : Forall printable a -> forall c x, x < c + W a -> Forall printable b -> picture c (a ++ b) x = picture c a x.
Proof.
  induction 1 as [|r a [_ Hr] Ha IH]; intros c x Hx Hb; cbn [app SpecVt.picture vcolumns] in *; [apply picture_left; [exact Hb|lia]|].
  destruct (_ && _); [reflexivity|]. apply IH; [lia|exact Hb].
Qed.
Lemma picture_out a b : Forall printable a -> forall c x, c + W a <= x -> picture c (a ++ b) x = picture (c + W a) b x.
Proof.
  induction 1 as [|r a [_ Hr] Ha IH]; intros c x Hx; cbn [app SpecVt.picture vcolumns] in *; [f_equal; lia|].
  pose proof (W_nonneg a Ha). replace (x <? c + tw r) with false by lia. rewrite andb_false_r. rewrite IH by lia. f_equal. lia.
Qed.
Lemma picture_char rs : Forall printable rs -> forall c x r i, picture c rs x = Char r i -> c <= x - i /\ x - i + tw r <= c + W rs /\ 0 <= i < tw r.
Proof.
  induction 1 as [|r0 rs [_ Hr] Hrs IH]; intros c x r i H; cbn [SpecVt.picture vcolumns] in *; [discriminate|].
  pose proof (W_nonneg rs Hrs). destruct ((c <=? x) && (x <? c + tw r0)) eqn:Hc.
  - injection H as <- <-. lia.
  - apply IH in H. lia.
Qed.

(** [v'] is [v] after the characters [rs] were written from its column on. *)
Record written (rs : list rune) (v v' : vt) : Prop := {
  wr_state : v_state v' = Ground;
  wr_shown : v_shown v' = v_shown v;
  wr_col : v_col v' = v_col v + W rs;
  wr_in : forall x, v_col v <= x < v_col v + W rs -> v_row v' x = picture (v_col v) rs x;
  wr_empty : forall x, x < v_col v \/ v_col v + W rs <= x -> v_row v x = Empty -> v_row v' x = Empty;
  wr_char : forall x r i, x < v_col v \/ v_col v + W rs <= x -> v_row v x = Char r i -> x - i + tw r <= v_col v \/ v_col v + W rs <= x - i -> v_row v' x = Char r i
}.

Lemma written_one r v : v_state v = Ground -> 0 <= v_col v -> printable r -> written [r] v (vrune v r).
Proof.
  intros Hs Hc [Hi Hw]. assert (Hn : r <> 27 /\ r <> 7 /\ r <> 8) by (repeat split; intros ->; discriminate). destruct Hn as (N1 & N2 & N3).
  unfold SpecVt.vrune, effect, next_state. rewrite Hs. replace (r =? 27) with false by lia. replace (r =? 7) with false by lia. replace (r =? 8) with false by lia.
  rewrite Hi. replace (tw r <=? 0) with false by lia. cbn [orb].
  split; cbn [with_state vprint at_col with_row v_state v_shown v_saved v_col v_row vcolumns SpecVt.picture]; try reflexivity.
  - lia.
  - intros x Hx. replace ((v_col v <=? x) && (x <? v_col v + tw r)) with true by lia. reflexivity.
  - intros x Hx He. replace ((v_col v <=? x) && (x <? v_col v + tw r)) with false by lia. now rewrite He.
  - intros x r' i Hx He Hd. replace ((v_col v <=? x) && (x <? v_col v + tw r)) with false by lia. rewrite He.
    replace ((x - i <? v_col v + tw r) && (v_col v <? x - i + tw r')) with false by lia. reflexivity.
Qed.
Lemma saved_one r v : v_state v = Ground -> printable r -> v_saved (vrune v r) = v_saved v.
Proof.
  intros Hs [Hi Hw]. assert (Hn : r <> 27 /\ r <> 7 /\ r <> 8) by (repeat split; intros ->; discriminate). destruct Hn as (N1 & N2 & N3).
  unfold SpecVt.vrune, effect, next_state. rewrite Hs. replace (r =? 27) with false by lia. replace (r =? 7) with false by lia. replace (r =? 8) with false by lia.
  rewrite Hi. replace (tw r <=? 0) with false by lia. reflexivity.
Qed.
Lemma written_app a b v v1 v2 : Forall printable a -> Forall printable b -> written a v v1 -> written b v1 v2 -> written (a ++ b) v v2.
Proof.
  intros Ha Hb [A1 A2 A4 A5 A6 A7] [B1 B2 B4 B5 B6 B7]. pose proof (W_nonneg a Ha). pose proof (W_nonneg b Hb).
  split; rewrite ?W_app; try congruence; [lia| | |].
  - intros x Hx. destruct (Z_lt_dec x (v_col v + W a)) as [Hl|Hl].
    + rewrite picture_in by auto. rewrite <- A5 by lia. destruct (v_row v1 x) as [|r i] eqn:Hr; [apply B6; [lia|exact Hr]|].
      apply B7; [lia|exact Hr|]. rewrite A5 in Hr by lia. apply picture_char in Hr; [|exact Ha]. lia.
    + rewrite picture_out by (auto; lia). rewrite B5 by lia. now rewrite A4.
  - intros x Hx He. apply B6; [lia|]. apply A6; [lia|exact He].
  - intros x r i Hx He Hd. apply B7; [lia| |lia]. apply A7; [lia|exact He|lia].
Qed.
Lemma written_nil v : v_state v = Ground -> written [] v v.
Proof. intros H. split; cbn; auto; lia. Qed.
Lemma written_list rs : Forall printable rs -> forall v, v_state v = Ground -> 0 <= v_col v -> written rs v (fold_left vrune rs v).
Proof.
  induction 1 as [|r rs Hr Hrs IH]; intros v Hs Hc; [now apply written_nil|]. cbn [fold_left].
  pose proof (written_one r v Hs Hc Hr) as H1. change (r :: rs) with ([r] ++ rs). eapply written_app; [now constructor|exact Hrs|exact H1|].
  apply IH; [apply H1|]. rewrite (wr_col _ _ _ H1). cbn. destruct Hr. lia.
Qed.
(** Two spaces, back, the character, on to the column after the spaces. *)
Lemma written_flag r v : tw 32 = 1 -> 1 <= tw r <= 2 -> control r = false -> v_state v = Ground -> 0 <= v_col v ->
  written (if tw r =? 1 then [r; 32] else [r]) v (fold_left vrune ([32; 32; 27; 55; 8; 8] ++ [r] ++ [27; 56]) v).
Proof.
  intros Hsp Hw Hi Hs Hc. assert (Psp : printable 32) by (split; [reflexivity|lia]). assert (Pr : printable r) by (split; [exact Hi|lia]).
  change (written (if tw r =? 1 then [r; 32] else [r]) v (fold_left vrune [27; 56] (vrune (fold_left vrune [27; 55; 8; 8] (fold_left vrune [32; 32] v)) r))).
  pose proof (written_list [32; 32] (Forall_cons _ Psp (Forall_cons _ Psp (Forall_nil _))) v Hs Hc) as H1. set (v1 := fold_left vrune [32; 32] v) in *. clearbody v1.
  set (v2 := fold_left vrune [27; 55; 8; 8] v1) in *.
  assert (E2 : v_state v2 = Ground /\ v_shown v2 = v_shown v /\ v_saved v2 = v_col v + 2 /\ v_col v2 = v_col v /\ v_row v2 = v_row v1).
  { pose proof (wr_state _ _ _ H1) as S1. pose proof (wr_shown _ _ _ H1) as S2. pose proof (wr_col _ _ _ H1) as S3. cbn [vcolumns] in S3.
    destruct v1 as [st c1 row1 sv1 sh1]. cbn [v_state v_col v_shown] in *. subst st. unfold v2.
    cbn [fold_left]. unfold SpecVt.vrune, effect, next_state. cbn. repeat split; first [exact S2|lia]. }
  clearbody v2. destruct E2 as (E1 & E2 & E3 & E4 & E5).
  pose proof (written_one r v2 E1 ltac:(lia) Pr) as H3. pose proof (saved_one r v2 E1 Pr) as T3. set (v3 := vrune v2 r) in *. clearbody v3.
  pose proof (wr_state _ _ _ H3) as T1. pose proof (wr_shown _ _ _ H3) as T2. 
  assert (E6 : fold_left vrune [27; 56] v3 = mkVt Ground (Z.max 0 (v_saved v3)) (v_row v3) (v_saved v3) (v_shown v3)).
  { destruct v3 as [st c3 row3 sv3 sh3]. cbn [v_state] in T1. subst st. reflexivity. }
  rewrite E6. clear E6. pose proof H1 as [_ _ _ A5 A6 A7]. pose proof H3 as [_ _ _ B5 B6 B7]. cbn [vcolumns] in A5, A6, A7, B5, B6, B7.
  assert (R : W (if tw r =? 1 then [r; 32] else [r]) = 2) by (destruct (Z.eqb_spec (tw r) 1); cbn [vcolumns]; lia).
  split; rewrite ?R; cbn [v_state v_shown v_saved v_col v_row]; try congruence.
  - lia.
  - intros x Hx. destruct (Z.eqb_spec (tw r) 1) as [H|H].
    + destruct (Z.eq_dec x (v_col v)) as [->|Hn].
      * rewrite B5 by lia. rewrite E4. cbn [SpecVt.picture]. now replace ((v_col v <=? v_col v) && (v_col v <? v_col v + tw r)) with true by lia.
      * cbn [SpecVt.picture]. replace ((v_col v <=? x) && (x <? v_col v + tw r)) with false by lia.
        replace ((v_col v + tw r <=? x) && (x <? v_col v + tw r + tw 32)) with true by lia.
        apply B7; [lia| |lia]. rewrite E5, A5 by lia. cbn [SpecVt.picture].
        replace ((v_col v <=? x) && (x <? v_col v + tw 32)) with false by lia.
        replace ((v_col v + tw 32 <=? x) && (x <? v_col v + tw 32 + tw 32)) with true by lia. f_equal. lia.
    + rewrite B5 by lia. now rewrite E4.
  - intros x Hx He. apply B6; [lia|]. rewrite E5. apply A6; [lia|exact He].
  - intros x r' i Hx He Hd. apply B7; [lia| |lia]. rewrite E5. apply A7; [lia|exact He|lia].
Qed.

(** * Sequences *)
Lemma ascii_encode l : Forall (fun r => 0 <= r < 128) l -> encode l = l /\ Forall (fun r => valid_rune r = true) l.
Proof.
  intros Hl. split; [|eapply Forall_impl; [|exact Hl]; cbn beta; intros r Hr; unfold valid_rune; lia].
  induction Hl as [|r l Hr _ IH]; [reflexivity|]. rewrite encode_cons, IH. unfold encode_rune.
  replace (valid_rune r) with true by (unfold valid_rune; lia). replace (r <? 128) with true by lia. reflexivity.
Qed.
Lemma ascii_runes l : Forall (fun r => 0 <= r < 128) l -> runes l = l /\ valid_utf8 l.
Proof.
  intros H. destruct (ascii_encode l H) as [H1 H2]. split; [rewrite <- H1 at 1; now apply runes_encode|].
  rewrite <- H1. now apply valid_utf8_encode.
Qed.
Definition param (r : rune) : Prop := 32 <= r <= 63.
Lemma feed_params ps : Forall param ps -> forall q v, v_state v = Csi q -> fold_left vrune ps v = with_state v (Csi (q ++ ps)).
Proof.
  induction 1 as [|r ps Hr Hps IH]; intros q v Hv; cbn [fold_left].
  - rewrite app_nil_r, <- Hv. now destruct v.
  - assert (H1 : vrune v r = with_state v (Csi (q ++ [r]))).
    { unfold SpecVt.vrune, effect, next_state. rewrite Hv. unfold param in Hr. now replace ((32 <=? r) && (r <=? 63)) with true by lia. }
    rewrite H1, (IH (q ++ [r])) by reflexivity. rewrite <- app_assoc. reflexivity.
Qed.
Lemma feed_csi ps f v : v_state v = Ground -> Forall param ps -> 64 <= f ->
  fold_left vrune ([27; 91] ++ ps ++ [f]) v = with_state (csi V ps f (with_state v (Csi ps))) Ground.
Proof.
  intros Hv Hps Hf. cbn [app fold_left]. assert (H1 : vrune (vrune v 27) 91 = with_state v (Csi [])).
  { destruct v as [st c row sv sh]. cbn in Hv. subst st. reflexivity. }
  rewrite H1, fold_left_app, (feed_params ps Hps []) by reflexivity. cbn [app fold_left].
  unfold SpecVt.vrune, effect, next_state. cbn [with_state v_state]. replace ((32 <=? f) && (f <=? 63)) with false by lia.
  reflexivity.
Qed.
Lemma param_ascii ps : Forall param ps -> Forall (fun r => 0 <= r < 128) ps.
Proof. apply Forall_impl. unfold param. intros. lia. Qed.
Lemma csi_bytes (ps : list Z) (f : Z) v : v_state v = Ground -> Forall param ps -> 64 <= f < 128 ->
  valid_utf8 ([27; 91] ++ ps ++ [f]) /\ vbytes ([27; 91] ++ ps ++ [f]) v = with_state (csi V ps f (with_state v (Csi ps))) Ground.
Proof.
  intros Hv Hps Hf. destruct (ascii_runes ([27; 91] ++ ps ++ [f])) as [H1 H2].
  { repeat (constructor; [lia|]). apply Forall_app. split; [now apply param_ascii|]. constructor; [lia|constructor]. }
  split; [exact H2|]. unfold SpecVt.vbytes. rewrite H1. apply feed_csi; auto. lia.
Qed.

(** * Units *)
Section Units.
Variable S : scfg.
Notation E := (cE (base S)).
Hypothesis HW : sane_widths E.
Hypothesis CL : counts_like V E.
Notation pm := (pm S).
Notation drawn := (TokTabs.drawn S).
Notation fineT := (TokTabs.fineT S).

Definition glyphs (m : moji) : list rune :=
  match m with
  | MRaw r | MReg r => [r]
  | MCtrl r => [94; r + 64]
  | MEsc r => [60] ++ hexX r ++ [62]
  | MFlag r => if tw r =? 1 then [r; 32] else [r]
  | MTab p => repeat 32 (Z.to_nat (4 - Z.rem p 4))
  | _ => []
  end.
Lemma ascii_printable l : Forall (fun r => 32 <= r < 127) l -> Forall printable l /\ W l = zlen l.
Proof.
  intros H. split.
  - eapply Forall_impl; [|exact H]. cbn beta. intros r Hr. split; [unfold control, in_range; lia|]. rewrite (cl_ascii _ _ CL); lia.
  - induction H as [|r l Hr _ IH]; [reflexivity|]. cbn [vcolumns]. rewrite IH, (cl_ascii _ _ CL), zlen_cons; lia.
Qed.
Definition unit_good (m : moji) : Prop :=
  Forall printable (glyphs m) /\ W (glyphs m) = width E m /\ (pm m -> appears V m (glyphs m)) /\
  exists b, print E m = Some b /\ valid_utf8 b /\ forall v, v_state v = Ground -> 0 <= v_col v -> written (glyphs m) v (vbytes b v).
Lemma unit_good_ascii m b : glyphs m = b -> Forall (fun r => 32 <= r < 127) b -> zlen b = width E m -> print E m = Some b -> appears V m b -> unit_good m.
Proof.
  intros Hg Hb Hw Hp Ha. unfold unit_good. rewrite Hg. destruct (ascii_printable b Hb) as [H1 H2]. destruct (ascii_runes b) as [H3 H4].
  { eapply Forall_impl; [|exact Hb]. cbn beta. intros. lia. }
  split; [exact H1|]. split; [rewrite H2; exact Hw|]. split; [intros _; exact Ha|]. exists b. split; [exact Hp|]. split; [exact H4|].
  intros v Hv Hc. unfold SpecVt.vbytes. rewrite H3. now apply written_list.
Qed.
Lemma unit_good_rune m r : valid_rune r = true -> glyphs m = [r] -> printable r -> tw r = width E m -> print E m = Some (encode_rune r) -> appears V m [r] -> unit_good m.
Proof.
  intros Hv Hg Hr Hw Hp Ha. unfold unit_good. rewrite Hg. split; [now constructor|]. split; [cbn; lia|]. split; [intros _; exact Ha|].
  exists (encode_rune r). split; [exact Hp|]. split; [apply valid_utf8_encode_rune|]. intros v Hs Hc. unfold SpecVt.vbytes.
  rewrite rune_runes by exact Hv. apply written_list; auto.
Qed.
Lemma unit_good_flag r : valid_rune r = true -> 1 <= tw r <= 2 -> control r = false -> unit_good (MFlag r).
Proof.
  intros Hv Hw Hi. assert (Hsp : tw 32 = 1) by (apply CL; lia). assert (Psp : printable 32) by (split; [reflexivity|lia]). assert (Pr : printable r) by (split; [exact Hi|lia]).
  split; [cbn [glyphs]; destruct (tw r =? 1); repeat (apply Forall_cons; [assumption|]); apply Forall_nil|].
  split; [cbn [glyphs width]; destruct (Z.eqb_spec (tw r) 1); cbn [vcolumns]; lia|]. split; [intros _; reflexivity|].
  exists (saveCursorAfterN 2 ++ encode_rune r ++ restoreCursor). split; [reflexivity|].
  destruct (ascii_encode [32; 32; 27; 55; 8; 8]) as [A1 A2]; [repeat constructor; lia|]. destruct (ascii_encode [27; 56]) as [A3 A4]; [repeat constructor; lia|].
  assert (Eq : saveCursorAfterN 2 ++ encode_rune r ++ restoreCursor = encode ([32; 32; 27; 55; 8; 8] ++ [r] ++ [27; 56])).
  { rewrite !encode_app. change (saveCursorAfterN 2) with [32; 32; 27; 55; 8; 8]. change restoreCursor with [27; 56]. rewrite A1, A3. do 2 f_equal. cbn. now rewrite app_nil_r. }
  assert (Hall : Forall (fun r => valid_rune r = true) ([32; 32; 27; 55; 8; 8] ++ [r] ++ [27; 56])).
  { apply Forall_app. split; [exact A2|]. apply Forall_app. split; [now constructor|exact A4]. }
  rewrite Eq. split; [now apply valid_utf8_encode|]. intros v Hs Hc. unfold SpecVt.vbytes. rewrite runes_encode by exact Hall.
  now apply written_flag.
Qed.
Lemma pm_good m : pm m -> unit_good m.
Proof.
  intros (r & -> & (H9 & _) & Hv). pose proof Hv as Hv'. unfold valid_rune in Hv'. pose proof (proj1 HW r) as Hr0. unfold rune2moji, in_range.
  replace (r =? 9) with false by lia. destruct (r <? 32) eqn:E1.
  { apply (unit_good_ascii _ [94; r + 64]); try reflexivity; [repeat (constructor; [lia|]); constructor|].
    cbn [print]. rewrite Z.mod_small by lia. do 3 f_equal. lia. }
  destruct ((9472 <=? r) && (r <=? 9599) && amb_wide E) eqn:E2.
  { apply unit_good_flag; [exact Hv|apply CL; lia|unfold control, in_range; lia]. }
  destruct (isToBeEscaped E r) eqn:E3.
  { destruct (hexX_ok r ltac:(lia)) as (Hl & Hx & Hh). apply (unit_good_ascii _ ([60] ++ hexX r ++ [62])); try reflexivity.
    - constructor; [lia|]. apply Forall_app. split; [eapply Forall_impl; [|exact Hh]; unfold hex_char; cbn beta; lia|]. repeat constructor; lia.
    - rewrite !zlen_app. cbn [width]. change (zlen [60]) with 1. change (zlen [62]) with 1. lia.
    - exists (hexX r). auto. }
  unfold isToBeEscaped in E3. destruct ((127462 <=? r) && (r <=? 127487)) eqn:E4.
  { apply (unit_good_rune _ r); try reflexivity; [exact Hv| |cbn [width]; apply CL; lia].
    split; [unfold control, in_range; lia|]. rewrite (cl_flag _ _ CL); lia. }
  destruct ((119808 <=? r) && (r <=? 120831)) eqn:E5.
  { apply unit_good_flag; [exact Hv|apply CL; lia|unfold control, in_range; lia]. }
  destruct (r =? 127987) eqn:E6.
  { apply unit_good_flag; [exact Hv|apply CL; lia|unfold control, in_range; lia]. }
  assert (Hi : control r = false). { destruct (control r) eqn:Hi; [|reflexivity]. unfold control, in_range in Hi. pose proof (cl_control _ _ CL r). lia. }
  assert (Ht : tw r = rw E r). { destruct (cl_rune _ _ CL r Hi) as [H|H]; [lia|exact H|]. destruct (amb_wide E); lia. }
  apply (unit_good_rune _ r); try reflexivity; [exact Hv| |exact Ht]. split; [exact Hi|]. lia.
Qed.

Lemma tab_good p : 0 <= Z.rem p 4 -> unit_good (MTab p).
Proof.
  intros Hp. assert (Hp4 : Z.rem p 4 < 4) by (pose proof (Z.rem_bound_abs p 4 ltac:(lia)); lia). set (q := Z.rem p 4) in *.
  assert (Hb : Forall (fun r => 32 <= r < 127) (repeat 32 (Z.to_nat (4 - q)))).
  { apply Forall_forall. intros x Hx. apply repeat_spec in Hx. lia. }
  assert (Hpr : print E (MTab p) = Some (repeat 32 (Z.to_nat (4 - q)))).
  { cbn [print]. fold q. assert (K : q = 0 \/ q = 1 \/ q = 2 \/ q = 3) by lia. destruct K as [->|[->|[->| ->]]]; reflexivity. }
  destruct (ascii_printable _ Hb) as [H1 H2]. destruct (ascii_runes (repeat 32 (Z.to_nat (4 - q)))) as [H3 H4].
  { eapply Forall_impl; [|exact Hb]. cbn beta. intros. lia. }
  split; [exact H1|]. split.
  { cbn [glyphs width]. fold q. rewrite H2. unfold zlen. rewrite repeat_length. lia. }
  split.
  { intros (r & Hr & (H9 & _) & _). exfalso. assert (N : match rune2moji E r 0 with MTab _ => False | _ => True end); [|now rewrite <- Hr in N].
    unfold rune2moji. replace (r =? 9) with false by lia.
    destruct (r <? 32); [exact I|]. destruct (_ && _); [exact I|]. destruct (isToBeEscaped E r); [exact I|]. destruct (in_range r 127462 127487); [exact I|].
    destruct (in_range r 119808 120831); [exact I|]. destruct (r =? 127987); exact I. }
  exists (repeat 32 (Z.to_nat (4 - q))). split; [exact Hpr|]. split; [exact H4|]. intros v Hv Hc. unfold SpecVt.vbytes. rewrite H3. now apply written_list.
Qed.
Lemma drawn_good m : drawn m -> unit_good m.
Proof. intros [H|(p & -> & H)]; [now apply pm_good|now apply tab_good]. Qed.

(** * Sequences *)
Lemma vrune_nn v r : 0 <= v_col v -> 0 <= v_col (vrune v r).
Proof.
  intros H. unfold SpecVt.vrune. cbn [with_state v_col]. unfold effect, csi, unknown, vprint, verase.
  destruct (v_state v); repeat match goal with |- context [if ?b then _ else _] => destruct b end; cbn; lia.
Qed.
Lemma vrunes_nn rs : forall v, 0 <= v_col v -> 0 <= v_col (fold_left vrune rs v).
Proof. induction rs as [|r rs IH]; intros v H; cbn [fold_left]; [exact H|]. now apply IH, vrune_nn. Qed.
Lemma vbytes_nn b v : 0 <= v_col v -> 0 <= v_col (vbytes b v).
Proof. apply vrunes_nn. Qed.
Lemma vbytes_app a b v : valid_utf8 a -> vbytes (a ++ b) v = vbytes b (vbytes a v).
Proof. intros H. unfold SpecVt.vbytes. now rewrite runes_app_valid, fold_left_app. Qed.

Lemma str_eqb_refl (a : str) : str_eqb a a = true. Proof. now apply str_eqb_eq. Qed.

Variable lf : Z -> str.
Hypothesis HPn : 0 <= pw S < 9223372036854775807.
Hypothesis HPr : ready_after V (fst (callPromptWriter E (prompt (base S)))) /\ ready_after V (last_line_prompt (prompt (base S))).
Hypothesis HAt : pcolor0 (base S) <> [] -> attribute_only V (pcolor0 (base S)) /\ attribute_only V (pcolor1 (base S)).
Notation bytes t := (tok_bytes E lf t).

Lemma dec_digits c : 0 <= c < 100000000000000000000 -> decimal c (dec c).
Proof. intros H. unfold dec. replace (c <? 0) with false by lia. apply dec_loop_ok. exact H. Qed.
Lemma dec_param c : 0 <= c < 100000000000000000000 -> Forall param (dec c).
Proof. intros H. destruct (dec_digits c H) as (H1 & _). eapply Forall_impl; [|exact H1]. unfold digit, param. cbn beta. intros. lia. Qed.
Lemma write_params k : forall c, Forall param (color_write_loop k c).
Proof.
  assert (D : forall c, Forall param (dec (Z.land c colorCodeMask))).
  { intros c. apply dec_param. unfold colorCodeMask. rewrite land255. pose proof (Z.mod_pos_bound c 256 ltac:(lia)). lia. }
  induction k as [|k IH]; intros c; cbn [color_write_loop]; (apply Forall_app; split; [apply D|]); [constructor|].
  destruct k; [constructor|]. constructor; [unfold param; lia|]. apply IH.
Qed.

(** What each token does to the terminal. *)
Definition same (v v' : vt) : Prop := v_state v' = Ground /\ v_col v' = v_col v /\ forall x, v_row v' x = v_row v x.
Lemma goto_bytes v : v_state v = Ground -> 0 <= v_col v -> let v' := vbytes (bytes (TGoto (pw S + 1))) v in
  valid_utf8 (bytes (TGoto (pw S + 1))) /\ v_state v' = Ground /\ v_shown v' = v_shown v /\ v_col v' = pw S /\ forall x, v_row v' x = v_row v x.
Proof.
  intros Hv Hc v'. unfold v'. clear v'. cbn [tok_bytes]. destruct (dec_digits (pw S + 1) ltac:(lia)) as (D1 & _ & D2 & _).
  destruct (csi_bytes (dec (pw S + 1)) 71 v Hv (dec_param (pw S + 1) ltac:(lia)) ltac:(lia)) as [B1 B2]. split; [exact B1|]. rewrite B2. unfold csi.
  assert (A : all_digits (dec (pw S + 1)) = true).
  { apply forallb_forall. intros d Hd. eapply Forall_forall in D1; [|exact Hd]. unfold digit in D1. lia. }
  rewrite A, D2. cbn. repeat split. lia.
Qed.
Lemma erase_bytes v : v_state v = Ground -> let v' := vbytes (bytes TErase) v in
  valid_utf8 (bytes TErase) /\ v_state v' = Ground /\ v_shown v' = v_shown v /\ v_col v' = v_col v /\
  (forall x, v_col v <= x -> v_row v' x = Empty) /\ (forall x, v_row v x = Empty -> v_row v' x = Empty) /\
  (forall x r i, x < v_col v -> v_row v x = Char r i -> x - i + tw r <= v_col v -> v_row v' x = Char r i).
Proof.
  intros Hv v'. unfold v'. clear v'. destruct (csi_bytes [48] 75 v Hv ltac:(repeat constructor; unfold param; lia) ltac:(lia)) as [B1 B2].
  cbn [tok_bytes]. change [27; 91; 48; 75] with ([27; 91] ++ [48] ++ [75]). split; [exact B1|]. rewrite B2. unfold csi. cbn -[Z.leb Z.ltb]. repeat split.
  - intros x Hx. now replace (v_col v <=? x) with true by lia.
  - intros x Hx. rewrite Hx. now destruct (_ <=? _).
  - intros x r i Hx Hr Hd. rewrite Hr. replace (v_col v <=? x) with false by lia. now replace (v_col v <? x - i + tw r) with false by lia.
Qed.
Lemma color_bytes c v : v_state v = Ground -> valid_utf8 (bytes (TColor c)) /\ same v (vbytes (bytes (TColor c)) v) /\ v_shown (vbytes (bytes (TColor c)) v) = v_shown v.
Proof.
  intros Hv. cbn [tok_bytes]. unfold color_write. destruct (c <=? 0).
  - split; [apply valid_utf8_nil|]. split; [|reflexivity]. split; [exact Hv|]. split; reflexivity.
  - destruct (csi_bytes (color_write_loop (Z.to_nat (Z.land c colorCodeMask)) c) 109 v Hv (write_params _ _) ltac:(lia)) as [B1 B2].
    unfold color_body. split; [exact B1|]. rewrite B2. unfold csi. cbn. split; [|reflexivity]. split; [reflexivity|]. split; reflexivity.
Qed.
Lemma closed_ascii l : forallb (fun r => (0 <=? r) && (r <? 128)) l = true -> runes l = l /\ valid_utf8 l.
Proof. intros H. apply ascii_runes. apply Forall_forall. intros x Hx. eapply forallb_forall in H; [|exact Hx]. cbn beta in H. lia. Qed.
Lemma cursor_bytes (b : bool) v : v_state v = Ground -> 0 <= v_col v -> let t := if b then TCursorOn else TCursorOff in
  valid_utf8 (bytes t) /\ same v (vbytes (bytes t) v) /\ v_shown (vbytes (bytes t) v) = b.
Proof.
  intros Hv Hc t. unfold t, SpecVt.vbytes. destruct b; cbn [tok_bytes].
  - destruct (closed_ascii [27; 91; 63; 50; 53; 104; 27; 91; 115; 27; 91; 117] eq_refl) as [-> Hu]. split; [exact Hu|].
    destruct v as [st c row sv sh]. cbn in Hv, Hc. subst st. cbn. split; [|reflexivity]. split; [reflexivity|]. split; [cbn; lia|reflexivity].
  - destruct (closed_ascii [27; 91; 63; 50; 53; 108] eq_refl) as [-> Hu]. split; [exact Hu|].
    destruct v as [st c row sv sh]. cbn in Hv, Hc. subst st. cbn. split; [|reflexivity]. split; [reflexivity|]. split; reflexivity.
Qed.
Lemma plain_bytes t v : t = TBell \/ t = TFlush -> v_state v = Ground -> valid_utf8 (bytes t) /\ same v (vbytes (bytes t) v) /\ v_shown (vbytes (bytes t) v) = v_shown v.
Proof.
  intros Ht Hv. unfold SpecVt.vbytes. destruct Ht as [-> | ->]; cbn [tok_bytes].
  - destruct (closed_ascii [7] eq_refl) as [-> Hu]. split; [exact Hu|].
    destruct v as [st c row sv sh]. cbn in Hv. subst st. cbn. split; [|reflexivity]. split; [reflexivity|]. split; reflexivity.
  - split; [apply valid_utf8_nil|]. split; [|reflexivity]. split; [exact Hv|]. split; reflexivity.
Qed.
Lemma attr_bytes a v : fineT (TAttr a) -> v_state v = Ground -> 0 <= v_col v -> valid_utf8 (bytes (TAttr a)) /\ same v (vbytes (bytes (TAttr a)) v) /\ v_shown (vbytes (bytes (TAttr a)) v) = v_shown v.
Proof.
  intros [Hp Ha] Hv Hc. cbn [tok_bytes]. assert (G : attribute_only V a) by (destruct (HAt Hp) as [H1 H2]; destruct Ha as [->| ->]; assumption).
  destruct G as [G1 G2]. destruct (G2 v Hv Hc) as (K1 & K2 & K3 & K4). split; [exact G1|]. split; [split; auto|exact K2].
Qed.
Definition changing (t : tok) : bool := match t with TMoji _ | TErase | TPrompt _ | TClear | TNewline | TLineFeed _ => true | _ => false end.
Lemma other_bytes t v : fineT t -> match t with TPrompt _ | TClear | TNewline => True | _ => False end -> v_state v = Ground ->
  valid_utf8 (bytes t) /\ v_state (vbytes (bytes t) v) = Ground /\ v_shown (vbytes (bytes t) v) = v_shown v.
Proof.
  intros Hf Ht Hv. destruct t; try contradiction; cbn [tok_bytes].
  - cbn [TokTabs.fineT fine] in Hf. assert (G : ready_after V s) by (destruct HPr; destruct Hf as [->| ->]; assumption). destruct G as [G1 G2]. split; [exact G1|]. now apply G2.
  - unfold SpecVt.vbytes. destruct (closed_ascii [27; 91; 49; 59; 49; 72; 27; 91; 50; 74] eq_refl) as [-> Hu]. split; [exact Hu|].
    destruct v as [st c row sv sh]. cbn in Hv. subst st. cbn. split; reflexivity.
  - unfold SpecVt.vbytes. destruct (closed_ascii [10] eq_refl) as [-> Hu]. split; [exact Hu|].
    destruct v as [st c row sv sh]. cbn in Hv. subst st. cbn. split; reflexivity.
Qed.

Lemma fine_valid t : fineT t -> valid_utf8 (bytes t).
Proof.
  intros Hf. set (v := mkVt Ground 0 (fun _ => Empty) 0 true). assert (Hv : v_state v = Ground) by reflexivity. assert (Hc : 0 <= v_col v) by (cbn; lia).
  destruct t.
  - destruct (drawn_good m Hf) as (_ & _ & _ & b & Hb & Hu & _). cbn [tok_bytes]. now rewrite Hb.
  - now apply (color_bytes c v).
  - cbn [TokTabs.fineT fine] in Hf. subst. now apply (goto_bytes v).
  - now apply (erase_bytes v).
  - now apply (attr_bytes s v).
  - now apply (other_bytes (TPrompt s) v).
  - now apply (other_bytes TClear v).
  - now apply (other_bytes TNewline v).
  - apply (plain_bytes TBell v); auto.
  - now apply (cursor_bytes true v).
  - now apply (cursor_bytes false v).
  - contradiction.
  - apply (plain_bytes TFlush v); auto.
Qed.
Definition vtoks (ts : list tok) (v : vt) : vt := fold_left (fun v t => vbytes (bytes t) v) ts v.
Lemma vtoks_bytes ts : Forall fineT ts -> forall v, vbytes (out_bytes E lf ts) v = vtoks ts v.
Proof.
  induction 1 as [|t ts Ht Hts IH]; intros v; [reflexivity|]. unfold out_bytes in *. cbn [flat_map vtoks fold_left].
  rewrite vbytes_app by now apply fine_valid. apply IH.
Qed.
Lemma vtoks_snoc p t v : vtoks (p ++ [t]) v = vbytes (bytes t) (vtoks p v).
Proof. unfold vtoks. now rewrite fold_left_app. Qed.

(** The tokens up to the [n]-th that changes the row. *)
Fixpoint take (n : nat) (ts : list tok) : list tok :=
  match n with
  | O => []
  | Datatypes.S n' => match ts with [] => [] | t :: ts' => t :: take (if changing t then n' else n) ts' end
  end.
Fixpoint count (ts : list tok) : nat := match ts with [] => O | t :: ts' => if changing t then Datatypes.S (count ts') else count ts' end.
Lemma take_count p t q : changing t = true -> take (Datatypes.S (count p)) (p ++ t :: q) = p ++ [t].
Proof.
  intros Ht. induction p as [|u p IH]; cbn [count app take].
  - rewrite Ht. now destruct q.
  - destruct (changing u); now rewrite IH.
Qed.
Lemma count_app p q : count (p ++ q) = (count p + count q)%nat.
Proof. induction p as [|u p IH]; cbn [count app]; [reflexivity|]. destruct (changing u); now rewrite IH. Qed.

Definition of_cell (c : vcell) : slot := match c with Empty => Blank | Char r i => Old r i end.
Definition rend (sl : slot) : vcell := match sl with Blank => Empty | Old r i => Char r i | Part m i => picture 0 (glyphs m) i end.
Lemma rend_of c : rend (of_cell c) = c. Proof. now destruct c. Qed.

Section Sim.
Variable ts : list tok.
Variable v0 : vt.
Hypothesis Hv0 : v_state v0 = Ground.
Hypothesis Hc0 : 0 <= v_col v0.
Definition vs (n : nat) : vt := vtoks (take n ts) v0.
Definition counter (sc : screen) : nat := match row sc (-1) with Old n _ => Z.to_nat n | _ => O end.
Definition img (n : nat) (v : vt) (x : Z) : slot := if x =? -1 then Old (Z.of_nat n) 0 else of_cell (v_row v x).
Definition T : terminal := mkTerminal
  (fun _ sc => let n := Datatypes.S (counter sc) in mkScreen (v_col (vs n)) (img n (vs n)))
  (fun sc _ x => let n := Datatypes.S (counter sc) in img n (vs n) x).
Definition sc0 : screen := mkScreen (v_col v0) (img 0 v0).

Record sim (p : list tok) (sc : screen) (v : vt) : Prop := {
  si_state : v_state v = Ground;
  si_col : col sc = v_col v;
  si_nn : 0 <= v_col v;
  si_row : forall x, 0 <= x -> rend (row sc x) = v_row v x;
  si_part : forall x m i, 0 <= x -> row sc x = Part m i -> drawn m /\ 0 <= i < width E m;
  si_count : row sc (-1) = Old (Z.of_nat (count p)) 0
}.
Lemma sim_start : sim [] sc0 v0.
Proof.
  split; auto; cbn [row sc0 img].
  - intros x Hx. unfold img. replace (x =? -1) with false by lia. apply rend_of.
  - intros x m i Hx. unfold img. replace (x =? -1) with false by lia. unfold of_cell. destruct (v_row v0 x); discriminate.
Qed.
Lemma img_rend n v x : 0 <= x -> rend (img n v x) = v_row v x.
Proof. intros Hx. unfold img. replace (x =? -1) with false by lia. apply rend_of. Qed.
Lemma img_part n v x m i : img n v x <> Part m i.
Proof. unfold img. destruct (x =? -1); [discriminate|]. unfold of_cell. destruct (v_row v x); discriminate. Qed.
Lemma counter_sim p sc v : sim p sc v -> counter sc = count p.
Proof. intros H. unfold counter. rewrite (si_count _ _ _ H). apply Nat2Z.id. Qed.
Lemma glyph_char m i r j : drawn m -> picture 0 (glyphs m) i = Char r j -> 0 <= i - j /\ i - j + tw r <= width E m.
Proof.
  intros Hm H. destruct (drawn_good m Hm) as (G1 & G2 & _). apply picture_char in H; [|exact G1]. lia.
Qed.
Lemma sim_step p t q sc : ts = p ++ t :: q -> fineT t -> sim p sc (vtoks p v0) -> sim (p ++ [t]) (display1 E T sc t) (vtoks (p ++ [t]) v0).
Proof.
  intros Hts Hf H. pose proof H as [S1 S2 S3 S4 S5 S6]. pose proof (counter_sim _ _ _ H) as Hn.
  assert (Hvs : changing t = true -> vs (Datatypes.S (counter sc)) = vtoks (p ++ [t]) v0).
  { intros Ht. unfold vs. rewrite Hn, Hts, take_count by exact Ht. reflexivity. }
  assert (Hcn : count (p ++ [t]) = if changing t then Datatypes.S (count p) else count p).
  { rewrite count_app. cbn [count]. destruct (changing t); lia. }
  rewrite vtoks_snoc in *. set (v := vtoks p v0) in *. clearbody v.
  assert (Same : changing t = false -> display1 E T sc t = sc -> same v (vbytes (bytes t) v) -> sim (p ++ [t]) (display1 E T sc t) (vbytes (bytes t) v)).
  { intros Ht -> (K1 & K2 & K3). split; [exact K1|congruence|lia| |exact S5|now rewrite Hcn, Ht]. intros x Hx. now rewrite S4, K3. }
  assert (Other : match t with TPrompt _ | TClear | TNewline => True | _ => False end -> sim (p ++ [t]) (t_other T t sc) (vbytes (bytes t) v)).
  { intros Ht. assert (Hct : changing t = true) by (destruct t; now try contradiction). destruct (other_bytes t v Hf Ht S1) as (_ & K1 & _).
    cbn [t_other T]. rewrite (Hvs Hct), Hn. split; cbn [col row]; auto.
    - now apply vbytes_nn.
    - intros x Hx. now apply img_rend.
    - intros x m i Hx Hi. now apply img_part in Hi.
    - rewrite Hcn, Hct. reflexivity. }
  destruct t as [m|c0|c1| |a|pr| | | | | |rc| ]; cbn [display1].
  - (* a unit *)
    destruct (drawn_good m Hf) as (G1 & G2 & _ & b & Hb & _ & G3). cbn [tok_bytes] in *. rewrite Hb in *. specialize (G3 v S1 S3). specialize (Hvs eq_refl). cbn [changing] in Hcn.
    set (v' := vbytes b v) in *. clearbody v'. pose proof (W_nonneg _ G1) as Hwn. destruct G3 as [R1 R2 R3 R4 R5 R6]. rewrite G2 in *.
    unfold put. rewrite S2. split; cbn [col row]; [exact R1|congruence|lia| | |].
    + intros x Hx. destruct ((v_col v <=? x) && (x <? v_col v + width E m)) eqn:Hin.
      * cbn [rend]. rewrite R4 by lia. rewrite (picture_zero _ (v_col v)). reflexivity.
      * specialize (S4 x Hx). destruct (row sc x) as [|m' i|r i] eqn:Hr; cbn [rend] in S4.
        -- cbn [rend]. symmetry. apply R5; [lia|congruence].
        -- match goal with |- context [if ?b then _ else Part _ _] => destruct b eqn:Hov end; [cbn [t_torn T]; rewrite Hvs; now apply img_rend|]. destruct (S5 x m' i Hx Hr) as [P1 P2]. cbn [rend].
           destruct (picture 0 (glyphs m') i) as [|r j] eqn:Hp; symmetry; [apply R5; [lia|congruence]|].
           pose proof (glyph_char _ _ _ _ P1 Hp). apply R6; [lia|congruence|lia].
        -- cbn [t_torn T]. rewrite Hvs. now apply img_rend.
    + intros x m' i Hx. destruct ((v_col v <=? x) && (x <? v_col v + width E m)) eqn:Hin.
      * intros [= <- <-]. split; [exact Hf|lia].
      * destruct (row sc x) as [|m1 i1|r i1] eqn:Hr; [discriminate| |].
        -- match goal with |- context [if ?b then _ else Part _ _] => destruct b end; [intros Hi; now apply img_part in Hi|]. intros [= <- <-]. now apply (S5 x).
        -- intros Hi. now apply img_part in Hi.
    + replace (v_col v <=? -1) with false by lia. cbn [andb]. rewrite S6. cbn [t_torn T]. rewrite Hcn, Hn. reflexivity.
  - apply Same; [reflexivity|reflexivity|]. now apply (color_bytes c0 v).
  - cbn [TokTabs.fineT fine] in Hf. subst c1. destruct (goto_bytes v S1 S3) as (_ & K1 & _ & K3 & K4). split; cbn [col row].
    + exact K1.
    + rewrite K3. lia.
    + rewrite K3. lia.
    + intros x Hx. now rewrite K4, S4.
    + exact S5.
    + now rewrite Hcn.
  - (* erasing *)
    destruct (erase_bytes v S1) as (_ & K1 & _ & K3 & K4 & K5 & K6). specialize (Hvs eq_refl). cbn [changing] in Hcn. set (v' := vbytes (bytes TErase) v) in *. clearbody v'.
    unfold erase_right. rewrite S2. split; cbn [col row]; [exact K1|congruence|lia| | |].
    + intros x Hx. destruct (v_col v <=? x) eqn:Hin; [cbn [rend]; symmetry; apply K4; lia|].
      specialize (S4 x Hx). destruct (row sc x) as [|m' i|r i] eqn:Hr; cbn [rend] in S4.
      * cbn [rend]. symmetry. apply K5. congruence.
      * match goal with |- context [if ?b then _ else Part _ _] => destruct b eqn:Hov end; [cbn [t_torn T]; rewrite Hvs; now apply img_rend|]. destruct (S5 x m' i Hx Hr) as [P1 P2]. cbn [rend].
        destruct (picture 0 (glyphs m') i) as [|r j] eqn:Hp; symmetry; [apply K5; congruence|].
        pose proof (glyph_char _ _ _ _ P1 Hp). apply K6; [lia|congruence|lia].
      * cbn [t_torn T]. rewrite Hvs. now apply img_rend.
    + intros x m' i Hx. destruct (v_col v <=? x) eqn:Hin; [discriminate|].
      destruct (row sc x) as [|m1 i1|r i1] eqn:Hr; [discriminate| |].
      * match goal with |- context [if ?b then _ else Part _ _] => destruct b end; [intros Hi; now apply img_part in Hi|]. intros [= <- <-]. now apply (S5 x).
      * intros Hi. now apply img_part in Hi.
    + replace (v_col v <=? -1) with false by lia. rewrite S6. cbn [t_torn T]. rewrite Hcn, Hn. reflexivity.
  - apply Same; [reflexivity|reflexivity|]. now apply (attr_bytes a v).
  - now apply Other.
  - now apply Other.
  - now apply Other.
  - apply Same; [reflexivity|reflexivity|]. apply (plain_bytes TBell v); auto.
  - apply Same; [reflexivity|reflexivity|]. now apply (cursor_bytes true v).
  - apply Same; [reflexivity|reflexivity|]. now apply (cursor_bytes false v).
  - contradiction.
  - apply Same; [reflexivity|reflexivity|]. apply (plain_bytes TFlush v); auto.
Qed.
Lemma sim_all q : forall p, ts = p ++ q -> Forall fineT q -> forall sc, sim p sc (vtoks p v0) -> sim ts (display E T q sc) (vtoks ts v0).
Proof.
  induction q as [|t q IH]; intros p Hts Hf sc H; [rewrite app_nil_r in Hts; now subst p|].
  inversion Hf; subst. cbn [display fold_left]. apply (IH (p ++ [t])); [now rewrite <- app_assoc|assumption|]. eapply sim_step; eauto.
Qed.
Lemma sim_end : Forall fineT ts -> sim ts (display E T ts sc0) (vtoks ts v0).
Proof. intros H. apply (sim_all ts []); [reflexivity|exact H|apply sim_start]. Qed.
End Sim.

(** * Whether the cursor is visible *)
Lemma shown_toks ts : Forall fineT ts -> forall v, v_state v = Ground -> 0 <= v_col v ->
  v_shown (vtoks ts v) = match SpecEtiq.cursor_shown ts with Some b => b | None => v_shown v end.
Proof.
  induction 1 as [|t ts Ht Hts IH]; intros v Hv Hc; [reflexivity|]. cbn [vtoks fold_left]. fold (vtoks ts (vbytes (bytes t) v)).
  assert (K : v_state (vbytes (bytes t) v) = Ground /\ v_shown (vbytes (bytes t) v) = match t with TCursorOn => true | TCursorOff => false | _ => v_shown v end).
  { destruct t.
    - destruct (drawn_good m Ht) as (_ & _ & _ & b & Hb & _ & G). cbn [tok_bytes]. rewrite Hb. destruct (G v Hv Hc) as [R1 R2 _ _ _ _]. auto.
    - destruct (color_bytes c v Hv) as (_ & (K1 & _) & K2). auto.
    - cbn [TokTabs.fineT fine] in Ht. subst. destruct (goto_bytes v Hv Hc) as (_ & K1 & K2 & _). auto.
    - destruct (erase_bytes v Hv) as (_ & K1 & K2 & _). auto.
    - destruct (attr_bytes s v Ht Hv Hc) as (_ & (K1 & _) & K2). auto.
    - now apply other_bytes.
    - now apply other_bytes.
    - now apply other_bytes.
    - destruct (plain_bytes TBell v) as (_ & (K1 & _) & K2); auto.
    - destruct (cursor_bytes true v Hv Hc) as (_ & (K1 & _) & K2). auto.
    - destruct (cursor_bytes false v Hv Hc) as (_ & (K1 & _) & K2). auto.
    - contradiction.
    - destruct (plain_bytes TFlush v) as (_ & (K1 & _) & K2); auto. }
  destruct K as [K1 K2]. rewrite IH; [|exact K1|now apply vbytes_nn]. rewrite K2. unfold SpecEtiq.cursor_shown. rewrite EtiqFacts.last_cons.
  destruct (SpecEtiq.last_of _ ts); [reflexivity|]. now destruct t.
Qed.

(** * Rows *)
Definition look (l : list moji) : list (list rune) := map glyphs l.
Lemma look_ok l : Forall drawn l -> Forall printable (List.concat (look l)) /\ W (List.concat (look l)) = total_width E l /\ (Forall pm l -> Forall2 (appears V) l (look l)).
Proof.
  induction 1 as [|m l Hm _ (H1 & H2 & H3)]; cbn [look map List.concat total_width fold_right].
  - split; [constructor|]. split; [reflexivity|]. intros _. constructor.
  - destruct (drawn_good m Hm) as (G1 & G2 & G3 & _). split; [now apply Forall_app|]. rewrite W_app. unfold total_width in H2. unfold look in *. split; [lia|]. intros Hp. inversion Hp; subst. constructor; auto.
Qed.
Lemma rend_image l : Forall drawn l -> forall c x, rend (image E c l x) = picture c (List.concat (look l)) x.
Proof.
  induction 1 as [|m l Hm Hl IH]; intros c x; [reflexivity|]. cbn [image look map List.concat].
  destruct (drawn_good m Hm) as (G1 & G2 & _). destruct (look_ok l Hl) as (L1 & _ & _).
  destruct ((c <=? x) && (x <? c + width E m)) eqn:Hin.
  - cbn [rend]. rewrite picture_in by (auto; lia). now rewrite (picture_zero _ c).
  - rewrite IH. pose proof (W_nonneg _ G1). destruct (Z_lt_dec x c).
    + rewrite !picture_left; auto; [|lia]. now apply Forall_app.
    + rewrite picture_out by (auto; lia). now rewrite G2.
Qed.
End Units.
End Vt.

Lemma mwc_nn C rs : let E := cE C in sane_widths E -> forall last lw wid cnt, 0 <= lw <= wid -> 0 <= fst (mwc E last lw wid cnt rs).
Proof.
  intros E.
  intros HW. assert (N : forall m, 0 <= width E m) by (intros; now apply PaintFacts.wn).
  induction rs as [|r|r n rs IH1 IH2] using rune_list_ind; intros last lw wid cnt H.
  - cbn. lia.
  - destruct last as [m|]; [rewrite mwc_some1|rewrite mwc_none; cbn [mwc fst]; specialize (N (rune2moji E r wid)); lia].
    cbv zeta. repeat match goal with |- context [if ?b then _ else _] => destruct b end; cbn [mwc fst];
      match goal with |- context [width E ?m] => specialize (N m) end; lia.
  - destruct last as [m|]; [rewrite mwc_some2|rewrite mwc_none; apply IH2; specialize (N (rune2moji E r wid)); lia].
    cbv zeta. repeat match goal with |- context [if ?b then _ else _] => destruct b end; try apply IH1; try apply IH2;
      match goal with |- context [width E ?m] => specialize (N m) end; lia.
Qed.
Lemma pw_nn S : sane_widths (cE (base S)) -> 0 <= pw S.
Proof.
  intros HW. unfold pw, callPromptWriter. destruct (prompt (base S)) as [t|]; cbn [snd]; [|lia]. apply mwc_nn; [exact HW|lia].
Qed.
Lemma in_firstn {A} n (l : list A) y : In y (firstn n l) -> In y l.
Proof. intros H. rewrite <- (firstn_skipn n l). apply in_or_app. now left. Qed.
Lemma in_skipn {A} n (l : list A) y : In y (skipn n l) -> In y l.
Proof. intros H. rewrite <- (firstn_skipn n l). apply in_or_app. now right. Qed.
Lemma Forall_part (P : moji -> Prop) l a b : Forall P l -> Forall P (part l a b).
Proof. intros H. unfold part. apply Forall_forall. intros x Hx. eapply Forall_forall; [exact H|]. apply in_firstn in Hx. now apply in_skipn in Hx. Qed.
Lemma skipn_plus {A} n k (l : list A) : skipn (n + k) l = skipn n (skipn k l).
Proof. revert l. induction k as [|k IH]; intros l; [now rewrite Nat.add_0_r|]. rewrite Nat.add_succ_r. destruct l as [|y l]; [now rewrite !skipn_nil|]. cbn [skipn]. apply IH. Qed.
Lemma part_split l a b c : 0 <= a <= b -> b <= c -> part l a c = part l a b ++ part l b c.
Proof.
  intros Ha Hb. unfold part. replace (Z.to_nat (c - a)) with (Z.to_nat (b - a) + Z.to_nat (c - b))%nat by lia.
  replace (Z.to_nat b) with (Z.to_nat (b - a) + Z.to_nat a)%nat by lia. rewrite skipn_plus. generalize (skipn (Z.to_nat a) l) as q. intros q.
  generalize (Z.to_nat (b - a)) as n. intros n. revert q. induction n as [|n IH]; intros q; [reflexivity|]. destruct q as [|y q]; cbn [plus firstn skipn app]; [now rewrite firstn_nil|].
  f_equal. apply IH.
Qed.

Lemma vt_session V S default cur w cl es x : simple_editor S -> simple_text (cE (base S)) default -> simple_clip (cE (base S)) cl ->
  Forall (simple_event S) es -> 0 <= cur -> prompt_width (base S) + 11 < w < 9223372036854775808 ->
  (forall r, 0 <= r < 128 -> joins (cE (base S)) r = false) ->
  (forall x0, start S default cur w cl = Some x0 -> steady_run S es x0) ->
  counts_like V (cE (base S)) ->
  ready_after V (fst (callPromptWriter (cE (base S)) (prompt (base S)))) -> ready_after V (last_line_prompt (prompt (base S))) ->
  (pcolor0 (base S) <> [] -> attribute_only V (pcolor0 (base S)) /\ attribute_only V (pcolor1 (base S))) ->
  readline S default cur w cl es = Some x ->
  forall lf v0, v_state v0 = Ground -> 0 <= v_col v0 ->
  vt_right V (cE (base S)) x (vbytes V (out_bytes (cE (base S)) lf (out (buf_of x))) v0).
Proof.
  intros HS Hd Hcl Hes Hc Hw Hlow Hst CL HP1 HP2 HAt H lf v0 Hv Hc0. pose proof (proj1 (proj2 HS)) as HW. pose proof (pw_nn S HW) as Hpn.
  assert (Hpw : pw S + 11 < w) by (unfold prompt_width in Hw; unfold pw in *; lia).
  assert (HPn : 0 <= pw S < 9223372036854775807) by lia.
  pose proof (TokFacts.readline_GS S HS Hlow default cur w cl es x Hpw Hd Hcl Hes H) as G.
  destruct x as [m s|s t e]; [|exact I]. destruct G as [(N & Ht & Hf0) Hm]. cbn [buf_of].
  assert (Hf : Forall (TokTabs.fineT S) (out s)) by (eapply Forall_impl; [|exact Hf0]; apply TokTabs.fine_fineT).
  assert (Dr : forall l, Forall (pm S) l -> Forall (TokTabs.drawn S) l) by (intros l Hl; eapply Forall_impl; [|exact Hl]; intros; now left).
  assert (Hb : in_bounds s). { destruct (simple_safe S default cur w cl es HS Hd Hcl Hes Hc ltac:(lia)) as (x & Hx & Hb). rewrite H in Hx. now injection Hx as <-. }
  rewrite (vtoks_bytes V S HW CL lf HPn (conj HP1 HP2) HAt _ Hf).
  pose proof (sim_end V S HW CL lf HPn (conj HP1 HP2) HAt (out s) v0 Hv Hc0 Hf) as Q. set (v := vtoks V S lf (out s) v0) in *.
  pose proof (ScreenProps.screen_simple S default cur w cl es (Running m s) HS Hd Hcl Hes Hc ltac:(lia) Hst H (T V S lf (out s) v0) (sc0 v0)) as R. cbn [buf_of] in R.
  assert (Hsh : v_shown v = true).
  { unfold v. rewrite (shown_toks V S HW CL lf HPn (conj HP1 HP2) HAt _ Hf v0 Hv Hc0).
    assert (K : EtiqFacts.good S (Running m s)). { apply EtiqFacts.reached_good; [apply HS|]. now exists default, cur, w, cl, es. }
    destruct K as [_ ->]. reflexivity. }
  pose proof (si_state _ _ _ _ _ Q) as Q1. pose proof (si_col _ _ _ _ _ Q) as Q2. pose proof (si_row _ _ _ _ _ Q) as Q4.
  set (sc := display _ _ _ _) in *. destruct N as (N1 & _ & _ & _ & _ & N6).
  assert (Rows : forall l, Forall (pm S) l -> (forall x, topc s <= x -> row sc x = image (cE (base S)) (topc s) l x) -> vshows V s v (look V l)).
  { intros l Hl Hr x Hx. rewrite <- Q4 by lia. rewrite Hr by exact Hx. now apply rend_image, Dr. }
  assert (Norm : shown (cE (base S)) s sc -> v_state v = Ground /\ v_shown v = true /\ exists k pred before after,
      cursor s <= k <= zlen (line s) /\
      (pred = [] \/ cursor s = zlen (line s) /\ exists rest, suffix s = Some (pred ++ rest)) /\
      Forall2 (appears V) (part (line s) (view s) (cursor s)) before /\
      Forall2 (appears V) (part (line s) (cursor s) k ++ pred) after /\
      vshows V s v (before ++ after) /\
      v_col v = topc s + vcolumns V (List.concat before) /\
      vcolumns V (List.concat (before ++ after)) < ViewWidth s /\
      (k = zlen (line s) \/ ViewWidth s <= vcolumns V (List.concat (before ++ after)) + total_width (cE (base S)) (part (line s) k (k + 1)) + 2)).
  { intros (k & pred & R1 & R2 & R3 & R4 & R5 & R6). split; [exact Q1|]. split; [exact Hsh|].
    destruct Hb as [Hb1 Hb2]. change (Forall (pm S) (line s)) in N1.
    assert (Hpred : Forall (pm S) pred).
    { destruct R2 as [->|(_ & _ & rest & R2)]; [constructor|]. cbn in N6. rewrite R2 in N6. cbn [suflist] in N6. rewrite map_app in N6. apply Forall_app in N6 as [N6 _].
      apply Forall_forall. intros y Hy. rewrite Forall_forall in N6. rewrite (pm_erase S Hlow y); apply N6; now apply in_map. }
    rewrite (part_split (line s) (view s) (cursor s) k) in R3, R5 by lia. rewrite <- app_assoc in R3, R5.
    set (a := part (line s) (view s) (cursor s)) in *. set (b := part (line s) (cursor s) k ++ pred) in *.
    assert (Ha : Forall (pm S) a) by now apply Forall_part. assert (Hbb : Forall (pm S) b) by (apply Forall_app; split; [now apply Forall_part|exact Hpred]).
    destruct (look_ok V S HW CL HPn (conj HP1 HP2) a (Dr _ Ha)) as (A1 & A2 & A3). destruct (look_ok V S HW CL HPn (conj HP1 HP2) b (Dr _ Hbb)) as (B1 & B2 & B3).
    assert (Hab : Forall (pm S) (a ++ b)) by now apply Forall_app. destruct (look_ok V S HW CL HPn (conj HP1 HP2) _ (Dr _ Hab)) as (C1 & C2 & _).
    exists k, pred, (look V a), (look V b). split; [exact R1|]. split; [destruct R2 as [R2|(R2 & _ & R2')]; auto|]. split; [exact (A3 Ha)|]. split; [exact (B3 Hbb)|].
    assert (La : look V a ++ look V b = look V (a ++ b)) by (unfold look; now rewrite map_app). rewrite La.
    split; [now apply Rows|]. split; [rewrite A2, <- Q2; exact R4|]. split; [rewrite C2; exact R5|].
    destruct R6 as [R6|R6]; [now left|]. destruct (Z.eq_dec k (zlen (line s))) as [|Hk]; [now left|right].
    assert (pred = []) by (destruct R2 as [R2|(_ & R2 & _)]; [exact R2|lia]). subst pred. rewrite C2. unfold b. rewrite app_nil_r. unfold a. rewrite <- part_split by lia.
    rewrite (part_split (line s) (view s) k (k + 1)) in R6 by lia. rewrite ScreenFacts.W_app in R6. lia. }
  destruct m as [| |ss]; [exact (Norm R)|exact (Norm R)|].
  cbn [vt_right]. split; [exact Q1|]. split; [exact Hsh|]. destruct R as (n & R1 & R2 & R3). exists n, (look V (firstn n (StringToMoji (cE (base S)) (search_text ss)))).
  assert (Hl : Forall (pm S) (firstn n (StringToMoji (cE (base S)) (search_text ss)))).
  { apply Forall_forall. intros y Hy. apply in_firstn in Hy.
    assert (K : Forall (pm S) (map erase (StringToMoji (cE (base S)) (search_text ss)))) by (rewrite StringToMoji_units; now apply plain_units, plain_search).
    rewrite Forall_forall in K. rewrite (pm_erase S Hlow y); apply K; now apply in_map. }
  destruct (look_ok V S HW CL HPn (conj HP1 HP2) _ (Dr _ Hl)) as (A1 & A2 & A3). split; [exact (A3 Hl)|]. split; [now apply Rows|]. split; [rewrite A2; exact R2|exact R3].
Qed.
