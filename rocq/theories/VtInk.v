(** The coloured terminal of SpecVtInk.v follows the one of SpecInk.v. *)
From Verif Require Import Base Utf8 Moji Color Prompt Buffer Commands KeyMap Session MojiFacts Spec SpecLib SpecTerm SpecScreen SpecPaint SpecInk SpecVt SpecVtInk
  Abs AbsRef AbsSess Plain Safe Reach SafetyFacts ColorFacts TermFacts ScreenSimple TokFacts VtFacts.
From Verif Require SpecEtiq EtiqFacts PaintFacts ScreenProps TokTabs InkProps.
Ltac lia := unfold rune in *; Lia.lia.

(** * The codes of a sequence *)
Lemma codes_digits d : Forall digit d -> forall n rest, codes_from n (d ++ rest) = codes_from (fold_left (fun v x => 10 * v + (x - 48)) d n) rest.
Proof.
  induction 1 as [|x d Hx _ IH]; intros n rest; [reflexivity|]. cbn [app codes_from fold_left]. unfold digit in Hx. replace (x =? 59) with false by lia. apply IH.
Qed.
Lemma codes_semicolons codes ds : Forall2 decimal codes ds -> codes <> [] -> codes_of (semicolons ds) = codes.
Proof.
  intros H Hn. unfold codes_of.
  assert (G : forall d n, decimal n d -> forall rest, codes_from 0 (d ++ rest) = codes_from n rest).
  { intros d n (D1 & _ & D3 & _) rest. rewrite codes_digits by exact D1. unfold digits_value in D3. now rewrite D3. }
  induction H as [|n d codes ds Hd Hds IH]; [now destruct Hn|]. clear Hn. destruct ds as [|d2 ds].
  - inversion Hds; subst. cbn [semicolons]. rewrite <- (app_nil_r d), (G d n Hd). reflexivity.
  - cbn [semicolons]. rewrite (G d n Hd). cbn [app codes_from Z.eqb Pos.eqb]. f_equal. apply IH. inversion Hds. discriminate.
Qed.

Section Vt.
Variable V : vterm.
Variable worn : vt -> rune -> Z -> list Z.
Notation tw := (vt_width V).
Notation crune := (crune V worn).
Notation cbytes := (cbytes V worn).
Notation W := (vcolumns V).
Notation printable := (printable V).

Lemma c_vt_runes rs : forall c, c_vt (fold_left crune rs c) = fold_left (vrune V) rs (c_vt c).
Proof. induction rs as [|r rs IH]; intros c; cbn [fold_left]; [reflexivity|]. now rewrite IH. Qed.
Lemma c_vt_bytes b c : c_vt (cbytes b c) = vbytes V b (c_vt c).
Proof. apply c_vt_runes. Qed.
Lemma cbytes_app a b c : valid_utf8 a -> cbytes (a ++ b) c = cbytes b (cbytes a c).
Proof. intros H. unfold SpecVtInk.cbytes. now rewrite runes_app_valid, fold_left_app. Qed.

Lemma picture_full rs : Forall printable rs -> forall c x, c <= x < c + W rs -> picture V c rs x <> Empty.
Proof.
  induction 1 as [|r rs [_ Hr] Hrs IH]; intros c x Hx; cbn [SpecVt.picture vcolumns] in *; [lia|].
  destruct ((c <=? x) && (x <? c + tw r)) eqn:Hin; [discriminate|]. apply IH. lia.
Qed.
(** [c'] is [c] after the characters [rs] were written from its column on. *)
Record inked_as (rs : list rune) (c c' : cvt) : Prop := {
  ia_pen : c_pen c' = c_pen c;
  ia_in : forall x, v_col (c_vt c) <= x < v_col (c_vt c) + W rs -> c_ink c' x = c_pen c;
  ia_out : forall x r i, x < v_col (c_vt c) \/ v_col (c_vt c) + W rs <= x -> v_row (c_vt c) x = Char r i ->
    x - i + tw r <= v_col (c_vt c) \/ v_col (c_vt c) + W rs <= x - i -> c_ink c' x = c_ink c x
}.
Lemma inked_one r c : v_state (c_vt c) = Ground -> printable r -> inked_as [r] c (crune c r).
Proof.
  intros Hs [Hi Hw]. assert (Hn : r <> 27 /\ r <> 7 /\ r <> 8) by (repeat split; intros ->; discriminate). destruct Hn as (N1 & N2 & N3).
  unfold SpecVtInk.crune. rewrite Hs. unfold touches. replace (r =? 27) with false by lia. replace (r =? 7) with false by lia. replace (r =? 8) with false by lia.
  rewrite Hi. replace (tw r <=? 0) with false by lia. cbn [orb].
  split; cbn [c_pen c_ink vcolumns]; [reflexivity| |].
  - intros x Hx. replace ((v_col (c_vt c) <=? x) && (x <? v_col (c_vt c) + tw r)) with true by lia. reflexivity.
  - intros x r' i Hx He Hd. replace ((v_col (c_vt c) <=? x) && (x <? v_col (c_vt c) + tw r)) with false by lia.
    unfold ends_before, begins_at. rewrite He. replace ((x - i + tw r' <=? v_col (c_vt c)) || (v_col (c_vt c) + tw r <=? x - i)) with true by lia. reflexivity.
Qed.
Lemma inked_app a b c c1 c2 : Forall printable a -> Forall printable b -> written V a (c_vt c) (c_vt c1) -> inked_as a c c1 -> inked_as b c1 c2 -> inked_as (a ++ b) c c2.
Proof.
  intros Ha Hb HA [A1 A2 A3] [B1 B2 B3]. pose proof (W_nonneg V a Ha). pose proof (W_nonneg V b Hb). pose proof (wr_col _ _ _ _ HA) as Hc.
  split; rewrite ?W_app; [congruence| |].
  - intros x Hx. destruct (Z_lt_dec x (v_col (c_vt c) + W a)) as [Hl|Hl].
    + rewrite <- (A2 x) by lia. destruct (v_row (c_vt c1) x) as [|r i] eqn:Hr.
      * rewrite (wr_in _ _ _ _ HA) in Hr by lia. exfalso. revert Hr. apply picture_full; [exact Ha|lia].
      * pose proof Hr as Hr'. rewrite (wr_in _ _ _ _ HA) in Hr' by lia. apply picture_char in Hr'; [|exact Ha]. apply (B3 x r i); [lia|exact Hr|lia].
    + rewrite (B2 x) by lia. exact A1.
  - intros x r i Hx He Hd. rewrite (B3 x r i); [|lia| |lia].
    + apply (A3 x r i); [lia|exact He|lia].
    + apply (wr_char _ _ _ _ HA); [lia|exact He|lia].
Qed.
Lemma inked_nil c : inked_as [] c c.
Proof. split; cbn; auto. lia. Qed.
Lemma inked_list rs : Forall printable rs -> forall c, v_state (c_vt c) = Ground -> 0 <= v_col (c_vt c) -> inked_as rs c (fold_left crune rs c).
Proof.
  induction 1 as [|r rs Hr Hrs IH]; intros c Hs Hc; [apply inked_nil|]. cbn [fold_left].
  pose proof (written_one V r (c_vt c) Hs Hc Hr) as H1. change (vrune V (c_vt c) r) with (c_vt (crune c r)) in H1.
  change (r :: rs) with ([r] ++ rs). eapply inked_app; [now constructor|exact Hrs|exact H1|now apply inked_one|].
  apply IH; [apply H1|]. rewrite (wr_col _ _ _ _ H1). cbn. destruct Hr. lia.
Qed.
(** Characters that leave the row and the codes alone. *)
Fixpoint quiet (p : parser) (rs : list rune) : bool :=
  match rs with
  | [] => true
  | r :: rs' => match touches V p r with Leaves => negb (r =? 109) && quiet (next_state p r) rs' | _ => false end
  end.
Lemma quiet_runes rs : forall c, quiet (v_state (c_vt c)) rs = true -> c_pen (fold_left crune rs c) = c_pen c /\ c_ink (fold_left crune rs c) = c_ink c.
Proof.
  induction rs as [|r rs IH]; intros c H; cbn [fold_left quiet] in *; [auto|].
  destruct (touches V (v_state (c_vt c)) r) eqn:Ht; try discriminate. apply andb_true_iff in H as [H1 H2]. apply negb_true_iff in H1.
  destruct (IH (crune c r) H2) as [I1 I2]. rewrite I1, I2. unfold SpecVtInk.crune. cbn [c_pen c_ink]. rewrite Ht, H1.
  split; [|reflexivity]. now destruct (v_state (c_vt c)).
Qed.
Lemma fold_flag {A} (f : A -> rune -> A) (r : rune) a :
  fold_left f ([32; 32; 27; 55; 8; 8] ++ [r] ++ [27; 56] : list rune) a = fold_left f [27; 56] (f (fold_left f [27; 55; 8; 8] (fold_left f [32; 32] a)) r).
Proof. reflexivity. Qed.
Lemma inked_flag r c : tw 32 = 1 -> 1 <= tw r <= 2 -> control r = false -> v_state (c_vt c) = Ground -> 0 <= v_col (c_vt c) ->
  inked_as (if tw r =? 1 then [r; 32] else [r]) c (fold_left crune ([32; 32; 27; 55; 8; 8] ++ [r] ++ [27; 56]) c).
Proof.
  intros Hsp Hw Hi Hs Hc. assert (Psp : printable 32) by (split; [reflexivity|lia]). assert (Pr : printable r) by (split; [exact Hi|lia]).
  rewrite fold_flag.
  assert (P2 : Forall printable [32; 32]) by (repeat constructor; assumption || lia).
  pose proof (written_list V [32; 32] P2 (c_vt c) Hs Hc) as H1. rewrite <- c_vt_runes in H1.
  pose proof (inked_list [32; 32] P2 c Hs Hc) as J1. set (c1 := fold_left crune [32; 32] c) in *. clearbody c1.
  set (c2 := fold_left crune [27; 55; 8; 8] c1) in *.
  assert (E2 : v_state (c_vt c2) = Ground /\ v_col (c_vt c2) = v_col (c_vt c) /\ v_row (c_vt c2) = v_row (c_vt c1) /\ c_pen c2 = c_pen c1 /\ c_ink c2 = c_ink c1).
  { pose proof (wr_state _ _ _ _ H1) as S1. pose proof (wr_col _ _ _ _ H1) as S3. cbn [vcolumns] in S3.
    destruct (quiet_runes [27; 55; 8; 8] c1) as [Q1 Q2]; [rewrite S1; reflexivity|]. fold c2 in Q1, Q2. rewrite Q1, Q2.
    unfold c2. rewrite c_vt_runes. destruct (c_vt c1) as [st k1 row1 sv1 sh1]. cbn [v_state v_col] in S1, S3. subst st.
    cbn [fold_left]. unfold vrune, effect, next_state. cbn. repeat split. lia. }
  clearbody c2. destruct E2 as (E1 & E4 & E5 & E6 & E7).
  pose proof (written_one V r (c_vt c2) E1 ltac:(lia) Pr) as H3. pose proof (inked_one r c2 E1 Pr) as J3. change (vrune V (c_vt c2) r) with (c_vt (crune c2 r)) in H3.
  set (c3 := crune c2 r) in *. clearbody c3. pose proof (wr_state _ _ _ _ H3) as T1.
  assert (E8 : c_pen (fold_left crune [27; 56] c3) = c_pen c3 /\ c_ink (fold_left crune [27; 56] c3) = c_ink c3).
  { apply quiet_runes. rewrite T1. reflexivity. }
  destruct E8 as [E8 E9]. destruct J1 as [A1 A2 A3]. destruct J3 as [B1 B2 B3]. cbn [vcolumns] in A2, A3, B2, B3.
  assert (R : W (if tw r =? 1 then [r; 32] else [r]) = 2) by (destruct (Z.eqb_spec (tw r) 1); cbn [vcolumns]; lia).
  split; rewrite ?R, ?E8, ?E9.
  - congruence.
  - intros x Hx. destruct (Z_lt_dec x (v_col (c_vt c) + tw r)) as [Hl|Hl]; [rewrite (B2 x) by lia; congruence|].
    pose proof (wr_in _ _ _ _ H1 x) as Q. cbn [vcolumns picture] in Q. specialize (Q ltac:(lia)).
    replace ((v_col (c_vt c) <=? x) && (x <? v_col (c_vt c) + tw 32)) with false in Q by lia.
    replace ((v_col (c_vt c) + tw 32 <=? x) && (x <? v_col (c_vt c) + tw 32 + tw 32)) with true in Q by lia.
    rewrite (B3 x _ _ ltac:(lia) ltac:(rewrite E5; exact Q) ltac:(lia)), E7. apply A2. lia.
  - intros x r' i Hx He Hd. rewrite (B3 x r' i); [|lia| |lia].
    + rewrite E7. apply (A3 x r' i); [lia|exact He|lia].
    + rewrite E5. apply (wr_char _ _ _ _ H1); [cbn [vcolumns]; lia|exact He|cbn [vcolumns]; lia].
Qed.

Section Units.
Variable S : scfg.
Notation E := (cE (base S)).
Hypothesis HW : sane_widths E.
Hypothesis CL : counts_like V E.
Notation pm := (pm S).
Notation drawn := (TokTabs.drawn S).
Notation fineT := (TokTabs.fineT S).
Notation glyphs := (glyphs V).

Definition comes_as (m : moji) : Prop := exists b, print E m = Some b /\
  (runes b = glyphs m \/ exists r, m = MFlag r /\ valid_rune r = true /\ control r = false /\ 1 <= tw r <= 2).
Lemma as_ascii m b : print E m = Some b -> glyphs m = b -> Forall (fun r => 0 <= r < 128) b -> comes_as m.
Proof. intros H1 H2 H3. exists b. split; [exact H1|left]. rewrite H2. now apply ascii_runes. Qed.
Lemma as_rune m r : print E m = Some (encode_rune r) -> glyphs m = [r] -> valid_rune r = true -> comes_as m.
Proof. intros H1 H2 H3. exists (encode_rune r). split; [exact H1|left]. rewrite H2. now apply rune_runes. Qed.
Lemma as_flag r : valid_rune r = true -> control r = false -> 1 <= tw r <= 2 -> comes_as (MFlag r).
Proof. intros H1 H2 H3. eexists. split; [reflexivity|right]. exists r. auto. Qed.
Lemma drawn_comes m : drawn m -> comes_as m.
Proof.
  intros [(r & -> & (H9 & _) & Hv)|(p & -> & Hp)].
  - pose proof Hv as Hv'. unfold valid_rune in Hv'. pose proof (proj1 HW r) as Hr0. unfold rune2moji, in_range.
    replace (r =? 9) with false by lia. destruct (r <? 32) eqn:E1.
    { apply (as_ascii _ [94; r + 64]); try reflexivity; [|repeat (constructor; [lia|]); constructor].
      cbn [print]. rewrite Z.mod_small by lia. do 3 f_equal. lia. }
    destruct ((9472 <=? r) && (r <=? 9599) && amb_wide E) eqn:E2.
    { apply as_flag; [exact Hv|unfold control, in_range; lia|apply CL; lia]. }
    destruct (isToBeEscaped E r) eqn:E3.
    { destruct (hexX_ok r ltac:(lia)) as (Hl & Hx & Hh). apply (as_ascii _ ([60] ++ hexX r ++ [62])); try reflexivity.
      constructor; [lia|]. apply Forall_app. split; [eapply Forall_impl; [|exact Hh]; unfold hex_char; cbn beta; lia|]. repeat constructor; lia. }
    destruct ((127462 <=? r) && (r <=? 127487)) eqn:E4; [now apply (as_rune _ r)|].
    destruct ((119808 <=? r) && (r <=? 120831)) eqn:E5.
    { apply as_flag; [exact Hv|unfold control, in_range; lia|apply CL; lia]. }
    destruct (r =? 127987) eqn:E6.
    { apply as_flag; [exact Hv|unfold control, in_range; lia|apply CL; lia]. }
    now apply (as_rune _ r).
  - assert (Hp4 : Z.rem p 4 < 4) by (pose proof (Z.rem_bound_abs p 4 ltac:(lia)); lia). set (q := Z.rem p 4) in *.
    apply (as_ascii _ (repeat 32 (Z.to_nat (4 - q)))); [|reflexivity|apply Forall_forall; intros x Hx; apply repeat_spec in Hx; lia].
    cbn [print]. fold q. assert (K : q = 0 \/ q = 1 \/ q = 2 \/ q = 3) by lia. destruct K as [->|[->|[->| ->]]]; reflexivity.
Qed.
Lemma drawn_inked m b c : drawn m -> print E m = Some b -> v_state (c_vt c) = Ground -> 0 <= v_col (c_vt c) -> inked_as (glyphs m) c (cbytes b c).
Proof.
  intros Hm Hb Hs Hc. destruct (drawn_comes m Hm) as (b' & Hb' & K). rewrite Hb in Hb'. injection Hb' as <-.
  destruct (drawn_good V S HW CL m Hm) as (G1 & _). unfold SpecVtInk.cbytes. destruct K as [-> |(r & -> & K1 & K2 & K3)]; [now apply inked_list|].
  pose proof (f_equal (fun o => match o with Some y => y | None => [] end) Hb) as Hb'. change (saveCursorAfterN 2 ++ encode_rune r ++ restoreCursor = b) in Hb'. rewrite <- Hb'. clear Hb'.
  destruct (ascii_encode [32; 32; 27; 55; 8; 8]) as [A1 A2]; [repeat constructor; lia|]. destruct (ascii_encode [27; 56]) as [A3 A4]; [repeat constructor; lia|].
  assert (Eq : saveCursorAfterN 2 ++ encode_rune r ++ restoreCursor = encode ([32; 32; 27; 55; 8; 8] ++ [r] ++ [27; 56])).
  { rewrite !encode_app. change (saveCursorAfterN 2) with [32; 32; 27; 55; 8; 8]. change restoreCursor with [27; 56]. rewrite A1, A3. do 2 f_equal. cbn. now rewrite app_nil_r. }
  rewrite Eq, runes_encode.
  - cbn [VtFacts.glyphs]. apply inked_flag; auto. apply CL. lia.
  - apply Forall_app. split; [exact A2|]. apply Forall_app. split; [now constructor|exact A4].
Qed.

(** * Sequences *)
Lemma cfeed_params ps : Forall param ps -> forall q c, v_state (c_vt c) = Csi q ->
  c_pen (fold_left crune ps c) = c_pen c /\ c_ink (fold_left crune ps c) = c_ink c.
Proof.
  induction 1 as [|r ps Hr Hps IH]; intros q c Hv; cbn [fold_left]; [auto|].
  unfold param in Hr. destruct (IH (q ++ [r]) (crune c r)) as [I1 I2].
  { unfold SpecVtInk.crune. cbn [c_vt]. unfold vrune, next_state. cbn [with_state v_state]. rewrite Hv. now replace ((32 <=? r) && (r <=? 63)) with true by lia. }
  rewrite I1, I2. unfold SpecVtInk.crune. cbn [c_pen c_ink]. rewrite Hv. unfold touches. replace ((32 <=? r) && (r <=? 63)) with true by lia.
  replace (r =? 109) with false by lia. auto.
Qed.
Lemma cfeed_csi ps f c : v_state (c_vt c) = Ground -> Forall param ps -> 64 <= f < 128 -> let c' := cbytes ([27; 91] ++ ps ++ [f]) c in
  c_pen c' = (if f =? 109 then c_pen c ++ codes_of ps else c_pen c) /\
  match csi_touch ps f with
  | Leaves => c_ink c' = c_ink c
  | Erases => forall x, ends_before V (c_vt c) (v_col (c_vt c)) x = true -> c_ink c' x = c_ink c x
  | _ => True
  end.
Proof.
  intros Hv Hps Hf c'. destruct (ascii_runes ([27; 91] ++ ps ++ [f])) as [H1 _].
  { repeat (constructor; [lia|]). apply Forall_app. split; [now apply param_ascii|]. constructor; [lia|constructor]. }
  unfold c', SpecVtInk.cbytes. rewrite H1. clear c' H1. cbn [app fold_left].
  set (c1 := crune (crune c 27) 91). assert (E1 : v_state (c_vt c1) = Csi [] /\ v_col (c_vt c1) = v_col (c_vt c) /\ v_row (c_vt c1) = v_row (c_vt c) /\ c_pen c1 = c_pen c /\ c_ink c1 = c_ink c).
  { destruct (quiet_runes [27; 91] c) as [Q1 Q2]; [rewrite Hv; reflexivity|]. pose proof (c_vt_runes [27; 91] c) as Q3. cbn [fold_left] in Q1, Q2, Q3. fold c1 in Q1, Q2, Q3.
    rewrite Q1, Q2, Q3. destruct (c_vt c) as [st k row sv sh]. cbn [v_state] in Hv. subst st. cbn. auto. }
  clearbody c1. destruct E1 as (E1 & E2 & E3 & E4 & E5). rewrite fold_left_app. destruct (cfeed_params ps Hps [] c1 E1) as [F1 F2].
  pose proof (c_vt_runes ps c1) as F3. rewrite (feed_params V ps Hps [] _ E1) in F3. set (c2 := fold_left crune ps c1) in *. clearbody c2.
  cbn [fold_left]. unfold SpecVtInk.crune. cbn [c_pen c_ink]. rewrite F3. cbn [with_state v_state app v_col v_row]. unfold touches.
  replace ((32 <=? f) && (f <=? 63)) with false by lia. split; [rewrite F1, E4; reflexivity|].
  destruct (csi_touch ps f); auto.
  - congruence.
  - intros x Hx. unfold ends_before in *. cbn [with_state v_row]. rewrite E2, E3, Hx. congruence.
Qed.

Variable lf : Z -> str.
Hypothesis HPn : 0 <= pw S < 9223372036854775807.
Hypothesis HPr : ready_after V (fst (callPromptWriter E (prompt (base S)))) /\ ready_after V (last_line_prompt (prompt (base S))).
Hypothesis HCo : pcolor0 (base S) <> [] -> colours_only V worn (pcolor0 (base S)) /\ colours_only V worn (pcolor1 (base S)).
Notation bytes t := (tok_bytes E lf t).
Lemma HAt : pcolor0 (base S) <> [] -> attribute_only V (pcolor0 (base S)) /\ attribute_only V (pcolor1 (base S)).
Proof. intros H. destruct (HCo H) as [[H1 _] [H2 _]]. auto. Qed.

Definition ctoks (ts : list tok) (c : cvt) : cvt := fold_left (fun c t => cbytes (bytes t) c) ts c.
Lemma c_vt_toks ts : forall c, c_vt (ctoks ts c) = vtoks V S lf ts (c_vt c).
Proof. induction ts as [|t ts IH]; intros c; [reflexivity|]. cbn [ctoks fold_left]. fold (ctoks ts (cbytes (bytes t) c)). rewrite IH, c_vt_bytes. reflexivity. Qed.
Lemma ctoks_bytes ts : Forall fineT ts -> forall c, cbytes (out_bytes E lf ts) c = ctoks ts c.
Proof.
  induction 1 as [|t ts Ht Hts IH]; intros c; [reflexivity|]. unfold out_bytes in *. cbn [flat_map ctoks fold_left].
  rewrite cbytes_app by (apply (fine_valid V S HW CL lf HPn HPr HAt); exact Ht). apply IH.
Qed.
Lemma ctoks_snoc p t c : ctoks (p ++ [t]) c = cbytes (bytes t) (ctoks p c).
Proof. unfold ctoks. now rewrite fold_left_app. Qed.

Definition after_ink (k : ink) (t : tok) : ink :=
  match t with TColor n => Colour n | TAttr a => Look a | TPrompt _ | TClear | TNewline | TLineFeed _ => Before | _ => k end.
Definition ops (k : ink) (t : tok) : list op :=
  match t with
  | TMoji m => [OUnit (m, k)] | TGoto c => [OGoto c] | TErase => [OErase]
  | TPrompt _ | TClear | TNewline | TLineFeed _ => [OOther t] | _ => []
  end.
Lemma inkify_cons k t ts : inkify k (t :: ts) = ops k t ++ inkify (after_ink k t) ts.
Proof. now destruct t. Qed.

(** What the tokens do to the ink. *)
Lemma color_ink n c : v_state (c_vt c) = Ground -> c_ink (cbytes (bytes (TColor n)) c) = c_ink c /\ stands_in V worn (Colour n) (c_pen (cbytes (bytes (TColor n)) c)).
Proof.
  intros Hv. cbn [tok_bytes stands_in]. unfold color_write. destruct (n <=? 0).
  - split; [reflexivity|]. intros codes (ds & _ & H). discriminate.
  - unfold color_body. set (ps := color_write_loop _ n). destruct (cfeed_csi ps 109 c Hv (write_params lf _ _) ltac:(lia)) as [B1 B2].
    cbn [Z.eqb Pos.eqb] in B1. unfold csi_touch in B2. cbn [Z.eqb Pos.eqb andb] in B2. split; [exact B2|]. intros codes (ds & Hd & Hs).
    destruct codes as [|n1 codes]; [exists (c_pen (cbytes ([27; 91] ++ ps ++ [109]) c)); now rewrite app_nil_r|].
    exists (c_pen c). etransitivity; [exact B1|]. f_equal. rewrite <- (codes_semicolons _ _ Hd) by discriminate. f_equal. cbn [app] in Hs. injection Hs as Hs. apply app_inj_tail in Hs as [Hs _]. exact Hs.
Qed.
Lemma quiet_tok t c : match t with TGoto n => n = pw S + 1 | TBell | TCursorOn | TCursorOff | TFlush => True | _ => False end -> v_state (c_vt c) = Ground ->
  c_pen (cbytes (bytes t) c) = c_pen c /\ c_ink (cbytes (bytes t) c) = c_ink c.
Proof.
  intros Ht Hv. destruct t; try contradiction; cbn [tok_bytes].
  - subst. destruct (dec_digits lf (pw S + 1) ltac:(lia)) as (D1 & _ & D2 & _).
    destruct (cfeed_csi (dec (pw S + 1)) 71 c Hv (dec_param lf (pw S + 1) ltac:(lia)) ltac:(lia)) as [B1 B2].
    assert (A : all_digits (dec (pw S + 1)) = true).
    { apply forallb_forall. intros d Hd. eapply Forall_forall in D1; [|exact Hd]. unfold digit in D1. lia. }
    unfold csi_touch in B2. rewrite A in B2. split; [exact B1|exact B2].
  - unfold SpecVtInk.cbytes. destruct (closed_ascii lf [7] eq_refl) as [-> _]. apply quiet_runes. rewrite Hv. reflexivity.
  - unfold SpecVtInk.cbytes. destruct (closed_ascii lf [27; 91; 63; 50; 53; 104; 27; 91; 115; 27; 91; 117] eq_refl) as [-> _]. apply quiet_runes. rewrite Hv. reflexivity.
  - unfold SpecVtInk.cbytes. destruct (closed_ascii lf [27; 91; 63; 50; 53; 108] eq_refl) as [-> _]. apply quiet_runes. rewrite Hv. reflexivity.
  - split; reflexivity.
Qed.
Lemma erase_ink c : v_state (c_vt c) = Ground -> c_pen (cbytes (bytes TErase) c) = c_pen c /\
  forall x r i, v_row (c_vt c) x = Char r i -> x - i + tw r <= v_col (c_vt c) -> c_ink (cbytes (bytes TErase) c) x = c_ink c x.
Proof.
  intros Hv. destruct (cfeed_csi [48] 75 c Hv ltac:(repeat constructor; unfold param; lia) ltac:(lia)) as [B1 B2].
  split; [exact B1|]. cbn [csi_touch Z.eqb Pos.eqb andb orb str_eqb] in B2. intros x r i Hr Hd. apply B2. unfold ends_before. rewrite Hr. lia.
Qed.

Definition iof (c : vcell) : islot := match c with Empty => IBlank | Char r i => IOld r i end.
Definition irend (sl : islot) : vcell := match sl with IBlank => Empty | IOld r i => Char r i | IPart u i => picture V 0 (glyphs (fst u)) i end.
Lemma irend_of c : irend (iof c) = c. Proof. now destruct c. Qed.

Section Sim.
Variable ts : list tok.
Variable c0 : cvt.
Hypothesis Hv0 : v_state (c_vt c0) = Ground.
Hypothesis Hc0 : 0 <= v_col (c_vt c0).
Notation vs := (vs V S lf ts (c_vt c0)).
Definition icounter (sc : iscreen) : nat := match irow sc (-1) with IOld n _ => Z.to_nat n | _ => O end.
Definition iimg (n : nat) (v : vt) (x : Z) : islot := if x =? -1 then IOld (Z.of_nat n) 0 else iof (v_row v x).
Definition IT : iterminal := mkIterminal
  (fun _ sc => let n := Datatypes.S (icounter sc) in mkIscreen (v_col (vs n)) (iimg n (vs n)))
  (fun sc _ x => let n := Datatypes.S (icounter sc) in iimg n (vs n) x).
Definition isc0 : iscreen := mkIscreen (v_col (c_vt c0)) (iimg 0 (c_vt c0)).

Record csim (p : list tok) (k : ink) (sc : iscreen) (c : cvt) : Prop := {
  cs_state : v_state (c_vt c) = Ground;
  cs_col : icol sc = v_col (c_vt c);
  cs_nn : 0 <= v_col (c_vt c);
  cs_row : forall x, 0 <= x -> irend (irow sc x) = v_row (c_vt c) x;
  cs_part : forall x u i, 0 <= x -> irow sc x = IPart u i -> drawn (fst u) /\ 0 <= i < width E (fst u) /\ stands_in V worn (snd u) (c_ink c x);
  cs_pen : stands_in V worn k (c_pen c);
  cs_count : irow sc (-1) = IOld (Z.of_nat (count p)) 0
}.
Lemma csim_start : csim [] Before isc0 c0.
Proof.
  split; auto; cbn [irow isc0 iimg].
  - intros x Hx. unfold iimg. replace (x =? -1) with false by lia. apply irend_of.
  - intros x u i Hx. unfold iimg. replace (x =? -1) with false by lia. unfold iof. destruct (v_row (c_vt c0) x); discriminate.
  - exact I.
Qed.
Lemma iimg_rend n v x : 0 <= x -> irend (iimg n v x) = v_row v x.
Proof. intros Hx. unfold iimg. replace (x =? -1) with false by lia. apply irend_of. Qed.
Lemma iimg_part n v x u i : iimg n v x <> IPart u i.
Proof. unfold iimg. destruct (x =? -1); [discriminate|]. unfold iof. destruct (v_row v x); discriminate. Qed.
Lemma icounter_sim p k sc c : csim p k sc c -> icounter sc = count p.
Proof. intros H. unfold icounter. rewrite (cs_count _ _ _ _ H). apply Nat2Z.id. Qed.
Lemma glyph_full m i : drawn m -> 0 <= i < width E m -> exists r j, picture V 0 (glyphs m) i = Char r j /\ 0 <= i - j /\ i - j + tw r <= width E m.
Proof.
  intros Hm Hi. destruct (drawn_good V S HW CL m Hm) as (G1 & G2 & _). destruct (picture V 0 (glyphs m) i) as [|r j] eqn:Hp.
  - exfalso. revert Hp. apply picture_full; [exact G1|lia].
  - exists r, j. split; [reflexivity|]. apply picture_char in Hp; [|exact G1]. lia.
Qed.
Lemma csim_step p k t q sc : ts = p ++ t :: q -> fineT t -> csim p k sc (ctoks p c0) ->
  csim (p ++ [t]) (after_ink k t) (idisplay E IT (ops k t) sc) (ctoks (p ++ [t]) c0).
Proof.
  intros Hts Hf H. pose proof H as [S1 S2 S3 S4 S5 S6 S7]. pose proof (icounter_sim _ _ _ _ H) as Hn.
  assert (Hvs : changing t = true -> vs (Datatypes.S (icounter sc)) = c_vt (ctoks (p ++ [t]) c0)).
  { intros Ht. unfold VtFacts.vs. rewrite Hn, Hts, take_count by exact Ht. symmetry. apply c_vt_toks. }
  assert (Hcn : count (p ++ [t]) = if changing t then Datatypes.S (count p) else count p).
  { rewrite count_app. cbn [count]. destruct (changing t); lia. }
  rewrite ctoks_snoc in *. rewrite c_vt_bytes in Hvs. set (c := ctoks p c0) in *. clearbody c.
  assert (Same : changing t = false -> ops k t = [] -> same (c_vt c) (vbytes V (bytes t) (c_vt c)) -> (forall x, c_ink (cbytes (bytes t) c) x = c_ink c x) ->
    stands_in V worn (after_ink k t) (c_pen (cbytes (bytes t) c)) -> csim (p ++ [t]) (after_ink k t) (idisplay E IT (ops k t) sc) (cbytes (bytes t) c)).
  { intros Ht -> (K1 & K2 & K3) Hi Hp. cbn [idisplay fold_left]. split; rewrite ?c_vt_bytes; [exact K1|congruence|lia| | |exact Hp|now rewrite S7, Hcn, Ht].
    - intros x Hx. now rewrite S4, K3.
    - intros x u i Hx Hu. rewrite Hi. now apply (S5 x u i). }
  assert (Other : match t with TPrompt _ | TClear | TNewline => True | _ => False end ->
    csim (p ++ [t]) (after_ink k t) (idisplay E IT (ops k t) sc) (cbytes (bytes t) c)).
  { intros Ht. assert (Hct : changing t = true) by (destruct t; now try contradiction).
    destruct (other_bytes V S lf HPr t (c_vt c) Hf Ht S1) as (_ & K1 & _).
    assert (Ho : ops k t = [OOther t]) by (destruct t; now try contradiction). assert (Ha : after_ink k t = Before) by (destruct t; now try contradiction).
    rewrite Ho, Ha. cbn [idisplay fold_left idisplay1 it_other IT]. rewrite (Hvs Hct), Hn. split; rewrite ?c_vt_bytes; cbn [icol irow]; auto.
    - now apply vbytes_nn.
    - intros x Hx. now apply iimg_rend.
    - intros x u i Hx Hi. now apply iimg_part in Hi.
    - exact I.
    - rewrite Hcn, Hct. reflexivity. }
  destruct t as [m|n| n1| |a|pr| | | | | |rc| ].
  - (* a unit *)
    destruct (drawn_good V S HW CL m Hf) as (G1 & G2 & _ & b & Hb & _ & G3). cbn [tok_bytes] in *. rewrite Hb in *. specialize (G3 (c_vt c) S1 S3). specialize (Hvs eq_refl). cbn [changing] in Hcn.
    destruct (drawn_inked m b c Hf Hb S1 S3) as [J1 J2 J3]. rewrite G2 in *.
    pose proof (W_nonneg V _ G1) as Hwn. destruct G3 as [R1 R2 R3 R4 R5 R6]. rewrite G2 in *. cbn [ops idisplay fold_left idisplay1 after_ink]. unfold iput, iwidth. cbn [fst].
    rewrite S2. split; rewrite ?c_vt_bytes; cbn [icol irow]; [exact R1|congruence|lia| | |now rewrite J1|].
    + intros x Hx. destruct ((v_col (c_vt c) <=? x) && (x <? v_col (c_vt c) + width E m)) eqn:Hin.
      * cbn [irend fst]. rewrite R4 by lia. rewrite (picture_zero V _ (v_col (c_vt c))). reflexivity.
      * specialize (S4 x Hx). destruct (irow sc x) as [|u i|r i] eqn:Hr; cbn [irend] in S4.
        -- cbn [irend]. symmetry. apply R5; [lia|congruence].
        -- match goal with |- context [if ?b then _ else IPart _ _] => destruct b eqn:Hov end; [cbn [it_torn IT]; rewrite Hvs; now apply iimg_rend|]. destruct (S5 x u i Hx Hr) as (P1 & P2 & _). cbn [irend].
           destruct (glyph_full (fst u) i P1 P2) as (r & j & Hp & Q1 & Q2). rewrite Hp in *. symmetry. apply R6; [lia|congruence|lia].
        -- cbn [it_torn IT]. rewrite Hvs. now apply iimg_rend.
    + intros x u i Hx. destruct ((v_col (c_vt c) <=? x) && (x <? v_col (c_vt c) + width E m)) eqn:Hin.
      * intros [= <- <-]. cbn [fst snd]. split; [exact Hf|]. split; [lia|]. rewrite J2 by lia. exact S6.
      * specialize (S4 x Hx). destruct (irow sc x) as [|u1 i1|r i1] eqn:Hr; [discriminate| |].
        -- match goal with |- context [if ?b then _ else IPart _ _] => destruct b eqn:Hov end; [intros Hi; now apply iimg_part in Hi|]. intros [= <- <-].
           destruct (S5 x u1 i1 Hx Hr) as (P1 & P2 & P3). split; [exact P1|]. split; [exact P2|]. cbn [irend] in S4.
           destruct (glyph_full (fst u1) i1 P1 P2) as (r & j & Hp & Q1 & Q2). rewrite Hp in S4. rewrite (J3 x r j); [exact P3|lia|now symmetry|lia].
        -- intros Hi. now apply iimg_part in Hi.
    + replace (v_col (c_vt c) <=? -1) with false by lia. cbn [andb]. rewrite S7. cbn [it_torn IT]. rewrite Hcn, Hn. reflexivity.
  - destruct (color_ink n c S1) as [K1 K2]. apply Same; [reflexivity|reflexivity|now apply (color_bytes V S lf n)|now rewrite K1|exact K2].
  - cbn [TokTabs.fineT fine] in Hf. subst n1. destruct (goto_bytes V S lf HPn (c_vt c) S1 S3) as (_ & K1 & _ & K3 & K4).
    destruct (quiet_tok (TGoto (pw S + 1)) c eq_refl S1) as [K5 K6]. cbn [ops idisplay fold_left idisplay1 after_ink]. split; rewrite ?c_vt_bytes; cbn [icol irow].
    + exact K1.
    + rewrite K3. lia.
    + rewrite K3. lia.
    + intros x Hx. now rewrite K4, S4.
    + intros x u i Hx Hu. rewrite K6. now apply (S5 x u i).
    + now rewrite K5.
    + now rewrite Hcn.
  - (* erasing *)
    destruct (erase_bytes V S lf (c_vt c) S1) as (_ & K1 & _ & K3 & K4 & K5 & K6). specialize (Hvs eq_refl). cbn [changing] in Hcn.
    destruct (erase_ink c S1) as [J1 J2]. cbn [ops idisplay fold_left idisplay1 after_ink]. unfold ierase, iwidth. rewrite S2.
    split; rewrite ?c_vt_bytes; cbn [icol irow]; [exact K1|congruence|lia| | |now rewrite J1|].
    + intros x Hx. destruct (v_col (c_vt c) <=? x) eqn:Hin; [cbn [irend]; symmetry; apply K4; lia|].
      specialize (S4 x Hx). destruct (irow sc x) as [|u i|r i] eqn:Hr; cbn [irend] in S4.
      * cbn [irend]. symmetry. apply K5. congruence.
      * match goal with |- context [if ?b then _ else IPart _ _] => destruct b eqn:Hov end; [cbn [it_torn IT]; rewrite Hvs; now apply iimg_rend|]. destruct (S5 x u i Hx Hr) as (P1 & P2 & _). cbn [irend].
        destruct (glyph_full (fst u) i P1 P2) as (r & j & Hp & Q1 & Q2). rewrite Hp in *. symmetry. apply K6; [lia|congruence|lia].
      * cbn [it_torn IT]. rewrite Hvs. now apply iimg_rend.
    + intros x u i Hx. destruct (v_col (c_vt c) <=? x) eqn:Hin; [discriminate|].
      specialize (S4 x Hx). destruct (irow sc x) as [|u1 i1|r i1] eqn:Hr; [discriminate| |].
      * match goal with |- context [if ?b then _ else IPart _ _] => destruct b eqn:Hov end; [intros Hi; now apply iimg_part in Hi|]. intros [= <- <-].
        destruct (S5 x u1 i1 Hx Hr) as (P1 & P2 & P3). split; [exact P1|]. split; [exact P2|]. cbn [irend] in S4.
        destruct (glyph_full (fst u1) i1 P1 P2) as (r & j & Hp & Q1 & Q2). rewrite Hp in S4. rewrite (J2 x r j); [exact P3|now symmetry|lia].
      * intros Hi. now apply iimg_part in Hi.
    + replace (v_col (c_vt c) <=? -1) with false by lia. rewrite S7. cbn [it_torn IT]. rewrite Hcn, Hn. reflexivity.
  - destruct Hf as [Hf1 Hf2]. destruct (HCo Hf1) as [C1 C2]. assert (K : colours_only V worn a) by (destruct Hf2 as [->| ->]; assumption).
    apply Same; [reflexivity|reflexivity|apply (attr_bytes V S lf HAt a); [split; assumption|exact S1|exact S3]| |].
    + intros x. now apply K.
    + cbn [after_ink stands_in]. exists c. split; [exact S1|reflexivity].
  - now apply Other.
  - now apply Other.
  - now apply Other.
  - destruct (quiet_tok TBell c I S1) as [K5 K6]. apply Same; [reflexivity|reflexivity|apply (plain_bytes V S lf TBell); auto|now rewrite K6|now rewrite K5].
  - destruct (quiet_tok TCursorOn c I S1) as [K5 K6]. apply Same; [reflexivity|reflexivity|now apply (cursor_bytes V S lf true)|now rewrite K6|now rewrite K5].
  - destruct (quiet_tok TCursorOff c I S1) as [K5 K6]. apply Same; [reflexivity|reflexivity|now apply (cursor_bytes V S lf false)|now rewrite K6|now rewrite K5].
  - contradiction.
  - destruct (quiet_tok TFlush c I S1) as [K5 K6]. apply Same; [reflexivity|reflexivity|apply (plain_bytes V S lf TFlush); auto|now rewrite K6|now rewrite K5].
Qed.
Lemma csim_all q : forall p k, ts = p ++ q -> Forall fineT q -> forall sc, csim p k sc (ctoks p c0) -> exists k', csim ts k' (idisplay E IT (inkify k q) sc) (ctoks ts c0).
Proof.
  induction q as [|t q IH]; intros p k Hts Hf sc H; [rewrite app_nil_r in Hts; subst p; now exists k|].
  inversion Hf; subst. rewrite inkify_cons. unfold idisplay. rewrite fold_left_app. apply (IH (p ++ [t])); [now rewrite <- app_assoc|assumption|]. eapply csim_step; eauto.
Qed.
Lemma csim_end : Forall fineT ts -> exists k, csim ts k (idisplay E IT (inkify Before ts) isc0) (ctoks ts c0).
Proof. intros H. apply (csim_all ts []); [reflexivity|exact H|apply csim_start]. Qed.
End Sim.
End Units.
End Vt.

(** * Rows *)
Lemma iimage_fst V E a us x : irend V (iimage E a us x) = rend V (image E a (map fst us) x).
Proof.
  revert a. induction us as [|u us IH]; intros a; [reflexivity|]. cbn [iimage image map]. unfold iwidth. destruct ((a <=? x) && (x <? a + width E (fst u))); [reflexivity|apply IH].
Qed.
Lemma total_nn C l : sane_widths (cE C) -> 0 <= total_width (cE C) l.
Proof. intros HW. induction l as [|y l IH]; cbn; [lia|]. fold (total_width (cE C) l). pose proof (PaintFacts.wn C y HW). lia. Qed.
Lemma iimage_at C (HW : sane_widths (cE C)) u r l : let E := cE C in forall a x, a + total_width E (map fst l) <= x < a + total_width E (map fst l) + width E (fst u) ->
  iimage E a (l ++ u :: r) x = IPart u (x - (a + total_width E (map fst l))).
Proof.
  cbv zeta. induction l as [|v l IH]; intros a x H; cbn [app iimage map]; unfold iwidth; cbn [map total_width fold_right] in *.
  - replace ((a <=? x) && (x <? a + width (cE C) (fst u))) with true by lia. f_equal. lia.
  - fold (total_width (cE C) (map fst l)) in *. pose proof (total_nn C (map fst l) HW). pose proof (PaintFacts.wn C (fst v) HW).
    replace ((a <=? x) && (x <? a + width (cE C) (fst v))) with false by lia. rewrite IH by lia. f_equal. lia.
Qed.
Lemma vt_ink_session V worn S default cur w cl es x : simple_editor S -> simple_text (cE (base S)) default -> simple_clip (cE (base S)) cl ->
  Forall (simple_event S) es -> 0 <= cur -> prompt_width (base S) + 11 < w < 9223372036854775808 ->
  (forall r, 0 <= r < 128 -> joins (cE (base S)) r = false) ->
  blind (ccol (base S)) -> true_colours (ccol (base S)) ->
  (forall x0, start S default cur w cl = Some x0 -> steady_run S es x0) ->
  counts_like V (cE (base S)) ->
  ready_after V (fst (callPromptWriter (cE (base S)) (prompt (base S)))) -> ready_after V (last_line_prompt (prompt (base S))) ->
  (pcolor0 (base S) <> [] -> colours_only V worn (pcolor0 (base S)) /\ colours_only V worn (pcolor1 (base S))) ->
  readline S default cur w cl es = Some x ->
  forall lf c0, v_state (c_vt c0) = Ground -> 0 <= v_col (c_vt c0) ->
  vt_colours V worn (base S) x (cbytes V worn (out_bytes (cE (base S)) lf (out (buf_of x))) c0).
Proof.
  intros HS Hd Hcl Hes Hc Hw Hlow HB HT Hst CL HP1 HP2 HCo H lf c0 Hv Hc0. pose proof (proj1 (proj2 HS)) as HW. pose proof (pw_nn S HW) as Hpn.
  assert (Hpw : pw S + 11 < w) by (unfold prompt_width in Hw; unfold pw in *; lia).
  assert (HPn : 0 <= pw S < 9223372036854775807) by lia.
  pose proof (TokFacts.readline_GS S HS Hlow default cur w cl es x Hpw Hd Hcl Hes H) as G.
  destruct x as [m s|s t e]; [|exact I]. destruct G as [(N & Ht & Hf0) Hm]. cbn [buf_of].
  assert (Hf : Forall (TokTabs.fineT S) (out s)) by (eapply Forall_impl; [|exact Hf0]; apply TokTabs.fine_fineT).
  assert (Dr : forall l, Forall (pm S) l -> Forall (TokTabs.drawn S) l) by (intros l Hl; eapply Forall_impl; [|exact Hl]; intros; now left).
  rewrite (ctoks_bytes V worn S HW CL lf HPn (conj HP1 HP2) HCo _ Hf).
  destruct (csim_end V worn S HW CL lf HPn (conj HP1 HP2) HCo (out s) c0 Hv Hc0 Hf) as [kk Q]. set (c := ctoks V worn S lf (out s) c0) in *.
  pose proof (InkProps.screen_ink_simple S default cur w cl es (Running m s) HS Hd Hcl Hes Hc ltac:(lia) HB HT Hst H (IT V S lf (out s) c0) (isc0 c0)) as R. cbn [buf_of] in R.
  pose proof (cs_row _ _ _ _ _ _ _ Q) as Q4. pose proof (cs_part _ _ _ _ _ _ _ Q) as Q5.
  set (sc := idisplay _ _ _ _) in *. destruct N as (N1 & _ & _ & _ & _ & N6).
  assert (Norm : ishown (base S) s sc -> vt_colours V worn (base S) (Running MNormal s) c).
  { intros (k & pred & R1 & R2 & R3 & R4 & R5). change (Forall (pm S) (line s)) in N1.
    assert (Hpred : Forall (pm S) pred).
    { destruct R2 as [->|(_ & _ & rest & R2)]; [constructor|]. cbn in N6. rewrite R2 in N6. cbn [suflist] in N6. rewrite map_app in N6. apply Forall_app in N6 as [N6 _].
      apply Forall_forall. intros y Hy. rewrite Forall_forall in N6. rewrite (pm_erase S Hlow y); apply N6; now apply in_map. }
    set (us := ipart _ _ _ ++ _) in R3.
    assert (Hus : map fst us = part (line s) (view s) k ++ pred).
    { unfold us. rewrite map_app, InkPaint.ipart_fst. f_equal; [|now apply InkCmd.look_fst]. f_equal. unfold inked. generalize (line s) as l, (@nil moji) as p. induction l as [|y l IH]; intros p; [reflexivity|]. cbn [inked_from map fst]. now rewrite IH. }
    assert (Hbb : Forall (pm S) (map fst us)) by (rewrite Hus; apply Forall_app; split; [now apply Forall_part|exact Hpred]).
    destruct (look_ok V S HW CL HPn (conj HP1 HP2) _ (Dr _ Hbb)) as (B1 & B2 & B3).
    exists k, pred, (look V (map fst us)). split; [exact R1|]. split; [exact R2|]. split; [rewrite <- Hus; exact (B3 Hbb)|]. split.
    - intros x Hx. rewrite <- Q4 by lia. rewrite R3 by exact Hx. rewrite iimage_fst. now apply (rend_image V S), Dr.
    - intros l u r x Hl Hx. fold us in Hl. pose proof (total_nn (base S) (map fst l) HW).
      apply (Q5 x u (x - (topc s + total_width (cE (base S)) (map fst l)))); [lia|]. rewrite R3 by lia. rewrite Hl. now apply iimage_at. }
  destruct m as [| |ss]; [exact (Norm R)|exact (Norm R)|exact I].
Qed.

(** * VimBatch *)
Lemma inked_from_nth K cur l : forall p j m, nth_error l j = Some m ->
  nth_error (inked_from K cur p l) j = Some (m, Colour (answer K (marked cur (p ++ firstn (Datatypes.S j) l)))).
Proof.
  induction l as [|m0 l IH]; intros p [|j] m H; try discriminate; cbn [nth_error inked_from] in *.
  - injection H as ->. reflexivity.
  - rewrite (IH _ _ _ H). change (firstn (Datatypes.S (Datatypes.S j)) (m0 :: l)) with (m0 :: firstn (Datatypes.S j) l). now rewrite <- app_assoc.
Qed.
Lemma inked_fst K cur l : map fst (inked K cur l) = l.
Proof. unfold inked. generalize (@nil moji) as p. induction l as [|y l IH]; intros p; [reflexivity|]. cbn [inked_from map fst]. now rewrite IH. Qed.
Lemma vim_from V worn C x c : ccol C = VimBatch -> Forall moji_valid (line (buf_of x)) -> in_bounds (buf_of x) ->
  vt_colours V worn C x c -> vim_on_screen V C x c.
Proof.
  intros HK HV Hb H. destruct x as [[| |ss] s|]; try exact I; cbn [buf_of] in *;
  destruct H as (k & pred & gs & H1 & H2 & H3 & H4 & H5); exists k, pred, gs; (do 4 (split; [assumption|])); intros i x Hi Hx; destruct Hb as [Hb1 Hb2];
  (assert (Hn : exists m, nth_error (line s) (Z.to_nat i) = Some m) by
    (destruct (nth_error (line s) (Z.to_nat i)) as [m|] eqn:Hm; [now exists m|]; apply nth_error_None in Hm; unfold zlen in *; lia));
  destruct Hn as [m Hm]; pose proof (inked_from_nth (ccol C) (cursor s) (line s) [] _ _ Hm) as Hu; cbn [app] in Hu; fold (inked (ccol C) (cursor s) (line s)) in Hu;
  set (us := inked (ccol C) (cursor s) (line s)) in *; set (u := (m, Colour _)) in Hu;
  (assert (Hs : ipart us (view s) k = ipart us (view s) i ++ u :: ipart us (i + 1) k) by
    (rewrite (InkPaint.ipart_split us (view s) i k), (InkPaint.ipart_split us i (i + 1) k) by lia; f_equal;
     unfold ipart at 1; replace (Z.to_nat (i + 1 - i)) with 1%nat by lia; apply nth_error_split in Hu as (l1 & l2 & -> & Hl); rewrite <- Hl;
     rewrite skipn_app, skipn_all, Nat.sub_diag; reflexivity));
  (assert (Ht : map fst (ipart us (view s) i) = part (line s) (view s) i) by (rewrite InkPaint.ipart_fst; unfold us; now rewrite inked_fst));
  (assert (Hw : total_width (cE C) (part (line s) (view s) (i + 1)) = total_width (cE C) (part (line s) (view s) i) + width (cE C) m) by
    (rewrite (part_split (line s) (view s) i (i + 1)) by lia; rewrite ScreenFacts.W_app; f_equal; unfold part; replace (Z.to_nat (i + 1 - i)) with 1%nat by lia;
     apply nth_error_split in Hm as (l1 & l2 & -> & Hl); rewrite <- Hl; rewrite skipn_app, skipn_all, Nat.sub_diag; cbn; lia));
  pose proof (H5 (ipart us (view s) i) u (ipart us (i + 1) k ++ map (fun m => (m, Look (pcolor0 C))) pred) x) as K; rewrite Hs in K;
  (specialize (K ltac:(now rewrite <- app_assoc) ltac:(rewrite Ht; unfold u; cbn [fst]; lia)));
  unfold u in K; cbn [snd stands_in] in K; rewrite HK in K; rewrite (InkPaint.marked_blind VimBatch InkProps.vim_blind) in K by
    (rewrite <- (firstn_skipn (Datatypes.S (Z.to_nat i)) (line s)) in HV; now apply Forall_app in HV);
  replace (Z.to_nat (i + 1)) with (Datatypes.S (Z.to_nat i)) by lia; set (h := runes (Spec.written _)) in *;
  (assert (Hh : h <> []) by (unfold h; rewrite PaintFacts.runes_written by
    (rewrite <- (firstn_skipn (Datatypes.S (Z.to_nat i)) (line s)) in HV; now apply Forall_app in HV);
    destruct (line s) as [|y l]; [now destruct (Z.to_nat i)|]; cbn [firstn flat_map]; pose proof (mrunes_nonempty y); destruct (mrunes y); [congruence|discriminate]));
  destruct (exists_last Hh) as (a & r & Hr); rewrite Hr in *; unfold answer in K; rewrite removelast_last, last_last in K;
  destruct (vim_color_ok a r) as (codes & V1 & V2); destruct (K codes V2) as [q Hq]; now exists a, r, codes, q.
Qed.
Lemma vt_vim_session V worn S default cur w cl es x : simple_editor S -> simple_text (cE (base S)) default -> simple_clip (cE (base S)) cl ->
  Forall (simple_event S) es -> 0 <= cur -> prompt_width (base S) + 11 < w < 9223372036854775808 ->
  (forall r, 0 <= r < 128 -> joins (cE (base S)) r = false) ->
  ccol (base S) = VimBatch ->
  (forall x0, start S default cur w cl = Some x0 -> steady_run S es x0) ->
  counts_like V (cE (base S)) ->
  ready_after V (fst (callPromptWriter (cE (base S)) (prompt (base S)))) -> ready_after V (last_line_prompt (prompt (base S))) ->
  (pcolor0 (base S) <> [] -> colours_only V worn (pcolor0 (base S)) /\ colours_only V worn (pcolor1 (base S))) ->
  readline S default cur w cl es = Some x ->
  forall lf c0, v_state (c_vt c0) = Ground -> 0 <= v_col (c_vt c0) ->
  vim_on_screen V (base S) x (cbytes V worn (out_bytes (cE (base S)) lf (out (buf_of x))) c0).
Proof.
  intros HS Hd Hcl Hes Hc Hw Hlow HK Hst CL HP1 HP2 HCo H lf c0 Hv Hc0. apply (vim_from V worn); [exact HK| | |].
  - apply (reached_valid S x); [apply builtin_scripted, HS|]. now exists default, cur, w, cl, es.
  - destruct (simple_safe S default cur w cl es HS Hd Hcl Hes Hc ltac:(lia)) as (x1 & Hx & Hb). rewrite H in Hx. now injection Hx as <-.
  - assert (HB : blind (ccol (base S))) by (rewrite HK; apply InkProps.vim_blind). assert (HT : true_colours (ccol (base S))) by (rewrite HK; apply InkProps.vim_true).
    exact (vt_ink_session V worn S default cur w cl es x HS Hd Hcl Hes Hc Hw Hlow HB HT Hst CL HP1 HP2 HCo H lf c0 Hv Hc0).
Qed.
