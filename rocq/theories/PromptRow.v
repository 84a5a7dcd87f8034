(** The prompt on the row of an ordinary terminal. *)
From Verif Require Import Base Utf8 Moji Color Prompt Buffer Commands KeyMap Session Spec SpecLib SpecTerm SpecScreen SpecVt SpecVtTabs SpecPromptRow AbsRef TokFacts.
From Verif Require Import VtFacts PromptTok.
From Verif Require TokTabs PromptFacts.
Ltac lia := unfold rune in *; Lia.lia.

Section Row.
Variable V : vterm.
Hypothesis HR : returns V.
Notation tw := (vt_width V).
Notation vrune := (vrune V).
Notation vbytes := (vbytes V).
Notation W := (vcolumns V).
Notation printable := (printable V).
Notation picture := (picture V).

(** The cursor is after the characters seen so far. *)
Definition after (seen : list rune) (v : vt) : Prop :=
  v_state v = Ground /\ v_col v = W seen /\ forall x, 0 <= x < W seen -> v_row v x = picture 0 seen x.

Lemma title_fold body : Forall (fun r => r <> 7 /\ r <> 27) body -> forall v, v_state v = Osc -> fold_left vrune body v = v.
Proof.
  induction 1 as [|r body [H1 H2] _ IH]; intros v Hv; [reflexivity|]. cbn [fold_left].
  assert (K : vrune v r = v). { unfold SpecVt.vrune, effect, next_state. rewrite Hv. replace (r =? 7) with false by lia. replace (r =? 27) with false by lia. destruct v; cbn in *; now subst. }
  rewrite K. now apply IH.
Qed.
Lemma utf8_runes b r : valid_utf8 b -> In r (runes b) -> 0 <= r < 128 -> In r b.
Proof.
  intros Hv Hr Hb. rewrite <- (encode_runes_valid b Hv). unfold encode. apply in_flat_map. exists r. split; [exact Hr|].
  unfold encode_rune. replace (valid_rune r) with true by (unfold valid_rune; lia). replace (r <? 128) with true by lia. now left.
Qed.
Lemma title_bytes body v : valid_utf8 body -> Forall (fun b => ~ In b [7; 10; 13; 27]) body -> v_state v = Ground ->
  valid_utf8 ([27; 93] ++ body ++ [7]) /\ vbytes ([27; 93] ++ body ++ [7]) v = v.
Proof.
  intros Hu Hb Hv. destruct (ascii_runes [27; 93]) as [A1 A2]; [repeat constructor; lia|]. destruct (ascii_runes [7]) as [A3 A4]; [repeat constructor; lia|].
  split; [now repeat apply valid_utf8_app|]. rewrite vbytes_app by exact A2. rewrite vbytes_app by exact Hu. unfold SpecVt.vbytes. rewrite A1, A3.
  assert (K : fold_left vrune [27; 93] v = with_state v Osc). { destruct v as [st c row sv sh]. cbn in Hv. subst st. reflexivity. }
  rewrite K. rewrite (title_fold (runes body)); [|apply Forall_forall; intros r Hr|reflexivity].
  - destruct v as [st c row sv sh]. cbn in Hv. subst st. reflexivity.
  - rewrite Forall_forall in Hb. split; intros ->; apply (utf8_runes body) in Hr; auto; try lia; apply Hb in Hr; apply Hr; cbn; auto.
Qed.
Lemma break_byte b v : b = 10 \/ b = 13 -> v_state v = Ground -> valid_utf8 [b] /\ after [] (vbytes [b] v) /\ v_shown (vbytes [b] v) = v_shown v.
Proof.
  intros Hb Hv. destruct (ascii_runes [b]) as [A1 A2]; [repeat constructor; lia|]. split; [exact A2|]. unfold SpecVt.vbytes. rewrite A1. cbn [fold_left].
  destruct v as [st c row sv sh]. cbn in Hv. subst st. destruct Hb as [-> | ->]; cbn; (split; [|reflexivity]); (split; [reflexivity|]); cbn; rewrite ?(rt_cr V HR), ?(rt_lf V HR); split; try reflexivity; lia.
Qed.
Lemma char_after seen c v : Forall printable seen -> printable c -> after seen v -> after (seen ++ [c]) (vrune v c).
Proof.
  intros Hs Hc (H1 & H2 & H3). pose proof (W_nonneg V seen Hs). destruct (written_one V c v H1 ltac:(lia) Hc) as [R1 R2 R3 R4 R5 R6].
  cbn [vcolumns] in *. split; [exact R1|]. rewrite W_app. cbn [vcolumns]. split; [lia|]. intros x Hx. destruct (Z_lt_dec x (W seen)).
  - rewrite picture_in; auto. specialize (H3 x ltac:(lia)). destruct (picture 0 seen x) as [|r i] eqn:Hp; [apply R5; auto; lia|].
    apply R6; auto; [lia|]. left. apply picture_char in Hp; auto. lia.
  - rewrite picture_out by (auto; lia). rewrite R4 by lia. now rewrite H2.
Qed.
Lemma piece_after p seen v : showable V p -> Forall printable seen -> after seen v ->
  valid_utf8 (piece_bytes p) /\ after (see seen p) (vbytes (piece_bytes p) v) /\ Forall printable (see seen p) /\ v_shown (vbytes (piece_bytes p) v) = v_shown v.
Proof.
  intros [Hk Hp] Hs Ha. destruct p as [c|body final|body|b|]; cbn [piece_ok piece_bytes see] in *.
  - assert (Hv : Forall (fun r => valid_rune r = true) [c]) by (constructor; [apply Hk|constructor]). split; [now apply valid_utf8_encode|].
    assert (Pc : printable c) by exact Hp. unfold SpecVt.vbytes. rewrite runes_encode by exact Hv. cbn [fold_left]. split; [now apply char_after|]. split; [apply Forall_app; auto|].
    apply (written_one V c v); [apply Ha| |exact Pc]. destruct Ha as (_ & -> & _). now apply W_nonneg.
  - destruct Hp as [-> Hb]. destruct (csi_bytes V body 109 v (proj1 Ha)) as [B1 B2]; [exact Hb|lia|]. split; [exact B1|]. rewrite B2. unfold csi. cbn. split; [|split; [exact Hs|reflexivity]].
    destruct Ha as (H1 & H2 & H3). split; [reflexivity|]. split; [exact H2|exact H3].
  - destruct (title_bytes body v Hp Hk (proj1 Ha)) as [B1 B2]. split; [exact B1|]. rewrite B2. auto.
  - destruct (break_byte b v Hk (proj1 Ha)) as (B1 & B2 & B3). split; [exact B1|]. split; [exact B2|]. split; [constructor|exact B3].
  - contradiction.
Qed.
Lemma pieces_after ps : Forall (showable V) ps -> forall seen v, Forall printable seen -> after seen v ->
  valid_utf8 (flat_map piece_bytes ps) /\ after (fold_left see ps seen) (vbytes (flat_map piece_bytes ps) v) /\ Forall printable (fold_left see ps seen) /\ v_shown (vbytes (flat_map piece_bytes ps) v) = v_shown v.
Proof.
  induction 1 as [|p ps Hp _ IH]; intros seen v Hs Ha; cbn [flat_map fold_left].
  - split; [apply valid_utf8_nil|]. split; [exact Ha|]. split; [exact Hs|reflexivity].
  - destruct (piece_after p seen v Hp Hs Ha) as (A1 & A2 & A3 & A4). destruct (IH _ _ A3 A2) as (B1 & B2 & B3 & B4). rewrite vbytes_app by exact A1.
    split; [now apply valid_utf8_app|]. split; [exact B2|]. split; [exact B3|congruence].
Qed.
(** From any place, if it begins with a break. *)
Lemma begun ps v : Forall (showable V) ps -> v_state v = Ground -> begins ps v ->
  valid_utf8 (flat_map piece_bytes ps) /\ after (visible ps) (vbytes (flat_map piece_bytes ps) v) /\ Forall printable (visible ps) /\ v_shown (vbytes (flat_map piece_bytes ps) v) = v_shown v.
Proof.
  intros Hp Hv [Hc|(b & ps' & ->)].
  - apply pieces_after; auto. split; [exact Hv|]. split; [exact Hc|]. cbn. lia.
  - inversion Hp as [|? ? [Hb _] Hps]; subst. cbn [piece_ok] in Hb. destruct (break_byte b v Hb Hv) as (B1 & B2 & B3).
    destruct (pieces_after ps' Hps [] _ (Forall_nil _) B2) as (C1 & C2 & C3 & C4). cbn [flat_map piece_bytes]. rewrite vbytes_app by exact B1.
    split; [now apply valid_utf8_app|]. split; [exact C2|]. split; [exact C3|congruence].
Qed.
(** LF for CR. *)
Definition to_cr (p : piece) : piece := match p with PBreak _ => PBreak 13 | p => p end.
Lemma nl_cr_id l : Forall (fun b => b <> 10) l -> nl_to_cr l = l.
Proof. unfold nl_to_cr. induction 1 as [|b l Hb _ IH]; [reflexivity|]. cbn [map]. replace (b =? 10) with false by lia. now rewrite IH. Qed.
Lemma nl_cr_app a b : nl_to_cr (a ++ b) = nl_to_cr a ++ nl_to_cr b. Proof. apply map_app. Qed.
Lemma cr_piece p : showable V p -> nl_to_cr (piece_bytes p) = piece_bytes (to_cr p).
Proof.
  intros [Hk Hp]. destruct p as [c|body final|body|b|]; cbn [to_cr piece_bytes piece_ok] in *.
  - apply nl_cr_id. assert (G : Forall PromptFacts.plain_byte (encode_rune c)) by (apply PromptFacts.encode_plain; tauto). cbn. rewrite app_nil_r. eapply Forall_impl; [|exact G]. intros b Hb. apply Hb.
  - apply nl_cr_id. repeat (apply Forall_cons; [lia|]). apply Forall_app. split; [eapply Forall_impl; [|exact (proj1 Hk)]; cbn; intros b [_ Hb] ->; apply Hb; auto|]. constructor; [|constructor]. destruct Hp as [-> _]. lia.
  - apply nl_cr_id. repeat (apply Forall_cons; [lia|]). apply Forall_app. split; [eapply Forall_impl; [|exact Hk]; cbn; intros b Hb ->; apply Hb; auto|]. constructor; [lia|constructor].
  - destruct Hk as [-> | ->]; reflexivity.
  - contradiction.
Qed.
Lemma cr_pieces ps : Forall (showable V) ps -> nl_to_cr (flat_map piece_bytes ps) = flat_map piece_bytes (map to_cr ps).
Proof. induction 1 as [|p ps Hp _ IH]; [reflexivity|]. cbn [flat_map map]. now rewrite nl_cr_app, cr_piece, IH. Qed.
Lemma cr_showable ps : Forall (showable V) ps -> Forall (showable V) (map to_cr ps).
Proof. induction 1 as [|p ps Hp _ IH]; constructor; [|exact IH]. destruct p; auto. destruct Hp. split; cbn; auto. Qed.
Lemma cr_visible ps : visible (map to_cr ps) = visible ps.
Proof.
  unfold visible. generalize (@nil Z). induction ps as [|p ps IH]; intros seen; [reflexivity|]. cbn [map fold_left]. rewrite IH. now destruct p.
Qed.

Variable S : scfg.
Notation C := (base S).
Notation E := (cE C).
Variable ps : list piece.
Hypothesis HW : sane_widths E.
Hypothesis CL : counts_like V E.
Hypothesis HP : prompt_is S ps.
Hypothesis Hps : Forall (showable V) ps.
Hypothesis Hwd : W (visible ps) = pw S.
Hypothesis HPn : 0 <= pw S < 9223372036854775807.
Hypothesis HAt : pcolor0 (base S) <> [] -> attribute_only V (pcolor0 (base S)) /\ attribute_only V (pcolor1 (base S)).
Variable lf : Z -> str.
Notation bytes t := (tok_bytes E lf t).

Lemma first_pieces : fst (callPromptWriter E (prompt C)) = flat_map piece_bytes ps.
Proof. unfold prompt_is in HP. destruct (prompt C) as [t|]; [exact HP|]. now rewrite HP. Qed.
Lemma last_pieces : last_line_prompt (prompt C) = flat_map piece_bytes (PBreak 13 :: map to_cr ps) \/ last_line_prompt (prompt C) = flat_map piece_bytes [PBreak 13; PText 62; PText 32] /\ ps = [PBreak 10; PText 62; PText 32].
Proof.
  unfold prompt_is in HP. destruct (prompt C) as [t|]; cbn [last_line_prompt].
  - left. rewrite HP. cbn [flat_map piece_bytes]. rewrite <- cr_pieces by exact Hps. reflexivity.
  - right. split; [reflexivity|exact HP].
Qed.
Lemma first_ok v : v_state v = Ground -> begins ps v -> let b := fst (callPromptWriter E (prompt C)) in
  valid_utf8 b /\ after (visible ps) (vbytes b v) /\ v_shown (vbytes b v) = v_shown v.
Proof. intros Hv Hb b. unfold b. rewrite first_pieces. destruct (begun ps v Hps Hv Hb) as (H1 & H2 & _ & H3). auto. Qed.
Lemma last_ok v : v_state v = Ground -> let b := last_line_prompt (prompt C) in
  valid_utf8 b /\ after (visible ps) (vbytes b v) /\ v_shown (vbytes b v) = v_shown v.
Proof.
  intros Hv b. unfold b. assert (B : showable V (PBreak 13)) by (split; cbn; auto). destruct last_pieces as [->|[-> Hq]].
  - destruct (begun (PBreak 13 :: map to_cr ps) v) as (H1 & H2 & _ & H3); [constructor; [exact B|now apply cr_showable]|exact Hv|right; eauto|].
    rewrite <- cr_visible. auto.
  - rewrite Hq in *. inversion Hps; subst. destruct (begun [PBreak 13; PText 62; PText 32] v) as (H4 & H5 & _ & H6); [now constructor|exact Hv|right; eauto|]. auto.
Qed.
Lemma vis_printable : Forall printable (visible ps).
Proof. apply (begun ps (mkVt Ground 0 (fun _ => Empty) 0 true) Hps eq_refl). now left. Qed.
(** A prompt that begins anywhere still leaves the terminal ready. *)
Lemma rune_ready v c : v_state v = Ground -> c <> 27 -> v_state (vrune v c) = Ground /\ v_shown (vrune v c) = v_shown v.
Proof.
  intros Hv Hc. unfold SpecVt.vrune, effect, next_state. rewrite Hv. replace (c =? 27) with false by lia.
  repeat match goal with |- context [if ?b then _ else _] => destruct b end; auto.
Qed.
Lemma piece_ready p v : showable V p -> v_state v = Ground ->
  valid_utf8 (piece_bytes p) /\ v_state (vbytes (piece_bytes p) v) = Ground /\ v_shown (vbytes (piece_bytes p) v) = v_shown v.
Proof.
  intros [Hk Hp] Hv. destruct p as [c|body final|body|b|]; cbn [piece_ok piece_bytes] in *.
  - assert (Hu : Forall (fun r => valid_rune r = true) [c]) by (constructor; [apply Hk|constructor]). split; [now apply valid_utf8_encode|].
    unfold SpecVt.vbytes in *. rewrite runes_encode in * by exact Hu. cbn [fold_left] in *. apply rune_ready; [exact Hv|]. intros ->. apply Hk. cbn. tauto.
  - destruct Hp as [-> Hb]. destruct (csi_bytes V body 109 v Hv) as [B1 B2]; [exact Hb|lia|]. split; [exact B1|]. rewrite B2 in *. unfold csi in *. cbn in *. auto.
  - destruct (title_bytes body v Hp Hk Hv) as [B1 B2]. split; [exact B1|]. rewrite B2. auto.
  - destruct (break_byte b v Hk Hv) as (B1 & B2 & B3). split; [exact B1|]. split; [apply B2|]. auto.
  - contradiction.
Qed.
Lemma pieces_ready l : Forall (showable V) l -> ready_after V (flat_map piece_bytes l).
Proof.
  induction 1 as [|p l Hp _ [I1 I2]]; cbn [flat_map]; [split; [apply valid_utf8_nil|auto]|].
  destruct (piece_ready p (mkVt Ground 0 (fun _ => Empty) 0 true) Hp eq_refl) as (A1 & _). split; [now apply valid_utf8_app|].
  intros v Hv. rewrite vbytes_app by exact A1. destruct (piece_ready p v Hp Hv) as (_ & A2 & A3). destruct (I2 _ A2) as [A4 A5]. split; congruence.
Qed.
Lemma prompts_ready : ready_after V (fst (callPromptWriter E (prompt C))) /\ ready_after V (last_line_prompt (prompt C)).
Proof.
  rewrite first_pieces. split; [now apply pieces_ready|]. assert (B : showable V (PBreak 13)) by (split; cbn; auto). destruct last_pieces as [->|[-> Hq]].
  - apply pieces_ready. constructor; [exact B|now apply cr_showable].
  - rewrite Hq in *. inversion Hps; subst. apply pieces_ready. now constructor.
Qed.

(** What the tokens leave on the row. *)
Definition holds (p : place) (v : vt) : Prop :=
  v_state v = Ground /\ 0 <= v_col v /\
  match p with
  | OnRow => pw S <= v_col v /\ forall x, 0 <= x < pw S -> v_row v x = picture 0 (visible ps) x
  | Head => begins ps v
  | Lost => True
  end.
Lemma begins_col v v' : v_col v' = v_col v -> begins ps v -> begins ps v'.
Proof. intros H [Hc|Hc]; [left; congruence|now right]. Qed.
Lemma holds_same p v v' : same v v' -> holds p v -> holds p v'.
Proof.
  intros (K1 & K2 & K3) (H1 & H2 & H3). split; [exact K1|]. split; [lia|]. destruct p; [|eapply begins_col; eauto|exact I].
  destruct H3 as [H3 H4]. split; [lia|]. intros x Hx. rewrite K3. now apply H4.
Qed.
Lemma after_holds v : after (visible ps) v -> holds OnRow v.
Proof. intros (H1 & H2 & H3). rewrite Hwd in *. split; [exact H1|]. split; [lia|]. split; [lia|exact H3]. Qed.
Lemma zero_holds v : v_state v = Ground -> v_col v = 0 -> holds Head v.
Proof. intros H1 H2. split; [exact H1|]. split; [lia|]. now left. Qed.
Lemma lost_holds v : v_state v = Ground -> 0 <= v_col v -> holds Lost v.
Proof. intros H1 H2. now split. Qed.
Lemma tok_holds t p v : TokTabs.fineT S t -> holds p v -> holds (pstep C p t) (vbytes (bytes t) v).
Proof.
  intros Hf H. pose proof H as (Hv & Hc & Hp). pose proof vis_printable as Vp. pose proof prompts_ready as Pr.
  assert (Nn : 0 <= v_col (vbytes (bytes t) v)) by now apply vbytes_nn.
  assert (Pic : forall x r i, picture 0 (visible ps) x = Char r i -> x - i + tw r <= pw S).
  { intros x r i Hx. apply picture_char in Hx; [|exact Vp]. lia. }
  destruct t as [m|c0|c1| |a|pr| | | | | |rc| ]; cbn [pstep].
  - destruct (drawn_good V S HW CL m Hf) as (G1 & G2 & _ & b & Hb & _ & G3). cbn [tok_bytes] in *. rewrite Hb in *. specialize (G3 v Hv Hc).
    pose proof (W_nonneg V _ G1) as Hwn. destruct G3 as [R1 R2 R3 R4 R5 R6].
    destruct p; [|now apply lost_holds|now apply lost_holds]. destruct Hp as [P1 P2]. split; [exact R1|]. split; [exact Nn|]. split; [lia|].
    intros x Hx. specialize (P2 x Hx). destruct (picture 0 (visible ps) x) as [|r i] eqn:Hq; [apply R5; [lia|exact P2]|]. apply R6; [lia|exact P2|]. apply Pic in Hq. lia.
  - eapply holds_same; [|exact H]. now apply (color_bytes V S lf c0 v).
  - cbn [TokTabs.fineT fine] in Hf. subst c1. destruct (goto_bytes V S lf HPn v Hv Hc) as (_ & K1 & _ & K3 & K4).
    destruct p; [|now apply lost_holds|now apply lost_holds]. destruct Hp as [P1 P2]. split; [exact K1|]. split; [exact Nn|]. split; [lia|]. intros x Hx. rewrite K4. now apply P2.
  - destruct (erase_bytes V S lf v Hv) as (_ & K1 & _ & K3 & K4 & K5 & K6).
    destruct p; [|now apply lost_holds|now apply lost_holds]. destruct Hp as [P1 P2]. split; [exact K1|]. split; [exact Nn|]. split; [lia|].
    intros x Hx. specialize (P2 x Hx). destruct (picture 0 (visible ps) x) as [|r i] eqn:Hq; [now apply K5|]. apply K6; [lia|exact P2|]. apply Pic in Hq. lia.
  - eapply holds_same; [|exact H]. now apply (attr_bytes V S lf HAt a v).
  - cbn [TokTabs.fineT fine] in Hf. cbn [tok_bytes] in *. destruct (str_eqb pr (last_line_prompt (prompt C))) eqn:E1.
    + apply str_eqb_eq in E1. subst pr. apply after_holds. now apply last_ok.
    + assert (Hpr : pr = fst (callPromptWriter E (prompt C))). { destruct Hf as [Hf|Hf]; [exact Hf|]. rewrite Hf in E1. rewrite str_eqb_refl in E1. discriminate. }
      subst pr. rewrite str_eqb_refl. destruct Pr as [[_ Pr] _]. specialize (Pr v Hv).
      destruct p; [now apply lost_holds| |now apply lost_holds]. apply after_holds. now apply first_ok.
  - cbn [tok_bytes] in *. unfold SpecVt.vbytes. replace (runes [27; 91; 49; 59; 49; 72; 27; 91; 50; 74]) with [27; 91; 49; 59; 49; 72; 27; 91; 50; 74] by reflexivity.
    destruct v as [st c row sv sh]. cbn in Hv. subst st. apply zero_holds; cbn; [reflexivity|]. rewrite (rt_clear V HR). cbn. rewrite (rt_home V HR). reflexivity.
  - apply zero_holds; cbn [tok_bytes]; apply (break_byte 10 v); auto.
  - eapply holds_same; [|exact H]. apply (plain_bytes V S lf TBell v); auto.
  - eapply holds_same; [|exact H]. now apply (cursor_bytes V S lf true v).
  - eapply holds_same; [|exact H]. now apply (cursor_bytes V S lf false v).
  - contradiction.
  - eapply holds_same; [|exact H]. apply (plain_bytes V S lf TFlush v); auto.
Qed.
Lemma toks_hold ts : Forall (TokTabs.fineT S) ts -> forall p v, holds p v -> holds (places C ts p) (vtoks V S lf ts v).
Proof. induction 1 as [|t ts Ht _ IH]; intros p v H; [exact H|]. cbn [places fold_left vtoks]. apply IH. now apply tok_holds. Qed.
Lemma row_shown m s v0 : topc s = pw S -> Forall (TokTabs.fineT S) (out s) -> on S (Running m s) -> v_state v0 = Ground -> 0 <= v_col v0 -> begins ps v0 ->
  prompt_on_row V ps (Running m s) (vbytes (out_bytes E lf (out s)) v0).
Proof.
  intros Ht Hf Ho Hv Hc Hb. rewrite (vtoks_bytes V S HW CL lf HPn prompts_ready HAt _ Hf). cbn [prompt_on_row on] in *. rewrite Ht, Hwd. split; [reflexivity|].
  pose proof (toks_hold _ Hf Head v0 (conj Hv (conj Hc Hb))) as K. rewrite Ho in K. destruct K as (_ & _ & _ & K). exact K.
Qed.
End Row.

Lemma row_simple V S ps default cur w cl es x : simple_editor S -> simple_text (cE (base S)) default -> simple_clip (cE (base S)) cl ->
  Forall (simple_event S) es -> prompt_width (base S) + 11 < w < 9223372036854775808 ->
  (forall r, 0 <= r < 128 -> joins (cE (base S)) r = false) ->
  counts_like V (cE (base S)) -> returns V ->
  prompt_is S ps -> Forall (showable V) ps -> vcolumns V (visible ps) = prompt_width (base S) ->
  (pcolor0 (base S) <> [] -> attribute_only V (pcolor0 (base S)) /\ attribute_only V (pcolor1 (base S))) ->
  readline S default cur w cl es = Some x ->
  forall lf v0, v_state v0 = Ground -> 0 <= v_col v0 -> begins ps v0 ->
  prompt_on_row V ps x (vbytes V (out_bytes (cE (base S)) lf (out (buf_of x))) v0).
Proof.
  intros HS Hd Hcl Hes Hw Hlow CL HR HP Hps Hwd HAt H lf v0 Hv Hc Hb. pose proof (proj1 (proj2 HS)) as HW. pose proof (pw_nn S HW) as Hpn.
  assert (Hpw : pw S = prompt_width (base S)) by (unfold prompt_width, pw in *; lia).
  pose proof (TokFacts.readline_GS S HS Hlow default cur w cl es x ltac:(lia) Hd Hcl Hes H) as G.
  destruct x as [m s|s t e]; [|exact I]. destruct G as [(N & Ht & Hf0) Hm]. cbn [buf_of].
  eapply row_shown; eauto; try lia; try congruence.
  - eapply Forall_impl; [|exact Hf0]; apply TokTabs.fine_fineT.
  - eapply readline_on; [apply HS| |exact H]. unfold pw in *. lia.
Qed.
Lemma row_tabs V S ps default cur w cl es x : single_editor S -> single_text (cE (base S)) default -> single_clip (cE (base S)) cl -> Forall (single_event S) es ->
  prompt_width (base S) + 3 < w < 9223372036854775808 ->
  counts_like V (cE (base S)) -> returns V ->
  prompt_is S ps -> Forall (showable V) ps -> vcolumns V (visible ps) = prompt_width (base S) ->
  (pcolor0 (base S) <> [] -> attribute_only V (pcolor0 (base S)) /\ attribute_only V (pcolor1 (base S))) ->
  readline S default cur w cl es = Some x ->
  forall lf v0, v_state v0 = Ground -> 0 <= v_col v0 -> begins ps v0 ->
  prompt_on_row V ps x (vbytes V (out_bytes (cE (base S)) lf (out (buf_of x))) v0).
Proof.
  intros HS Hd Hcl Hes Hw CL HR HP Hps Hwd HAt H lf v0 Hv Hc Hb. pose proof (proj1 (proj2 HS)) as HW. pose proof (pw_nn S HW) as Hpn.
  assert (Hpw : pw S = prompt_width (base S)) by (unfold prompt_width, pw in *; lia).
  pose proof (TokTabs.readline_GS S HS default cur w cl es x ltac:(lia) Hd Hcl Hes H) as G.
  destruct x as [m s|s t e]; [|exact I]. destruct G as [(N & Ht & Hf0) Hm]. cbn [buf_of].
  eapply row_shown; eauto; try lia; try congruence.
  - eapply readline_on; [apply HS| |exact H]. unfold pw in *. lia.
Qed.
