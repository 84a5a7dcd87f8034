(** No panic while painting: widths, tab positions, views. *)
From Verif Require Import Base Utf8 Moji Color Prompt Buffer Commands KeyMap Session MojiFacts Abs AbsRef AbsSess AbsSafe AbsInv.

(** What is assumed of the width functions: no negative widths, a joined sequence is at
    least as wide as its first part, and widths are monotone. *)
Definition env_ok (E : env) : Prop :=
  (forall r, 0 <= rw E r) /\
  (forall a b, 0 <= a -> 0 <= b -> a <= zw E a b) /\
  (forall a a' b b', 0 <= a <= a' -> 0 <= b <= b' -> zw E a b <= zw E a' b').

Section WithEnv.
Variable E : env.

Fixpoint tab_ok (m : moji) : Prop :=
  match m with
  | MTab p => 0 <= p
  | MZwj a b | MMod a b | MVar a b => tab_ok a /\ tab_ok b
  | _ => True
  end.

Lemma lenEscaped_loop_ge f : forall c w, w <= lenEscaped_loop f c w.
Proof.
  induction f as [|f IH]; intros c w; cbn [lenEscaped_loop]; [lia|].
  destruct (15 <? c); [|lia]. specialize (IH (c / 16) (w + 1)). lia.
Qed.
Lemma lenEscaped_ge c : 3 <= lenEscaped c.
Proof. apply lenEscaped_loop_ge. Qed.

Lemma tab_ok_erase m : tab_ok (erase m).
Proof. induction m; cbn; auto; lia. Qed.

Lemma print_ok m : tab_ok m -> exists b, print E m = Some b.
Proof.
  induction m; cbn [print tab_ok]; intros H; eauto.
  - assert (0 <= Z.rem pos 4 < 4) by (apply Z.rem_bound_pos; lia).
    eexists. apply slice_ok; [lia|]. unfold zlen; cbn; lia.
  - destruct H as [Ha Hb]. destruct (IHm1 Ha) as [x Hx]. destruct (IHm2 Hb) as [y Hy].
    assert (G : exists b, (let* pa := print E m1 in let* pb := print E m2 in
                Some (pa ++ encode_rune zeroWidthJoinRune ++ pb)) = Some b) by (rewrite Hx, Hy; eauto).
    destruct m1; try exact G. eauto.
Qed.

Hypothesis HE : env_ok E.

Lemma width_range m : tab_ok m -> 0 <= width E m <= width E (erase m).
Proof.
  destruct HE as (H1 & H2 & H3). induction m; intros H; cbn [width erase] in *; try (specialize (H1 r)); try lia.
  - cbn in H. assert (0 <= Z.rem pos 4 < 4) by (apply Z.rem_bound_pos; lia). change (Z.rem 0 4) with 0. lia.
  - pose proof (lenEscaped_ge r). lia.
  - destruct H as [Ha Hb]. specialize (IHm1 Ha). specialize (IHm2 Hb). split.
    + pose proof (H2 (width E m1) (width E m2)). lia.
    + apply H3; lia.
  - destruct H as [Ha Hb]. specialize (IHm1 Ha). specialize (IHm2 Hb). lia.
  - destruct H as [Ha Hb]. specialize (IHm1 Ha).
    assert (G : forall x, match erase m1 with MFlag _ => 2 | _ => x end = match m1 with MFlag _ => 2 | _ => x end)
      by (intros; destruct m1; reflexivity).
    rewrite G. destruct m1; lia.
Qed.

Lemma width_nonneg m : tab_ok m -> 0 <= width E m.
Proof. intros H. apply width_range in H. lia. Qed.
Lemma ewidth_nonneg m : 0 <= width E (erase m).
Proof. apply width_nonneg, tab_ok_erase. Qed.

(** Widths with every tab counted as four columns. *)
Definition esum (l : list moji) : Z := sumw E (map erase l).
Lemma esum_nil : esum [] = 0. Proof. reflexivity. Qed.
Lemma esum_cons m l : esum (m :: l) = width E (erase m) + esum l. Proof. reflexivity. Qed.
Lemma esum_app a b : esum (a ++ b) = esum a + esum b.
Proof. unfold esum. now rewrite map_app, sumw_app. Qed.
Lemma esum_nonneg l : 0 <= esum l.
Proof. induction l as [|m l IH]; [reflexivity|]. rewrite esum_cons. pose proof (ewidth_nonneg m). lia. Qed.
Lemma esum_erase l : esum (map erase l) = esum l.
Proof. unfold esum. now rewrite map_erase_idem. Qed.

(** Either no tab at all, or short enough for a 16-bit tab position. *)
Definition lim (l : list moji) : Prop := forallb (fun m => negb (has_tab m)) l = true \/ esum l <= 32767.

Lemma has_tab_erase m : has_tab (erase m) = has_tab m.
Proof. induction m; cbn; congruence. Qed.
Lemma lim_erase l : lim (map erase l) <-> lim l.
Proof.
  unfold lim. rewrite esum_erase.
  assert (H : forallb (fun m => negb (has_tab m)) (map erase l) = forallb (fun m => negb (has_tab m)) l)
    by (induction l as [|m l IH]; cbn; [reflexivity|]; now rewrite has_tab_erase, IH).
  now rewrite H.
Qed.
Lemma lim_app_l a b : lim (a ++ b) -> lim a.
Proof.
  unfold lim. rewrite forallb_app, esum_app. pose proof (esum_nonneg b). intros [H1|H1]; [left|right; lia].
  now apply andb_true_iff in H1.
Qed.
Lemma lim_app_r a b : lim (a ++ b) -> lim b.
Proof.
  unfold lim. rewrite forallb_app, esum_app. pose proof (esum_nonneg a). intros [H1|H1]; [left|right; lia].
  now apply andb_true_iff in H1.
Qed.
Lemma lim_mid a b c : lim (a ++ b ++ c) -> lim (a ++ c).
Proof.
  unfold lim. rewrite !forallb_app, !esum_app. pose proof (esum_nonneg b). intros [H1|H1]; [left|right; lia].
  apply andb_true_iff in H1 as [H1 H2]. apply andb_true_iff in H2 as [H2 H3]. now rewrite H1, H3.
Qed.
Lemma lim_nil : lim []. Proof. now left. Qed.

Lemma notab_ok m : has_tab m = false -> tab_ok m.
Proof.
  induction m; cbn; intros H; auto; try discriminate;
  apply orb_false_iff in H as [H1 H2]; auto.
Qed.

Lemma rune2moji_tab r pos : 0 <= pos <= 32767 -> tab_ok (rune2moji E r pos).
Proof.
  intros H. unfold rune2moji. destruct (r =? 9); [cbn; rewrite wrap16_id; lia|].
  repeat (destruct (_ : bool); [exact I|]). exact I.
Qed.

Lemma width_rune2moji r pos : 0 <= pos <= 32767 -> 0 <= width E (rune2moji E r pos) <= width E (rune2moji E r 0).
Proof.
  intros H. rewrite <- (erase_rune2moji E r pos). apply width_range. now apply rune2moji_tab.
Qed.

Lemma ewidth_zwj m n : width E (erase m) <= width E (erase (MZwj m (MRaw n))).
Proof.
  cbn [erase width]. destruct HE as (H1 & H2 & _). apply H2; [apply ewidth_nonneg|apply H1].
Qed.
Lemma ewidth_var m n : width E (erase m) <= width E (erase (MVar m (MRaw n))).
Proof. cbn [erase width]. destruct (erase m); cbn; lia. Qed.
Lemma ewidth_mod m n : width E (erase m) <= width E (erase (MMod m (MRaw n))).
Proof. cbn [erase width]. destruct HE as (H1 & _). pose proof (H1 n). lia. Qed.

Lemma s2m_tab rs : forall m pos, exists m' l, s2m E (Some m) pos rs = m' :: l /\
  width E (erase m) <= width E (erase m') /\
  (tab_ok m -> 0 <= pos -> pos + esum l <= 32767 -> Forall tab_ok (m' :: l)).
Proof.
  induction rs as [|r|r n rs IH1 IH2] using rune_list_ind; intros m pos.
  - exists m, []. split; [reflexivity|]. split; [lia|]. auto.
  - rewrite s2m_some1.
    destruct (isZeroWidthJoin E r).
    { do 2 eexists. split; [reflexivity|]. split; [apply ewidth_zwj|]. intros; repeat constructor; auto. }
    destruct (isVariationSelectorLike E r).
    { do 2 eexists. split; [reflexivity|]. split; [apply ewidth_var|]. intros; repeat constructor; auto. }
    destruct (isEmojiModifier E r).
    { do 2 eexists. split; [reflexivity|]. split; [apply ewidth_mod|]. intros; repeat constructor; auto. }
    do 2 eexists. split; [reflexivity|]. split; [lia|]. intros Hm Hp Hs. constructor; [auto|]. constructor; [|constructor].
    rewrite esum_cons, esum_nil in Hs. pose proof (ewidth_nonneg (rune2moji E r pos)). apply rune2moji_tab. lia.
  - rewrite s2m_some2.
    destruct (isZeroWidthJoin E r).
    { destruct (IH1 (MZwj m (MRaw n)) pos) as (m' & l & -> & Hw & Ht). do 2 eexists. split; [reflexivity|].
      split; [pose proof (ewidth_zwj m n); lia|]. intros Hm. apply Ht. cbn; auto. }
    destruct (isVariationSelectorLike E r).
    { destruct (IH2 (MVar m (MRaw r)) pos) as (m' & l & -> & Hw & Ht). do 2 eexists. split; [reflexivity|].
      split; [pose proof (ewidth_var m r); lia|]. intros Hm. apply Ht. cbn; auto. }
    destruct (isEmojiModifier E r).
    { destruct (IH2 (MMod m (MRaw r)) pos) as (m' & l & -> & Hw & Ht). do 2 eexists. split; [reflexivity|].
      split; [pose proof (ewidth_mod m r); lia|]. intros Hm. apply Ht. cbn; auto. }
    destruct (IH2 (rune2moji E r pos) (pos + width E (rune2moji E r pos))) as (m' & l & -> & Hw & Ht).
    do 2 eexists. split; [reflexivity|]. split; [lia|]. intros Hm Hp Hs. constructor; [exact Hm|].
    rewrite esum_cons in Hs. pose proof (ewidth_nonneg m'). pose proof (esum_nonneg l).
    assert (Hpos : 0 <= pos <= 32767) by lia.
    pose proof (width_rune2moji r pos Hpos). rewrite erase_rune2moji in Hw.
    apply Ht; [now apply rune2moji_tab|lia|lia].
Qed.

Lemma StringToMoji_tab s : lim (units E s) -> Forall tab_ok (StringToMoji E s).
Proof.
  rewrite <- StringToMoji_units, lim_erase. intros [H|H].
  - apply Forall_forall. intros m Hm. rewrite forallb_forall in H. specialize (H m Hm). apply notab_ok.
    now apply negb_true_iff.
  - unfold StringToMoji in *. destruct (runes s) as [|r rs]; [constructor|].
    rewrite s2m_none in *. destruct (s2m_tab rs (rune2moji E r 0) (0 + width E (rune2moji E r 0))) as (m' & l & Hm & Hw & Ht).
    rewrite Hm in *. rewrite esum_cons in H. rewrite erase_rune2moji in Hw.
    pose proof (esum_nonneg l). pose proof (width_rune2moji r 0 ltac:(lia)).
    apply Ht; [apply rune2moji_tab; lia|lia|lia].
Qed.

End WithEnv.

Lemma Forall_slice {A} (P : A -> Prop) l a b d : slice l a b = Some d -> Forall P l -> Forall P d.
Proof.
  intros H HF. apply slice_split in H as (p & q & -> & _ & _).
  apply Forall_app in HF as [_ HF]. now apply Forall_app in HF.
Qed.
Lemma Forall_sliceInsert {A} (P : A -> Prop) l i x l' : sliceInsert l i x = Some l' ->
  Forall P l -> Forall P x -> Forall P l'.
Proof.
  intros H Hl Hx. destruct (Z_le_dec 0 i) as [H1|H1]; [destruct (Z_le_dec i (zlen l)) as [H2|H2]|].
  - rewrite sliceInsert_firstn in H by lia. injection H as <-.
    apply Forall_app. split; [now apply Forall_firstn|]. apply Forall_app. split; [exact Hx|now apply Forall_skipn].
  - rewrite sliceInsert_none in H by lia. discriminate.
  - rewrite sliceInsert_none in H by lia. discriminate.
Qed.
Lemma Forall_sliceDelete {A} (P : A -> Prop) l i n l' : 0 <= n -> sliceDelete l i n = Some l' ->
  Forall P l -> Forall P l'.
Proof.
  intros Hn H Hl. destruct (Z_le_dec 0 i) as [H1|H1]; [destruct (Z_le_dec (i + n) (zlen l)) as [H2|H2]|].
  - rewrite sliceDelete_firstn in H by lia. injection H as <-.
    apply Forall_app. split; [now apply Forall_firstn|now apply Forall_skipn].
  - rewrite sliceDelete_none in H by lia. discriminate.
  - rewrite sliceDelete_none in H by lia. discriminate.
Qed.
Lemma Forall_set_index {A} (P : A -> Prop) l i x l' : set_index l i x = Some l' ->
  Forall P l -> P x -> Forall P l' /\ zlen l' = zlen l.
Proof.
  unfold set_index. intros H Hl Hx. destruct ((0 <=? i) && (i <? zlen l)) eqn:Hc; [|discriminate].
  injection H as <-. split.
  - apply Forall_app. split; [now apply Forall_firstn|]. constructor; [exact Hx|now apply (Forall_skipn P l (S (Z.to_nat i)))].
  - rewrite zlen_app, zlen_cons, zlen_firstn.
    change (match l with [] => [] | _ :: l0 => skipn (Z.to_nat i) l0 end) with (skipn (S (Z.to_nat i)) l).
    rewrite zlen_skipn. lia.
Qed.
Lemma Forall_index {A} (P : A -> Prop) l i x : index l i = Some x -> Forall P l -> P x.
Proof.
  unfold index. destruct (0 <=? i); [|discriminate]. intros H HF. rewrite Forall_forall in HF.
  apply HF. now apply nth_error_In in H.
Qed.

Section WithCfg.
Variable C : cfg.
Notation E := (cE C).
Hypothesis HE : env_ok E.

Definition cok (l : list cell) : Prop := Forall (fun c => tab_ok (c_moji c)) l.

(** The widest the prompt can make the left margin. *)
Definition PW : Z := Z.max 0 (snd (callPromptWriter E (prompt C))).

(** Every unit is narrower than [V] columns and the line is short enough for its tabs. *)
Definition line_ok (V : Z) (l : list moji) : Prop :=
  0 < V /\ Forall (fun m => width E m < V) l /\ lim E l.

Definition B (s : buf) : Prop := cok (cells s) /\ topc s <= PW.
Definition CInv (s : buf) : Prop := B s /\ 0 <= view s <= cursor s /\ cursor s <= zlen (cells s).

(** Nothing is assumed about the prediction unless it is shown. *)
Definition pred_ok : Prop := pcolor0 C = [] \/ forall t c, lim E (units E (predictor C t c)).

Lemma line_ok_mid V a b c : line_ok V (a ++ b ++ c) -> line_ok V (a ++ c).
Proof.
  intros (H1 & H2 & H3). split; [exact H1|]. split.
  - apply Forall_app in H2 as [Ha H2]. apply Forall_app in H2 as [_ Hc]. now apply Forall_app.
  - now apply lim_mid in H3.
Qed.

Lemma cok_erased l : cok l -> Forall (fun c => 0 <= width E (c_moji c) <= width E (emoji c)) l.
Proof. intros H. eapply Forall_impl; [|exact H]. intros c Hc. now apply width_range. Qed.

Lemma notab_emojis l : forallb (fun m => negb (has_tab m)) (emojis l) = true ->
  forallb (fun m => negb (has_tab m)) (map c_moji l) = true.
Proof.
  unfold emojis. induction l as [|c l IH]; [reflexivity|]. cbn [map forallb]. unfold emoji at 1.
  rewrite has_tab_erase. intros H. apply andb_true_iff in H as [H1 H2]. now rewrite H1, IH.
Qed.
Lemma cok_notab l : forallb (fun m => negb (has_tab m)) (emojis l) = true -> cok l.
Proof.
  intros H. apply notab_emojis in H. apply Forall_forall. intros c Hc. apply notab_ok.
  rewrite forallb_forall in H. specialize (H (c_moji c) (in_map _ _ _ Hc)). now apply negb_true_iff.
Qed.

Lemma esum_emojis_cons c l : esum E (emojis (c :: l)) = width E (emoji c) + esum E (emojis l).
Proof. rewrite emojis_cons, esum_cons. unfold emoji. now rewrite erase_idem. Qed.

Lemma refresh_some l : forall cur i pos past, cok l ->
  exists l' p, refresh_loop C cur i pos past l = Some (l', p).
Proof.
  induction l as [|c l IH]; intros cur i pos past H; cbn [refresh_loop]; [eauto|].
  apply Forall_cons_iff in H as [Hc Hl].
  destruct (print_ok E (c_moji c) Hc) as [pr Hpr].
  assert (G : exists x, unit_runes C (c_moji c) = Some x)
    by (unfold unit_runes; destruct (c_moji c); cbn [MojiToRune]; rewrite ?Hpr; eauto).
  destruct G as [rs ->]. destruct (feed C _ 0 rs) as [p2 col].
  edestruct IH as (l' & p & ->); [exact Hl|]. eauto.
Qed.

Lemma refresh_cok l : forall cur i pos past l' p, cok l -> 0 <= pos -> pos + esum E (emojis l) <= 32767 ->
  refresh_loop C cur i pos past l = Some (l', p) -> cok l'.
Proof.
  induction l as [|c l IH]; intros cur i pos past l' p H Hp Hs HR; cbn [refresh_loop] in HR.
  - injection HR as <- _. constructor.
  - inversion H as [|? ? Hc Hl]; subst. opt HR. injection HR as <- _.
    set (m' := match c_moji c with MTab _ => MTab pos | m => m end) in *.
    assert (Hm : tab_ok m') by (unfold m'; destruct (c_moji c); try exact Hc; exact Hp).
    assert (Hme : erase m' = emoji c) by (unfold m', emoji; destruct (c_moji c); reflexivity).
    constructor; [exact Hm|].
    pose proof (width_range E HE m' Hm) as Hw. rewrite Hme in Hw.
    rewrite esum_emojis_cons in Hs. pose proof (esum_nonneg E HE (emojis l)).
    rewrite wrap16_id in Ev0 by lia.
    eapply IH; [exact Hl| | |exact Ev0]; lia.
Qed.

Lemma refreshColor_ok s : cok (cells s) -> lim E (emojis (cells s)) ->
  exists s', refreshColor C s = Some s' /\ cok (cells s').
Proof.
  intros Hc Hl. unfold refreshColor. destruct (refresh_some (cells s) (cursor s) 0 0 [] Hc) as (l' & p & Hr).
  rewrite Hr. eexists. split; [reflexivity|]. cbn. destruct Hl as [Hl|Hl].
  - apply cok_notab. apply refresh_loop_emojis in Hr. now rewrite Hr.
  - eapply refresh_cok; [exact Hc| | |exact Hr]; lia.
Qed.

Lemma paint_ok l : forall color, cok l -> exists ts c, paint C color l = Some (ts, c).
Proof.
  induction l as [|c l IH]; intros color H; cbn [paint]; [eauto|]. inversion H as [|? ? Hc Hl]; subst.
  destruct (print_ok E (c_moji c) Hc) as [x ->]. destruct (IH (c_color c) Hl) as (ts & k & ->). eauto.
Qed.

Lemma puts_ok s a b : cok (cells s) -> lim E (emojis (cells s)) -> 0 <= a <= b -> b <= zlen (cells s) ->
  exists s', puts C s a b = Some s' /\ cok (cells s') /\ paints s s'.
Proof.
  intros Hc Hl Ha Hb. unfold puts. destruct (refreshColor_ok s Hc Hl) as (s1 & Hs1 & Hc1).
  assert (Hz : zlen (cells s1) = zlen (cells s)).
  { unfold refreshColor in Hs1. opt Hs1. injection Hs1 as <-. cbn. apply refresh_loop_emojis in Ev.
    rewrite <- (zlen_emojis l), Ev. apply zlen_emojis. }
  destruct (slice_ex (cells s1) a b) as (d & p & q & Hd & _); [lia|lia|].
  destruct (paint_ok d (-1) (Forall_slice _ _ _ _ _ Hd Hc1)) as (ts & k & Hp).
  eexists. split.
  - rewrite Hs1, Hd, Hp. reflexivity.
  - split; [exact Hc1|]. apply (puts_paints C s a b). unfold puts. rewrite Hs1, Hd, Hp. reflexivity.
Qed.

Lemma paints_B s s' : paints s s' -> cok (cells s') -> B s -> B s'.
Proof. intros (l & ts & -> & _) H [_ Ht]. split; [exact H|exact Ht]. Qed.
Lemma paints_CInv s s' : paints s s' -> cok (cells s') -> CInv s -> CInv s'.
Proof.
  intros Hp Hc (HB & Hv & Hz). pose proof (paints_fields _ _ Hp) as (_ & F2 & _ & F4 & F5 & _).
  split; [eapply paints_B; eauto|]. now rewrite F2, F4, F5.
Qed.
Lemma paints_lim s s' : paints s s' -> lim E (emojis (cells s)) -> lim E (emojis (cells s')).
Proof. intros Hp H. apply paints_fields in Hp as (-> & _). exact H. Qed.

Lemma view_fit_le l : forall vw w n w', view_fit C vw w l = (n, w') -> Z.of_nat n <= zlen l.
Proof.
  induction l as [|c l IH]; intros vw w n w' H; cbn [view_fit] in H.
  - injection H as <- _. apply zlen_nonneg.
  - rewrite zlen_cons. pose proof (zlen_nonneg l). destruct (_ <=? _); [injection H as <- _; lia|].
    destruct (view_fit C vw _ l) as [n0 w0] eqn:Hf. injection H as <- _. apply IH in Hf. lia.
Qed.

Lemma getView2_ok s : 0 <= view s <= cursor s -> cursor s <= zlen (cells s) ->
  exists e w, getView2 C s = Some (e, w) /\ view s <= e <= zlen (cells s).
Proof.
  intros Hv Hz. unfold getView2, getView.
  destruct (slice_ex (cells s) (view s) (zlen (cells s))) as (d & p & q & Hd & _ & _ & Hzd); [lia|lia|]. rewrite Hd.
  destruct (view_fit C (ViewWidth s) 0 d) as [n w] eqn:Hf. apply view_fit_le in Hf.
  destruct (slice_ex (cells s) (view s) (cursor s)) as (d2 & p2 & q2 & Hd2 & _); [lia|lia|]. rewrite Hd2.
  do 2 eexists. split; [reflexivity|]. lia.
Qed.

Lemma paint_suffix_ok l : forall vw w, Forall tab_ok l -> exists ts, paint_suffix C vw w l = Some ts.
Proof.
  induction l as [|m l IH]; intros vw w H; cbn [paint_suffix]; [eauto|]. inversion H as [|? ? Hm Hl]; subst.
  destruct (_ <=? _); [eauto|]. destruct (print_ok E m Hm) as [x ->].
  destruct (IH vw (w + width E m) Hl) as [ts ->]. eauto.
Qed.

Lemma repaintW_ok s : CInv s -> lim E (emojis (cells s)) ->
  (pcolor0 C = [] \/ Forall tab_ok (suflist (suffix s))) ->
  exists s', repaintWithoutUpdateSuffix C s = Some s' /\ CInv s' /\ paints s s'.
Proof.
  intros HC Hl Hs. pose proof HC as ((Hc & Ht) & Hv & Hz).
  assert (G : exists s', repaintWithoutUpdateSuffix C s = Some s' /\ cok (cells s')).
  { unfold repaintWithoutUpdateSuffix.
    destruct (getView2_ok s Hv Hz) as (e & w & Hg & He). rewrite Hg.
    destruct (puts_ok (GotoHead s) (view s) e) as (s2 & H2 & Hc2 & Hp2); [exact Hc|exact Hl|lia|cbn; lia|].
    change (view (GotoHead s)) with (view s). rewrite H2.
    pose proof (paints_fields _ _ Hp2) as (F1 & F2 & F3 & F4 & F5 & _). cbn in F1, F2, F3, F4, F5.
    assert (G : exists s3, (match pcolor0 C, suffix s2 with
                | _ :: _, Some (_ :: _) => let* ts := paint_suffix C (ViewWidth s2) w (Suffix C s2) in
                     Some (emit s2 (TAttr (pcolor0 C) :: ts ++ [TAttr (pcolor1 C)]))
                | _, _ => Some s2 end) = Some s3 /\ exists ts, s3 = emit s2 ts).
    { destruct (pcolor0 C) eqn:Hp0.
      - exists s2. split; [reflexivity|]. exists []. destruct s2; unfold emit; cbn. now rewrite app_nil_r.
      - destruct Hs as [Hs|Hs]; [discriminate|]. rewrite F3.
        assert (Hsf : Forall tab_ok (Suffix C s2)).
        { unfold Suffix. rewrite Hp0. destruct (_ =? _); [|constructor]. rewrite F3. destruct (suffix s); [exact Hs|constructor]. }
        destruct (paint_suffix_ok (Suffix C s2) (ViewWidth s2) w Hsf) as [ts Hts].
        destruct (suffix s) as [[|x xs]|].
        + exists s2. split; [reflexivity|]. exists []. destruct s2; unfold emit; cbn. now rewrite app_nil_r.
        + rewrite Hts. eexists. split; [reflexivity|]. eauto.
        + exists s2. split; [reflexivity|]. exists []. destruct s2; unfold emit; cbn. now rewrite app_nil_r. }
    destruct G as (s3 & -> & ts & ->).
    destruct (puts_ok (GotoHead (eraseline (emit s2 ts))) (view s2) (cursor s2)) as (s4 & H4 & Hc4 & _).
    - exact Hc2.
    - cbn. now rewrite F1.
    - lia.
    - cbn. lia.
    - exists s4. split; [exact H4|exact Hc4]. }
  destruct G as (s' & Hr & Hc'). exists s'. split; [exact Hr|].
  pose proof (repaintW_paints C _ _ Hr) as Hp. split; [|exact Hp].
  eapply paints_CInv; eauto.
Qed.

Hypothesis HP : pred_ok.

Lemma repaint_ok s : CInv s -> lim E (emojis (cells s)) ->
  exists s', repaint C s = Some s' /\ CInv s' /\ view s' = view s /\ termw s' = termw s /\ topc s' = topc s.
Proof.
  intros HC Hl. unfold repaint. destruct (updateSuffix_fields C s) as [x Hx].
  destruct (repaintW_ok (updateSuffix C s)) as (s' & Hr & HC' & Hp).
  - rewrite Hx. exact HC.
  - rewrite Hx. exact Hl.
  - destruct HP as [HP1|HP1]; [now left|]. unfold updateSuffix. destruct (pcolor0 C); [now left|right].
    destruct (cells s); [constructor|]. apply StringToMoji_tab; [exact HE|apply HP1].
  - exists s'. split; [exact Hr|]. split; [exact HC'|].
    apply paints_fields in Hp as (_ & _ & _ & -> & _ & -> & -> & _). rewrite Hx. auto.
Qed.

(** ** ResetViewStart *)
Lemma range_width_app a b : range_width C (a ++ b) = range_width C a + range_width C b.
Proof. induction a as [|c a IH]; [reflexivity|]. cbn [app range_width]. rewrite IH. lia. Qed.
Lemma range_width_nonneg l : cok l -> 0 <= range_width C l.
Proof.
  induction 1 as [|c l Hc Hl IH]; [reflexivity|]. cbn [range_width].
  pose proof (width_nonneg E HE _ Hc). lia.
Qed.

Lemma rvs_shrink_spec vw c l : width E (c_moji c) < vw -> forall seg w vs,
  w = range_width C seg + width E (c_moji c) ->
  exists seg1 seg2, seg = seg1 ++ seg2 /\
    rvs_shrink C vw w vs (seg ++ c :: l)
    = (range_width C seg2 + width E (c_moji c), vs + zlen seg1, seg2 ++ c :: l, false) /\
    range_width C seg2 + width E (c_moji c) < vw.
Proof.
  intros Hc. induction seg as [|x seg IH]; intros w vs Hw; cbn [app rvs_shrink].
  - cbn in Hw. exists [], []. split; [reflexivity|]. replace (vw <=? w) with false by lia.
    cbn [range_width app]. change (zlen (@nil cell)) with 0. rewrite Z.add_0_r, Z.add_0_l. split; [subst w; reflexivity|lia].
  - cbn [range_width] in Hw. destruct (vw <=? w) eqn:Hle.
    + destruct (IH (w - width E (c_moji x)) (vs + 1)) as (s1 & s2 & -> & Hr & Hlt); [lia|].
      exists (x :: s1), s2. split; [reflexivity|]. split; [|exact Hlt].
      rewrite Hr, zlen_cons. replace (vs + (zlen s1 + 1)) with (vs + 1 + zlen s1) by lia. reflexivity.
    + exists [], (x :: seg). split; [reflexivity|]. change (zlen (@nil cell)) with 0. rewrite Z.add_0_r. cbn [app range_width].
      rewrite <- Hw. split; [reflexivity|lia].
Qed.

(** The cells from the new ViewStart up to and including the one at the cursor fit. *)
Lemma rvs_loop_spec vw cur : forall l i w vs seg pre,
  Forall (fun c => width E (c_moji c) < vw) l -> 0 < vw ->
  w = range_width C seg -> w < vw -> zlen pre = vs -> i = vs + zlen seg -> vs <= cur -> i <= cur + 1 -> 0 <= cur ->
  exists pre' b post, pre ++ seg ++ l = pre' ++ b ++ post /\
    zlen pre' = rvs_loop C vw cur i w vs (seg ++ l) l /\ zlen pre' <= cur /\
    range_width C b < vw /\ (zlen pre' + zlen b = cur + 1 \/ (post = [] /\ zlen pre' + zlen b <= cur + 1)).
Proof.
  induction l as [|c l IH]; intros i w vs seg pre HF Hvw Hw Hlt Hp Hi Hvs Hic Hcur; cbn [rvs_loop].
  - exists pre, seg, []. rewrite !app_nil_r. repeat split; try lia. right. split; [reflexivity|lia].
  - inversion HF as [|? ? Hc Hl]; subst.
    destruct (zlen pre + zlen seg <=? cur) eqn:Hle.
    + destruct (rvs_shrink_spec vw c l Hc seg (range_width C seg + width E (c_moji c)) (zlen pre) eq_refl) as (s1 & s2 & -> & Hr & Hl2).
      rewrite Hr. rewrite zlen_app in *. pose proof (zlen_nonneg s2).
      replace (s2 ++ c :: l) with ((s2 ++ [c]) ++ l) by (rewrite <- app_assoc; reflexivity).
      destruct (IH (zlen pre + (zlen s1 + zlen s2) + 1) (range_width C s2 + width E (c_moji c)) (zlen pre + zlen s1) (s2 ++ [c]) (pre ++ s1))
        as (p' & b & q & He & Hz & Hcu & Hb & Hd); auto.
      * rewrite range_width_app. cbn. lia.
      * apply zlen_app.
      * rewrite zlen_app, zlen_cons, zlen_nil. lia.
      * lia.
      * lia.
      * exists p', b, q. split; [|split; [exact Hz|auto]].
        rewrite <- He, <- !app_assoc. reflexivity.
    + exists pre, seg, (c :: l). repeat split; try lia.
Qed.

Lemma ResetViewStart_spec s : 0 <= cursor s -> 0 < ViewWidth s ->
  Forall (fun c => width E (c_moji c) < ViewWidth s) (cells s) ->
  exists pre b post, cells s = pre ++ b ++ post /\ zlen pre = view (ResetViewStart C s) /\
    zlen pre <= cursor s /\ range_width C b < ViewWidth s /\
    (zlen pre + zlen b = cursor s + 1 \/ (post = [] /\ zlen pre + zlen b <= cursor s + 1)).
Proof.
  intros Hc Hv HF.
  destruct (rvs_loop_spec (ViewWidth s) (cursor s) (cells s) 0 0 0 [] []) as (p & b & q & He & Hz & Hcu & Hb & Hd); auto; try lia.
  exists p, b, q. auto.
Qed.

(** [V]: the visible width with the widest left margin. *)
Definition V (s : buf) : Z := termw s - PW - 3.
Definition wide (s : buf) : Prop := line_ok (V s) (emojis (cells s)).

Lemma wide_cells s : B s -> wide s ->
  0 < ViewWidth s /\ Forall (fun c => width E (c_moji c) < ViewWidth s) (cells s).
Proof.
  intros (Hc & Ht) (H1 & H2 & _). unfold V in *. unfold ViewWidth, forbiddenWidth. split; [lia|].
  unfold emojis in H2. rewrite Forall_map in H2. rewrite Forall_forall in *. intros c Hin.
  specialize (H2 c Hin). pose proof (proj1 (Forall_forall _ _) (cok_erased _ Hc) c Hin) as H3. cbn in H3. lia.
Qed.

Lemma ResetViewStart_ok s : B s -> wide s -> 0 <= cursor s <= zlen (cells s) -> CInv (ResetViewStart C s).
Proof.
  intros HB Hw Hc. destruct (wide_cells s HB Hw) as [Hv HF].
  destruct (ResetViewStart_spec s) as (p & b & q & He & Hz & Hcu & _); [lia|exact Hv|exact HF|].
  split; [exact HB|]. cbn [view cursor cells ResetViewStart set_view] in *. pose proof (zlen_nonneg p). lia.
Qed.

Lemma RVS_repaint_ok s : B s -> wide s -> 0 <= cursor s <= zlen (cells s) ->
  exists s', repaint C (ResetViewStart C s) = Some s' /\ CInv s' /\ termw s' = termw s.
Proof.
  intros HB Hw Hc. destruct (repaint_ok (ResetViewStart C s)) as (s' & Hr & HC & _ & Ht & _).
  - now apply ResetViewStart_ok.
  - apply Hw.
  - exists s'. auto.
Qed.

(** ** Backward simulation of the primitive edits *)
Definition only_edit (s s' : buf) : Prop :=
  exists l us, s' = set_undoes (set_cells s l) us /\ cok l.

Lemma insert_conv s pos l a : B s -> cok l -> ains (abs s) pos (emojis l) = Some a ->
  exists s', insert s pos l = Some s' /\ abs s' = a /\ only_edit s s'.
Proof.
  intros (Hc & _) Hl H. unfold ains in H. cbn [aline abs] in H. unfold emojis at 1 2 in H.
  rewrite sliceInsert_map in H. unfold insert. destruct (sliceInsert (cells s) pos l) as [l'|] eqn:Hi; [|discriminate].
  cbn [option_map] in H. injection H as <-. eexists. split; [reflexivity|]. split.
  - unfold abs, push_undo. cbn. now rewrite zlen_emojis.
  - eexists _, _. split; [unfold push_undo; reflexivity|]. eapply Forall_sliceInsert; eauto.
Qed.

Lemma insertString_conv s pos t a : B s -> lim E (units E t) -> ains (abs s) pos (units E t) = Some a ->
  exists s' l, insertString C s pos t = Some (s', l) /\ abs s' = a /\ only_edit s s' /\
    zlen l = zlen (units E t) /\ cok l.
Proof.
  intros HB Hl H. unfold insertString.
  assert (Hc : cok (mojis2cells (StringToMoji E t))).
  { unfold cok, mojis2cells. rewrite Forall_map. cbn. apply StringToMoji_tab; assumption. }
  destruct (insert_conv s pos (mojis2cells (StringToMoji E t)) a HB Hc) as (s' & Hi & Ha & Ho).
  - now rewrite emojis_units.
  - rewrite Hi. do 2 eexists. split; [reflexivity|]. split; [exact Ha|]. split; [exact Ho|]. split; [|exact Hc].
    rewrite zlen_mojis2cells. apply units_StringToMoji_len.
Qed.

Lemma Delete_conv s pos n a : B s -> adelete (abs s) pos n = Some a ->
  exists s' w, Delete C s pos n = Some (s', w) /\ abs s' = a /\ only_edit s s'.
Proof.
  intros (Hc & _) H. unfold adelete in H. cbn [aline abs] in H. rewrite zlen_emojis in H. unfold Delete.
  destruct ((n <=? 0) || (zlen (cells s) <? pos + n)) eqn:Hg.
  - injection H as <-. do 2 eexists. split; [reflexivity|]. split; [reflexivity|].
    exists (cells s), (undoes s). split; [destruct s; reflexivity|exact Hc].
  - opt H. injection H as <-. unfold SubString, GetWidthBetween. rewrite slice_emojis in Ev.
    destruct (slice (cells s) pos (pos + n)) as [d|] eqn:Hd; [|discriminate]. injection Ev as <-.
    unfold emojis in Ev0. rewrite sliceDelete_map in Ev0 by lia. cbn [cells push_undo set_undoes].
    destruct (sliceDelete (cells s) pos n) as [l'|] eqn:Hl; [|discriminate]. injection Ev0 as <-.
    rewrite Hd. do 2 eexists. split; [reflexivity|]. split.
    + unfold abs. cbn. rewrite cell2string_text. reflexivity.
    + eexists _, _. split; [unfold push_undo; reflexivity|]. eapply Forall_sliceDelete; [|exact Hl|exact Hc]. lia.
Qed.

Lemma only_edit_B s s' : only_edit s s' -> B s -> B s'.
Proof. intros (l & us & -> & H) [_ Ht]. split; assumption. Qed.
Lemma only_edit_fields s s' : only_edit s s' ->
  view s' = view s /\ termw s' = termw s /\ topc s' = topc s /\ cursor s' = cursor s.
Proof. intros (l & us & -> & H). auto. Qed.

Lemma joinUndo_shape s : exists us, joinUndo s = set_undoes s us.
Proof.
  unfold joinUndo. destruct (undoes s) as [|u2 [|u1 r]] eqn:Hu.
  - exists (undoes s). destruct s; reflexivity.
  - exists (undoes s). destruct s; reflexivity.
  - destruct (join2 u1 u2); [eauto|]. exists (undoes s). destruct s; reflexivity.
Qed.

(** The lines an abstract edit goes through. *)
Lemma ains_line a pos l a' : ains a pos l = Some a' ->
  exists p q, aline a = p ++ q /\ zlen p = pos /\ aline a' = p ++ l ++ q /\ acur a' = acur a.
Proof.
  unfold ains. intros H. destruct (Z_le_dec 0 pos) as [H1|H1]; [destruct (Z_le_dec pos (zlen (aline a))) as [H2|H2]|].
  - rewrite sliceInsert_firstn in H by lia. injection H as <-.
    exists (firstn (Z.to_nat pos) (aline a)), (skipn (Z.to_nat pos) (aline a)).
    split; [symmetry; apply firstn_skipn|]. split; [rewrite zlen_firstn; lia|]. split; reflexivity.
  - rewrite sliceInsert_none in H by lia. discriminate.
  - rewrite sliceInsert_none in H by lia. discriminate.
Qed.
Lemma adelete_line a pos n a' : adelete a pos n = Some a' ->
  (exists p d q, aline a = p ++ d ++ q /\ aline a' = p ++ q) /\ acur a' = acur a.
Proof.
  unfold adelete. destruct (_ || _) eqn:Hg; intros H.
  - injection H as <-. split; [|reflexivity]. exists [], [], (aline a). auto.
  - opt H. injection H as <-. split; [|reflexivity].
    apply slice_split in Ev as (p & q & Hl & Hp & Hz). exists p, l, q. split; [exact Hl|].
    cbn. rewrite Hl, <- Hp in Ev0. replace n with (zlen l) in Ev0 by lia.
    rewrite sliceDelete_spec in Ev0. now injection Ev0 as <-.
Qed.

Lemma line_ok_ins V0 p l q : line_ok V0 (p ++ l ++ q) -> lim E l.
Proof. intros (_ & _ & H). apply lim_app_r, lim_app_l in H; assumption. Qed.

Lemma Replace_safe s pos t a : B s -> 0 <= pos -> areplace C (abs s) pos t = Some a -> line_ok (V s) (aline a) ->
  exists s', ReplaceAndRepaint C s pos t = Some s' /\ CInv s' /\ termw s' = termw s.
Proof.
  intros HB Hpos H Hl. unfold areplace in H. opt H. injection H as <-.
  unfold ReplaceAndRepaint. change (acur (abs s)) with (cursor s) in Ev.
  destruct (Delete_conv s pos _ _ HB Ev) as (s1 & w & Hd & Ha1 & Ho1). rewrite Hd.
  pose proof (only_edit_B _ _ Ho1 HB) as HB1.
  rewrite aupdate_line in Hl.
  assert (Haj : forall x, aline (ajoin x) = aline x).
  { intros x. unfold ajoin. destruct (aundo x) as [|? [|? ?]]; try reflexivity. destruct (join2 _ _); reflexivity. }
  rewrite Haj in Hl. cbn in Hl.
  pose proof (ains_line _ _ _ _ Ev0) as (p & q & E1 & E2 & E3 & E4). rewrite E3 in Hl.
  pose proof (line_ok_ins _ _ _ _ Hl) as Hlim.
  rewrite <- Ha1 in Ev0.
  destruct (insertString_conv s1 pos t _ HB1 Hlim Ev0) as (s2 & l & Hi & Ha2 & Ho2 & Hz & Hcl).
  unfold InsertString. rewrite Hi.
  destruct (joinUndo_shape (set_cursor s2 (pos + zlen l))) as [us ->].
  pose proof (only_edit_B _ _ Ho2 HB1) as HB2.
  apply only_edit_fields in Ho1 as (_ & T1 & _ & _). apply only_edit_fields in Ho2 as (_ & T2 & _ & _).
  assert (He : emojis (cells s2) = p ++ units E t ++ q).
  { change (emojis (cells s2)) with (aline (abs s2)). rewrite Ha2. exact E3. }
  destruct (RVS_repaint_ok (set_undoes (set_cursor s2 (pos + zlen l)) us)) as (s' & Hr & HC & Ht).
  - exact HB2.
  - unfold wide, V. cbn. rewrite T2, T1, He. exact Hl.
  - cbn. pose proof (zlen_nonneg l). split; [lia|].
    rewrite <- (zlen_emojis (cells s2)), He, !zlen_app. pose proof (zlen_nonneg q). lia.
  - exists s'. split; [exact Hr|]. split; [exact HC|]. rewrite Ht. cbn. congruence.
Qed.

Lemma BackwardDelete_safe s a : CInv s -> aBackwardDelete C (abs s) = Some a -> line_ok (V s) (aline a) ->
  exists s', cmdBackwardDeleteChar C s = Some s' /\ CInv s' /\ termw s' = termw s.
Proof.
  intros HC H Hl. pose proof HC as (HB & Hv & Hz).
  unfold aBackwardDelete in H. change (acur (abs s)) with (cursor s) in H. unfold cmdBackwardDeleteChar.
  destruct (0 <? cursor s) eqn:H0; [|exists s; auto].
  opt H. injection H as <-. rewrite aupdate_line in Hl.
  rewrite <- abs_set_cursor in Ev. change (cursor (set_cursor s (cursor s - 1))) with (cursor s - 1).
  destruct (Delete_conv (set_cursor s (cursor s - 1)) (cursor s - 1) 1 _ HB Ev) as (s1 & w & Hd & Ha1 & Ho1). rewrite Hd.
  pose proof (only_edit_B _ _ Ho1 HB) as HB1. apply only_edit_fields in Ho1 as (T1 & T2 & T3 & T4). cbn in T1, T2, T3, T4.
  assert (Hlen : zlen (cells s1) = zlen (cells s) - 1).
  { rewrite <- (zlen_emojis (cells s1)). change (emojis (cells s1)) with (aline (abs s1)).
    apply Delete_ref in Hd. unfold adelete in Hd. cbn [aline abs] in Hd. rewrite zlen_emojis in Hd. cbn [cells set_cursor] in Hd.
    destruct (_ || _) eqn:Hg; [lia|]. opt Hd.
    apply (f_equal (fun o => match o with Some y => y | None => abs s end)) in Hd. rewrite <- Hd. cbn [aline aset_line].
    rewrite sliceDelete_firstn in Ev1; try (rewrite ?zlen_emojis; lia). injection Ev1 as <-.
    rewrite zlen_app, zlen_firstn, zlen_skipn, zlen_emojis. lia. }
  assert (Hlim : lim E (emojis (cells s1))) by (change (emojis (cells s1)) with (aline (abs s1)); rewrite Ha1; apply Hl).
  assert (G : exists s', repaint C (if cursor s1 <? view s1 then set_view s1 (cursor s1) else s1) = Some s' /\
     CInv s' /\ termw s' = termw s1).
  { destruct (cursor s1 <? view s1) eqn:Hcv.
    - destruct (repaint_ok (set_view s1 (cursor s1))) as (s' & Hr & HC' & _ & Ht & _); [|exact Hlim|eauto].
      split; [exact HB1|]. cbn. lia.
    - destruct (repaint_ok s1) as (s' & Hr & HC' & _ & Ht & _); [|exact Hlim|eauto].
      split; [exact HB1|]. lia. }
  destruct G as (s' & Hr & HC' & Ht). exists s'. split; [exact Hr|]. split; [exact HC'|]. congruence.
Qed.

Lemma DeleteChar_safe s a : CInv s -> aDelete C (abs s) = Some a -> line_ok (V s) (aline a) ->
  exists s', cmdDeleteChar C s = Some s' /\ CInv s' /\ termw s' = termw s.
Proof.
  intros HC H Hl. pose proof HC as (HB & Hv & Hz). unfold aDelete in H. opt H. injection H as <-.
  change (acur (abs s)) with (cursor s) in Ev. rewrite aupdate_line in Hl.
  destruct (Delete_conv s (cursor s) 1 _ HB Ev) as (s1 & w & Hd & Ha1 & Ho1). unfold cmdDeleteChar. rewrite Hd.
  pose proof (only_edit_B _ _ Ho1 HB) as HB1. apply only_edit_fields in Ho1 as (T1 & T2 & T3 & T4).
  assert (Hlen : cursor s <= zlen (cells s1)).
  { rewrite <- (zlen_emojis (cells s1)). change (emojis (cells s1)) with (aline (abs s1)). rewrite Ha1.
    unfold adelete in Ev. cbn [aline abs] in Ev. rewrite zlen_emojis in Ev.
    destruct (_ || _) eqn:Hg; [injection Ev as <-; cbn; rewrite zlen_emojis; lia|].
    opt Ev. injection Ev as <-. cbn. rewrite sliceDelete_firstn in Ev1; try (rewrite ?zlen_emojis; lia). injection Ev1 as <-.
    rewrite zlen_app, zlen_firstn, zlen_skipn, zlen_emojis. lia. }
  destruct (repaint_ok s1) as (s' & Hr & HC' & _ & Ht & _).
  - split; [exact HB1|]. lia.
  - change (emojis (cells s1)) with (aline (abs s1)). rewrite Ha1. apply Hl.
  - exists s'. split; [exact Hr|]. split; [exact HC'|]. congruence.
Qed.

Lemma self_tail_safe s k a : CInv s -> aself_tail C (abs s) k = Some a -> line_ok (V s) (aline a) ->
  exists s', self_insert_tail C s k = Some s' /\ CInv s' /\ termw s' = termw s.
Proof.
  intros HC H Hl. pose proof HC as (HB & Hv & Hz). unfold aself_tail in H. opt H. injection H as <-.
  rewrite aupdate_line in Hl. cbn [aline aset_cur] in Hl.
  pose proof (ains_line _ _ _ _ Ev) as (p & q & E1 & E2 & E3 & E4). rewrite E3 in Hl.
  destruct (insertString_conv s (cursor s) k _ HB (line_ok_ins _ _ _ _ Hl) Ev) as (s1 & l & Hi & Ha1 & Ho1 & Hzl & Hcl).
  unfold self_insert_tail. rewrite Hi.
  pose proof (only_edit_B _ _ Ho1 HB) as HB1. apply only_edit_fields in Ho1 as (T1 & T2 & T3 & T4).
  assert (He : emojis (cells s1) = p ++ units E k ++ q) by (change (emojis (cells s1)) with (aline (abs s1)); rewrite Ha1; exact E3).
  assert (Hlen : zlen (cells s1) = zlen (cells s) + zlen l).
  { rewrite <- (zlen_emojis (cells s1)), He, !zlen_app, <- (zlen_emojis (cells s)).
    change (emojis (cells s)) with (aline (abs s)). rewrite E1, zlen_app. lia. }
  pose proof (zlen_nonneg l).
  unfold GetWidthBetween. destruct (slice_ex (cells s1) (view s1) (cursor s1)) as (d & ? & ? & Hd & _); [lia|lia|]. rewrite Hd.
  set (s2 := set_cursor s1 (cursor s1 + zlen l)).
  assert (Hw : wide s2) by (unfold wide, V; cbn; rewrite T2, He; exact Hl).
  assert (Hc2 : 0 <= cursor s2 <= zlen (cells s2)) by (cbn; lia).
  destruct (_ <=? _).
  - destruct (RVS_repaint_ok s2 HB1 Hw Hc2) as (s' & Hr & HC' & Ht). exists s'. split; [exact Hr|].
    split; [exact HC'|]. rewrite Ht. exact T2.
  - destruct (repaint_ok s2) as (s' & Hr & HC' & _ & Ht & _).
    + split; [exact HB1|]. cbn in *. lia.
    + apply Hw.
    + exists s'. split; [exact Hr|]. split; [exact HC'|]. rewrite Ht. exact T2.
Qed.

Lemma aBackwardDelete_mid a a' : aBackwardDelete C a = Some a' ->
  exists p d q, aline a = p ++ d ++ q /\ aline a' = p ++ q.
Proof.
  unfold aBackwardDelete. destruct (0 <? acur a).
  - intros H. opt H. injection H as <-. rewrite aupdate_line. apply adelete_line in Ev as [Ev _]. exact Ev.
  - intros H. injection H as <-. exists [], [], (aline a). auto.
Qed.

Lemma selfInsert_safe k s a : CInv s -> wide s -> aselfInsert C k (abs s) = Some a -> line_ok (V s) (aline a) ->
  exists s', selfInsert C k s = Some s' /\ CInv s' /\ termw s' = termw s.
Proof.
  intros HC Hw H Hl. unfold aselfInsert in H. unfold selfInsert. change (acur (abs s)) with (cursor s) in H.
  change (apend (abs s)) with (pending s) in H. change (aline (abs s)) with (emojis (cells s)) in H.
  destruct (AreZeroWidthJoin E (altgr k) && (0 <? cursor s)).
  { opt H. rewrite index_emojis in Ev. destruct (index (cells s) (cursor s - 1)) as [c|]; [|discriminate].
    injection Ev as <-. unfold emoji in H. rewrite write_erase in H.
    destruct (BackwardDelete_safe (set_pending s (write (c_moji c) ++ altgr k)) a HC H Hl) as (s' & Hs & HC' & Ht).
    exists s'. auto. }
  destruct ((AreVariationSelectorLike E (altgr k) || AreEmojiModifier E (altgr k)) && (0 <? cursor s)).
  { opt H. rewrite index_emojis in Ev. destruct (index (cells s) (cursor s - 1)) as [c|]; [|discriminate].
    injection Ev as <-. unfold emoji in H. rewrite write_erase in H.
    assert (Hl0 : line_ok (V s) (aline a0)).
    { destruct (aBackwardDelete_mid _ _ Ev0) as (p & d & q & E1 & ->). unfold wide in Hw.
      change (emojis (cells s)) with (aline (abs s)) in Hw. rewrite E1 in Hw. now apply line_ok_mid in Hw. }
    destruct (BackwardDelete_safe s a0 HC Ev0 Hl0) as (s1 & Hs1 & HC1 & Ht1). rewrite Hs1.
    pose proof (cmdBackwardDeleteChar_ref C s s1 Hs1) as Hr. rewrite Hr in Ev0.
    apply (f_equal (fun o => match o with Some y => y | None => a0 end)) in Ev0. cbv beta iota in Ev0. rewrite <- Ev0 in H.
    destruct (self_tail_safe s1 _ a HC1 H) as (s' & Hs' & HC' & Ht'); [unfold V in *; now rewrite Ht1|].
    exists s'. split; [exact Hs'|]. split; [exact HC'|congruence]. }
  destruct (pending s) as [|b p].
  - apply (self_tail_safe s (altgr k) a); assumption.
  - apply (self_tail_safe (set_pending s []) ((b :: p) ++ altgr k) a); assumption.
Qed.

Lemma clip_write_shape s t : exists cl, clip_write s t = set_clip s cl.
Proof. unfold clip_write. destruct (clip s) eqn:Hc; [eauto|exists None; destruct s; cbn in *; now subst]. Qed.

Lemma KillLine_safe s : CInv s -> exists s', cmdKillLine s = Some s' /\ CInv s' /\ termw s' = termw s.
Proof.
  intros ((Hc & Ht) & Hv & Hz). unfold cmdKillLine, SubString.
  destruct (slice_ex (cells s) (cursor s) (zlen (cells s))) as (d & ? & ? & Hd & _); [lia|lia|]. rewrite Hd.
  destruct (clip_write_shape s (cell2string d)) as [cl ->]. cbn.
  destruct (slice_ex (cells s) 0 (cursor s)) as (d2 & p & q & Hd2 & _ & _ & Hz2); [lia|lia|]. rewrite Hd2.
  eexists. split; [reflexivity|]. split; [|reflexivity].
  split; [split; [eapply Forall_slice; eauto|exact Ht]|]. cbn. lia.
Qed.

Lemma KillWhole_safe s : B s -> exists s', cmdKillWholeLine s = Some s' /\ CInv s' /\ termw s' = termw s /\ cells s' = [] /\ cursor s' = 0.
Proof.
  intros (Hc & Ht). unfold cmdKillWholeLine. eexists. split; [reflexivity|]. split; [|auto].
  split; [split; [constructor|exact Ht]|]. unfold zlen; cbn. lia.
Qed.

Lemma WordRubout_safe s a : CInv s -> aWordRubout C (abs s) = Some a -> line_ok (V s) (aline a) ->
  exists s', cmdUnixWordRubout C s = Some s' /\ CInv s' /\ termw s' = termw s.
Proof.
  intros HC H Hl. pose proof HC as (HB & Hv & Hz). unfold aWordRubout in H. cbn [acur aline abs] in H. opt H. injection H as <-.
  unfold cmdUnixWordRubout. rewrite slice_emojis in Ev.
  destruct (slice (cells s) 0 (cursor s)) as [pre|] eqn:Hpre; [|discriminate]. injection Ev as <-.
  rewrite rev_emojis, count_space in Ev0, Ev2. fold (abs s) in *.
  set (s1 := set_cursor s (cursor s - Z.of_nat (count_while space_cell (rev pre)))) in *.
  assert (Hn : 0 <= Z.of_nat (count_while space_cell (rev pre)) <= cursor s).
  { pose proof (count_while_le space_cell (rev pre)) as Hn. rewrite zlen_rev in Hn.
    apply slice_split in Hpre as (? & ? & _ & _ & Hzz). lia. }
  change (aset_cur (abs s) _) with (abs s1) in Ev0. change (aset_cur (abs s) _) with (abs s1) in Ev2.
  assert (Hcw : CurrentWordTop s1 = Some z).
  { destruct (CurrentWordTop s1) as [z'|] eqn:Hcw; [apply aWordTop_ref in Hcw; congruence|].
    unfold CurrentWordTop in Hcw. destruct (slice_ex (cells s1) 0 (cursor s1)) as (d & ? & ? & Hd & _); [cbn; lia|cbn; lia|].
    rewrite Hd in Hcw. discriminate. }
  rewrite Hcw.
  assert (Hz1 : 0 <= z <= cursor s1).
  { destruct (aWordTop_ok (abs s1)) as (z' & Hz' & Hr); [cbn; rewrite zlen_emojis; lia|]. rewrite Ev0 in Hz'. injection Hz' as <-. exact Hr. }
  cbn [cells cursor s1 set_cursor] in Hz1. 
  unfold SubString. change (cells s1) with (cells s).
  match type of Ev1 with _ = Some ?x => change (slice (emojis (cells s)) z (cursor s) = Some x) in Ev1 end.
  rewrite slice_emojis in Ev1.
  destruct (slice (cells s) z (cursor s)) as [d|] eqn:Hd; [|discriminate]. injection Ev1 as <-.
  rewrite aupdate_line in Hl. cbn [aline aset_cur] in Hl. rewrite cell2string_text.
  rewrite <- abs_clip_write in Ev2.
  destruct (clip_write_shape s1 (text (emojis d))) as [cl Hcl]. rewrite Hcl in *.
  destruct (Delete_conv (set_clip s1 cl) z _ _ HB Ev2) as (s3 & w & Hdel & Ha3 & Ho3). rewrite Hdel.
  pose proof (only_edit_B _ _ Ho3 HB) as HB3. apply only_edit_fields in Ho3 as (T1 & T2 & T3 & T4). cbn in T1, T2, T3, T4.
  assert (Hlen : z <= zlen (cells s3)).
  { rewrite <- (zlen_emojis (cells s3)). change (emojis (cells s3)) with (aline (abs s3)). rewrite Ha3.
    unfold adelete in Ev2. cbn [aline abs cells set_clip s1 set_cursor] in Ev2. rewrite zlen_emojis in Ev2.
    destruct (_ || _) eqn:Hg; [injection Ev2 as <-; cbn; rewrite zlen_emojis; lia|].
    opt Ev2. injection Ev2 as <-. cbn. rewrite sliceDelete_firstn in Ev1; try (rewrite ?zlen_emojis; lia). injection Ev1 as <-.
    rewrite zlen_app, zlen_firstn, zlen_skipn, zlen_emojis. lia. }
  assert (Hw : wide (set_cursor s3 z)).
  { unfold wide, V. cbn. rewrite T2. change (emojis (cells s3)) with (aline (abs s3)). rewrite Ha3. exact Hl. }
  destruct (z - view (set_cursor s3 z) <? 2) eqn:Hg.
  - destruct (RVS_repaint_ok (set_cursor s3 z) HB3 Hw) as (s' & Hr & HC' & Ht); [cbn; lia|].
    exists s'. split; [exact Hr|]. split; [exact HC'|]. rewrite Ht. exact T2.
  - destruct (repaint_ok (set_cursor s3 z)) as (s' & Hr & HC' & _ & Ht & _).
    + split; [exact HB3|]. cbn in *. lia.
    + apply Hw.
    + exists s'. split; [exact Hr|]. split; [exact HC'|]. rewrite Ht. exact T2.
Qed.

Lemma LineDiscard_safe s a : CInv s -> aLineDiscard C (abs s) = Some a -> line_ok (V s) (aline a) ->
  exists s', cmdUnixLineDiscard C s = Some s' /\ CInv s' /\ termw s' = termw s.
Proof.
  intros HC H Hl. pose proof HC as (HB & Hv & Hz). unfold aLineDiscard in H. cbn [acur aline abs] in H. opt H. injection H as <-.
  unfold cmdUnixLineDiscard, SubString. rewrite slice_emojis in Ev.
  destruct (slice (cells s) 0 (cursor s)) as [d|] eqn:Hd; [|discriminate]. injection Ev as <-. fold (abs s) in *.
  rewrite aupdate_line in Hl. cbn [aline aset_cur] in Hl. rewrite cell2string_text.
  rewrite <- abs_clip_write in Ev0.
  destruct (clip_write_shape s (text (emojis d))) as [cl Hcl]. rewrite Hcl in *.
  destruct (Delete_conv (set_clip s cl) 0 _ _ HB Ev0) as (s3 & w & Hdel & Ha3 & Ho3).
  change (cursor (set_clip s cl)) with (cursor s). rewrite Hdel.
  pose proof (only_edit_B _ _ Ho3 HB) as HB3. apply only_edit_fields in Ho3 as (T1 & T2 & T3 & T4). cbn in T1, T2, T3, T4.
  destruct (repaint_ok (set_view (set_cursor s3 0) 0)) as (s' & Hr & HC' & _ & Ht & _).
  - split; [exact HB3|]. cbn. pose proof (zlen_nonneg (cells s3)). lia.
  - cbn. change (emojis (cells s3)) with (aline (abs s3)). rewrite Ha3. apply Hl.
  - exists s'. split; [exact Hr|]. split; [exact HC'|]. rewrite Ht. exact T2.
Qed.

Lemma RepaintAll_safe s ts : CInv s -> wide s ->
  exists s', RepaintAll C (emit s ts) = Some s' /\ CInv s' /\ termw s' = termw s.
Proof.
  intros (HB & Hv & Hz) Hw. unfold RepaintAll. destruct (callPromptWriter E (prompt C)) as [t pw] eqn:Hp.
  destruct (repaint_ok (set_topc (emit (emit s ts) [TFlush; TPrompt t]) pw)) as (s' & Hr & HC' & _ & Ht & _).
  - split; [|exact (conj Hv Hz)]. split; [apply HB|]. unfold PW. rewrite Hp. cbn. lia.
  - apply Hw.
  - exists s'. auto.
Qed.

Lemma swap_cells_conv l i j l' : cok l -> aswap (emojis l) i j = Some l' ->
  exists l2, swap_cells l i j = Some l2 /\ emojis l2 = l' /\ cok l2.
Proof.
  intros Hc H. destruct (swap_cells l i j) as [l2|] eqn:Hs.
  - exists l2. split; [reflexivity|]. pose proof (swap_ref _ _ _ _ Hs) as Hr. rewrite Hr in H. injection H as <-. split; [reflexivity|].
    unfold swap_cells in Hs. opt Hs. pose proof (Forall_index _ _ _ _ Ev Hc) as Ha. pose proof (Forall_index _ _ _ _ Ev0 Hc) as Hb.
    destruct (Forall_set_index _ _ _ _ _ Ev1 Hc Hb) as [H1 _].
    now destruct (Forall_set_index _ _ _ _ _ Hs H1 Ha).
  - exfalso. unfold swap_cells in Hs. unfold aswap in H. opt H. rewrite index_emojis in Ev, Ev0.
    destruct (index l i); [|discriminate]. destruct (index l j); [|discriminate]. injection Ev as <-. injection Ev0 as <-.
    unfold emojis in Ev1. rewrite set_index_map in Ev1. destruct (set_index l i c0) as [l3|]; [|discriminate].
    injection Ev1 as <-. rewrite set_index_map in H. destruct (set_index l3 j c); [discriminate|discriminate].
Qed.

Lemma range_width_two l : cok l -> Forall (fun c => width E (c_moji c) < 0 + range_width C l) l -> l <> [] -> 2 <= zlen l.
Proof.
  intros Hc HF Hn. destruct l as [|c [|d l]]; [easy| |].
  - apply Forall_cons_iff in HF as [HF _]. cbn in HF. lia.
  - rewrite !zlen_cons. pose proof (zlen_nonneg l). lia.
Qed.

(** A range at least as wide as the view has at least two cells. *)
Lemma two_cells s a b d : B s -> wide s -> slice (cells s) a b = Some d -> ViewWidth s <= range_width C d -> a + 2 <= b.
Proof.
  intros HB Hw Hd Hle. destruct (wide_cells s HB Hw) as [Hv HF].
  pose proof (Forall_slice _ _ _ _ _ Hd HF) as HFd. apply slice_split in Hd as (p & q & _ & _ & Hz).
  destruct d as [|c [|c2 d]].
  - cbn in Hle. lia.
  - apply Forall_cons_iff in HFd as [HFd _]. cbn in Hle. lia.
  - rewrite !zlen_cons in Hz. pose proof (zlen_nonneg d). lia.
Qed.

Lemma SwapChar_safe s a : CInv s -> wide s -> aSwapChar (abs s) = Some a -> line_ok (V s) (aline a) ->
  exists s', cmdSwapChar C s = Some s' /\ CInv s' /\ termw s' = termw s.
Proof.
  intros HC Hw H Hl. pose proof HC as (HB & Hv & Hz). unfold aSwapChar in H. unfold cmdSwapChar.
  cbn [acur aline abs] in H. rewrite zlen_emojis in H. fold (abs s) in H.
  destruct (zlen (cells s) =? cursor s) eqn:He.
  - destruct (cursor s <? 2); [exists s; auto|]. opt H. injection H as <-.
    unfold SubString. rewrite slice_emojis in Ev. destruct (slice (cells s) _ _) as [d|]; [|discriminate]. injection Ev as <-.
    destruct (swap_cells_conv _ _ _ _ (proj1 HB) Ev0) as (l2 & Hs & Hl2 & Hc2).
    change (cells (push_undo s _)) with (cells s). rewrite Hs.
    assert (Hz2 : zlen l2 = zlen (cells s)).
    { rewrite <- zlen_emojis, Hl2. unfold aswap in Ev0. opt Ev0.
      destruct (Forall_set_index (fun _ => True) _ _ _ _ Ev2) as [_ Z1]; [apply Forall_forall; auto|exact I|].
      destruct (Forall_set_index (fun _ => True) _ _ _ _ Ev0) as [_ Z2]; [apply Forall_forall; auto|exact I|].
      rewrite Z2, Z1. apply zlen_emojis. }
    cbn in Hl.
    match goal with |- context [puts C ?x _ _] => destruct (puts_ok x (view x) (cursor x)) as (s' & Hp & Hc' & Hpa) end.
    + exact Hc2.
    + cbn. rewrite Hl2. apply Hl.
    + cbn. lia.
    + cbn. lia.
    + exists s'. split; [exact Hp|]. split.
      * eapply paints_CInv; [exact Hpa|exact Hc'|]. split; [split; [exact Hc2|apply HB]|]. cbn. lia.
      * now apply paints_fields in Hpa as (_&_&_&_&_&->&_).
  - destruct (cursor s <? 1); [exists s; auto|]. opt H. injection H as <-.
    unfold SubString. rewrite slice_emojis in Ev. destruct (slice (cells s) (cursor s - 1) _) as [d|]; [|discriminate]. injection Ev as <-.
    unfold GetWidthBetween. change (cells (push_undo s _)) with (cells s). change (view (push_undo s _)) with (view s).
    destruct (slice_ex (cells s) (view s) (cursor s + 1)) as (d2 & ? & ? & Hd2 & _); [lia|lia|]. rewrite Hd2.
    destruct (swap_cells_conv _ _ _ _ (proj1 HB) Ev0) as (l2 & Hs & Hl2 & Hc2). rewrite Hs.
    assert (Hz2 : zlen l2 = zlen (cells s)).
    { rewrite <- zlen_emojis, Hl2. unfold aswap in Ev0. opt Ev0.
      destruct (Forall_set_index (fun _ => True) _ _ _ _ Ev2) as [_ Z1]; [apply Forall_forall; auto|exact I|].
      destruct (Forall_set_index (fun _ => True) _ _ _ _ Ev0) as [_ Z2]; [apply Forall_forall; auto|exact I|].
      rewrite Z2, Z1. apply zlen_emojis. }
    cbn in Hl.
    match goal with |- context [if ViewWidth ?x <=? ?y then _ else _] => set (X := x); destruct (ViewWidth X <=? y) eqn:Hg end.
    + destruct (puts_ok (set_cursor (set_view X (view X + 1)) (cursor s + 1)) (view s + 1) (cursor s + 1)) as (s' & Hp & Hc' & Hpa).
      * exact Hc2.
      * cbn. rewrite Hl2. apply Hl.
      * lia.
      * cbn. lia.
      * exists s'. split; [exact Hp|]. split.
        -- eapply paints_CInv; [exact Hpa|exact Hc'|]. split; [split; [exact Hc2|apply HB]|]. cbn. lia.
        -- now apply paints_fields in Hpa as (_&_&_&_&_&->&_).
    + destruct (puts_ok (set_cursor X (cursor s + 1)) (view s) (cursor s + 1)) as (s' & Hp & Hc' & Hpa).
      * exact Hc2.
      * cbn. rewrite Hl2. apply Hl.
      * lia.
      * cbn. lia.
      * exists s'. split; [exact Hp|]. split.
        -- eapply paints_CInv; [exact Hpa|exact Hc'|]. split; [split; [exact Hc2|apply HB]|]. cbn. lia.
        -- now apply paints_fields in Hpa as (_&_&_&_&_&->&_).
Qed.

Lemma BackwardWord_safe s : CInv s -> wide s ->
  exists s', cmdBackwardWord C s = Some s' /\ CInv s' /\ termw s' = termw s.
Proof.
  intros (HB & Hv & Hz) Hw. unfold cmdBackwardWord.
  destruct (slice_ex (cells s) 0 (cursor s)) as (d & ? & ? & Hd & _ & _ & Hzd); [lia|lia|]. rewrite Hd.
  set (n1 := count_while space_cell (rev d)). set (n2 := count_while _ (skipn n1 (rev d))).
  assert (Hn1 : Z.of_nat n1 <= zlen d) by (rewrite <- (zlen_rev d); apply count_while_le).
  assert (Hn2 : Z.of_nat n2 <= zlen d - Z.of_nat n1).
  { pose proof (count_while_le (fun c => negb (space_cell c)) (skipn n1 (rev d))) as H.
    rewrite zlen_skipn, zlen_rev in H. fold n2 in H. lia. }
  destruct (_ <? view s) eqn:Hg.
  - destruct (repaint_ok (set_cursor (set_view s (cursor s - Z.of_nat n1 - Z.of_nat n2)) (cursor s - Z.of_nat n1 - Z.of_nat n2))) as (s' & Hr & HC' & _ & Ht & _).
    + split; [exact HB|]. cbn. lia.
    + apply Hw.
    + eauto.
  - destruct (repaint_ok (set_cursor s (cursor s - Z.of_nat n1 - Z.of_nat n2))) as (s' & Hr & HC' & _ & Ht & _).
    + split; [exact HB|]. cbn. lia.
    + apply Hw.
    + eauto.
Qed.

Lemma ForwardWord_safe s : CInv s -> wide s ->
  exists s', cmdForwardWord C s = Some s' /\ CInv s' /\ termw s' = termw s.
Proof.
  intros (HB & Hv & Hz) Hw. unfold cmdForwardWord.
  destruct (slice_ex (cells s) (cursor s) (zlen (cells s))) as (d & ? & ? & Hd & _ & _ & Hzd); [lia|lia|]. rewrite Hd.
  set (n1 := count_while (fun c => negb (space_cell c)) d). set (n2 := count_while space_cell (skipn n1 d)).
  assert (Hn1 : Z.of_nat n1 <= zlen d) by apply count_while_le.
  assert (Hn2 : Z.of_nat n2 <= zlen d - Z.of_nat n1).
  { pose proof (count_while_le space_cell (skipn n1 d)) as H. rewrite zlen_skipn in H. fold n2 in H. lia. }
  set (np := cursor s + Z.of_nat n1 + Z.of_nat n2).
  unfold GetWidthBetween. destruct (slice_ex (cells s) (view s) np) as (d2 & ? & ? & Hd2 & _); [unfold np; lia|unfold np; lia|]. rewrite Hd2.
  destruct (_ <? _).
  - destruct (puts_ok s (cursor s) np) as (s1 & Hp & Hc1 & Hpa); [apply HB|apply Hw|unfold np; lia|unfold np; lia|].
    rewrite Hp. eexists. split; [reflexivity|]. pose proof (paints_fields _ _ Hpa) as (_&F2&_&F4&F5&F6&F7&_).
    split; [|exact F6]. split; [split; [exact Hc1|cbn; rewrite F7; apply HB]|]. cbn. unfold np. lia.
  - destruct (RVS_repaint_ok (set_cursor s np)) as (s' & Hr & HC' & Ht); [exact HB|exact Hw|cbn; unfold np; lia|]. eauto.
Qed.

Lemma eol_loop_le l : forall vw w, Z.of_nat (eol_loop C vw w l) <= zlen l.
Proof.
  induction l as [|c l IH]; intros vw w; cbn [eol_loop]; [apply zlen_nonneg|]. rewrite zlen_cons. pose proof (zlen_nonneg l).
  destruct (_ <=? _); [lia|]. specialize (IH vw (w + width E (c_moji c))). lia.
Qed.

Lemma EndOfLine_safe s : CInv s -> wide s ->
  exists s', cmdEndOfLine C s = Some s' /\ CInv s' /\ termw s' = termw s.
Proof.
  intros (HB & Hv & Hz) Hw. unfold cmdEndOfLine, GetWidthBetween.
  destruct (slice_ex (cells s) (view s) (zlen (cells s))) as (d & ? & ? & Hd & _ & _ & Hzd); [lia|lia|]. rewrite Hd.
  destruct (wide_cells s HB Hw) as [Hvw HF]. destruct (range_width C d <? ViewWidth s) eqn:Hg.
  - destruct (puts_ok s (cursor s) (zlen (cells s))) as (s1 & Hp & Hc1 & Hpa); [apply HB|apply Hw|lia|lia|].
    rewrite Hp. eexists. split; [reflexivity|]. pose proof (paints_fields _ _ Hpa) as (_&F2&_&F4&F5&F6&F7&_).
    split; [|exact F6]. split; [split; [exact Hc1|cbn; rewrite F7; apply HB]|]. cbn. lia.
  - assert (Hne : 0 < zlen (cells s)).
    { destruct d as [|c0 d0]; [cbn in Hg; lia|]. rewrite zlen_cons in Hzd. pose proof (zlen_nonneg d0). lia. }
    change (cells (GotoHead s)) with (cells s). destruct (index_lt (cells s) (zlen (cells s) - 1)) as (c & Hc); [lia|]. rewrite Hc.
    set (k := eol_loop C _ _ _).
    assert (Hk : 0 <= Z.of_nat k <= zlen (cells s) - 1).
    { unfold k. pose proof (eol_loop_le (rev (firstn (Z.to_nat (zlen (cells s) - 1)) (cells s))) (ViewWidth (GotoHead s)) (width E (c_moji c))) as H.
      rewrite zlen_rev, zlen_firstn in H. lia. }
    destruct (puts_ok (set_view (GotoHead s) (zlen (cells s) - 1 - Z.of_nat k)) (zlen (cells s) - 1 - Z.of_nat k) (zlen (cells s))) as (s1 & Hp & Hc1 & Hpa);
      [apply HB|apply Hw|lia|cbn; lia|].
    change (view (set_view (GotoHead s) (zlen (cells s) - 1 - Z.of_nat k))) with (zlen (cells s) - 1 - Z.of_nat k).
    rewrite Hp. eexists. split; [reflexivity|]. pose proof (paints_fields _ _ Hpa) as (_&F2&_&F4&F5&F6&F7&_). cbn in F2, F4, F5, F6, F7.
    split; [|exact F6]. split; [split; [exact Hc1|cbn; rewrite F7; apply HB]|]. cbn. lia.
Qed.

Lemma ForwardChar_safe s a : CInv s -> wide s -> aForwardChar C (abs s) = Some a -> line_ok (V s) (aline a) ->
  exists s', cmdForwardChar C s = Some s' /\ CInv s' /\ termw s' = termw s.
Proof.
  intros HC Hw H Hl. pose proof HC as (HB & Hv & Hz). unfold aForwardChar in H. unfold cmdForwardChar.
  cbn [acur aline asuf abs] in H. rewrite zlen_emojis in H. fold (abs s) in H.
  destruct (zlen (cells s) <=? cursor s) eqn:Hg.
  - destruct (suffix s) as [[|m l]|] eqn:Hs; [exists s; auto| |exists s; auto].
    cbn [suflist map] in H. unfold InsertAndRepaint. rewrite flat_map_write. cbn [map].
    apply (Replace_safe s (cursor s) _ a); auto; lia.
  - unfold GetWidthBetween. destruct (slice_ex (cells s) (view s) (cursor s + 1)) as (d & ? & ? & Hd & _ & _ & Hzd); [lia|lia|]. rewrite Hd.
    destruct (range_width C d <? ViewWidth s) eqn:Hg2.
    + destruct (puts_ok s (cursor s) (cursor s + 1)) as (s1 & Hp & Hc1 & Hpa); [apply HB|apply Hw|lia|lia|].
      rewrite Hp. eexists. split; [reflexivity|]. pose proof (paints_fields _ _ Hpa) as (_&F2&_&F4&F5&F6&F7&_).
      split; [|exact F6]. split; [split; [exact Hc1|cbn; rewrite F7; apply HB]|]. cbn. lia.
    + pose proof (two_cells s (view s) (cursor s + 1) d HB Hw Hd ltac:(lia)) as H2.
      change (cells (GotoHead s)) with (cells s). change (cursor (GotoHead s)) with (cursor s). change (view (GotoHead s)) with (view s).
      destruct (index_lt (cells s) (cursor s)) as (cc & Hcc); [lia|]. rewrite Hcc.
      destruct (index_lt (cells s) (view s)) as (cv & Hcv); [lia|]. rewrite Hcv.
      set (s2 := if width E (c_moji cv) <? width E (c_moji cc) then set_view (GotoHead s) (view s + 1) else GotoHead s).
      assert (Hs2 : exists v, s2 = set_view (GotoHead s) v /\ view s <= v <= view s + 1).
      { unfold s2. destruct (width E (c_moji cv) <? width E (c_moji cc)); [exists (view s + 1); split; [reflexivity|lia]|]. exists (view s). split; [destruct s; reflexivity|lia]. }
      destruct Hs2 as (v & -> & Hvr).
      destruct (puts_ok (set_view (GotoHead s) (v + 1)) (v + 1) (cursor s + 1)) as (s1 & Hp & Hc1 & Hpa);
        [apply HB|apply Hw|lia|cbn; lia|].
      change (set_view (set_view (GotoHead s) v) (view (set_view (GotoHead s) v) + 1)) with (set_view (GotoHead s) (v + 1)).
      change (view (set_view (GotoHead s) (v + 1))) with (v + 1). change (cursor (set_view (GotoHead s) (v + 1))) with (cursor s).
      rewrite Hp. eexists. split; [reflexivity|]. pose proof (paints_fields _ _ Hpa) as (_&F2&_&F4&F5&F6&F7&_). cbn in F2, F4, F5, F6, F7.
      split; [|exact F6]. split; [split; [exact Hc1|cbn; rewrite F7; apply HB]|]. cbn. lia.
Qed.

Lemma Undo_safe s a : CInv s -> wide s -> aUndo C (abs s) = Some a -> line_ok (V s) (aline a) ->
  0 <= acur a <= zlen (aline a) ->
  exists s', cmdUndo C s = Some s' /\ CInv s' /\ termw s' = termw s.
Proof.
  intros HC Hw H Hl Hac. pose proof HC as (HB & Hv & Hz). unfold aUndo in H. unfold cmdUndo.
  change (aundo (abs s)) with (undoes s) in H. destruct (undoes s) as [|u rest]; [eexists; split; [reflexivity|]; auto|].
  change (aline (abs s)) with (emojis (cells s)) in H. opt H. injection H as <-.
  rewrite aupdate_line in *. rewrite aupdate_cur in *.
  assert (Hd : exists l1, (if 0 <? u_del u then sliceDelete (cells s) (u_pos u) (u_del u) else Some (cells s)) = Some l1 /\ emojis l1 = l /\ cok l1).
  { destruct (0 <? u_del u) eqn:Hu.
    - unfold emojis in Ev. rewrite sliceDelete_map in Ev by lia. destruct (sliceDelete (cells s) (u_pos u) (u_del u)) as [l1|] eqn:Hsd; [|discriminate].
      injection Ev as <-. exists l1. split; [reflexivity|]. split; [reflexivity|]. eapply Forall_sliceDelete; [|exact Hsd|apply HB]. lia.
    - injection Ev as <-. exists (cells s). split; [reflexivity|]. split; [reflexivity|apply HB]. }
  destruct Hd as (l1 & Hl1 & He1 & Hc1). change (cells (GotoHead (set_undoes s rest))) with (cells s). rewrite Hl1.
  destruct (u_text u) as [|x t].
  - injection Ev0 as <-. cbn in Hl, Hac.
    destruct (RVS_repaint_ok (set_cursor (set_cells (GotoHead (set_undoes s rest)) l1) (u_pos u))) as (s' & Hr & HC' & Ht).
    + split; [exact Hc1|apply HB].
    + unfold wide. cbn. rewrite He1. exact Hl.
    + cbn. rewrite <- zlen_emojis, He1. exact Hac.
    + exists s'. auto.
  - opt Ev0. injection Ev0 as <-. cbn [aline aset_cur aset_line acur] in Hl, Hac.
    set (new := mojis2cells (StringToMoji E (x :: t))).
    assert (Hlim : lim E (units E (x :: t))).
    { destruct (Z_le_dec 0 (u_pos u)); [destruct (Z_le_dec (u_pos u) (zlen l))|].
      - rewrite sliceInsert_firstn in Ev1 by lia. injection Ev1 as <-. now apply line_ok_ins in Hl.
      - rewrite sliceInsert_none in Ev1 by lia. discriminate.
      - rewrite sliceInsert_none in Ev1 by lia. discriminate. }
    assert (Hcn : cok new) by (unfold cok, new, mojis2cells; rewrite Forall_map; cbn [c_moji]; apply StringToMoji_tab; assumption).
    rewrite <- He1, <- emojis_units in Ev1. fold new in Ev1. unfold emojis in Ev1. rewrite sliceInsert_map in Ev1.
    change (cells (set_cells (GotoHead (set_undoes s rest)) l1)) with l1.
    destruct (sliceInsert l1 (u_pos u) new) as [l2|] eqn:Hsi; [|discriminate]. injection Ev1 as Hl2.
    destruct (RVS_repaint_ok (set_cursor (set_cells (set_cells (GotoHead (set_undoes s rest)) l1) l2) (u_pos u + zlen new))) as (s' & Hr & HC' & Ht).
    + split; [eapply Forall_sliceInsert; eauto|apply HB].
    + unfold wide. cbn. unfold emojis. rewrite Hl2. exact Hl.
    + change (0 <= u_pos u + zlen new <= zlen l2). rewrite <- (zlen_emojis l2), <- (zlen_emojis new).
      unfold new. rewrite emojis_units. unfold emojis. rewrite Hl2. exact Hac.
    + exists s'. auto.
Qed.

Lemma save_conv s a : asave C (abs s) = Some a ->
  exists m, saveModifiedHistory C s = Some (set_modh s m) /\ abs (set_modh s m) = a.
Proof.
  unfold asave, saveModifiedHistory. cbn [ahptr amodh abs].
  assert (Ht : atext (abs s) = buf_string s) by (unfold atext, buf_string; cbn; now rewrite cell2string_text).
  rewrite Ht. destruct (hptr s <? zlen (hist C)).
  - intros H. opt H. destruct (str_eqb _ _); injection H as <-.
    + exists (modh s). split; [destruct s; reflexivity|destruct s; reflexivity].
    + eexists. split; reflexivity.
  - intros H. injection H as <-. eexists. split; reflexivity.
Qed.

Lemma show_safe s a : B s -> ashow C (abs s) = Some a -> line_ok (V s) (aline a) ->
  exists s', show_history C s = Some s' /\ CInv s' /\ termw s' = termw s.
Proof.
  intros HB H Hl. unfold ashow in H. unfold show_history.
  destruct (KillWhole_safe s HB) as (s1 & Hk & HC1 & Ht1 & Hce & Hcu). rewrite Hk.
  apply cmdKillWholeLine_ref in Hk. rewrite <- Hk in H. rewrite getHistory_ref in H. opt H.
  destruct s0 as [|x t]; [injection H as <-; exists s1; auto|].
  opt H. injection H as <-. cbn [aline aset_cur] in Hl.
  pose proof (ains_line _ _ _ _ Ev0) as (p & q & E1 & E2 & E3 & E4). rewrite E3 in Hl.
  destruct (insertString_conv s1 0 (x :: t) _ (proj1 HC1) (line_ok_ins _ _ _ _ Hl) Ev0) as (s2 & l & Hi & Ha & Ho & Hzl & Hcl).
  unfold InsertString. rewrite Hi.
  pose proof (only_edit_B _ _ Ho (proj1 HC1)) as HB2. apply only_edit_fields in Ho as (T1 & T2 & T3 & T4).
  destruct (EndOfLine_safe (set_cursor (set_view s2 0) 0)) as (s' & Hs & HC' & Ht').
  - split; [exact HB2|]. cbn. pose proof (zlen_nonneg (cells s2)). lia.
  - unfold wide, V in *. cbn. rewrite T2, Ht1. change (emojis (cells s2)) with (aline (abs s2)). rewrite Ha, E3. exact Hl.
  - exists s'. split; [exact Hs|]. split; [exact HC'|]. rewrite Ht'. cbn. congruence.
Qed.

Lemma History_go_safe s a d : B s -> 
  (let* a1 := asave C (abs s) in ashow C (aset_hptr a1 (ahptr a1 + d))) = Some a -> line_ok (V s) (aline a) ->
  exists s', (let* s1 := saveModifiedHistory C s in show_history C (set_hptr s1 (hptr s1 + d))) = Some s' /\ CInv s' /\ termw s' = termw s.
Proof.
  intros HB H Hl. opt H. destruct (save_conv s _ Ev) as (m & Hm & Ha). rewrite Hm.
  rewrite <- Ha in H. exact (show_safe (set_hptr (set_modh s m) (hptr s + d)) a HB H Hl).
Qed.

Lemma Previous_safe s a : CInv s -> aPrevious C (abs s) = Some a -> line_ok (V s) (aline a) ->
  exists s', cmdPreviousHistory C s = Some s' /\ CInv s' /\ termw s' = termw s.
Proof.
  intros HC H Hl. unfold aPrevious in H. unfold cmdPreviousHistory. change (ahptr (abs s)) with (hptr s) in H.
  destruct (zlen (hist C) <=? 0); [exists s; auto|]. destruct (hptr s <=? 0).
  - destruct (negb (cycling C)); [exists s; auto|].
    apply (History_go_safe (set_hptr s (zlen (hist C) + 1)) a (-1)); [apply HC|exact H|exact Hl].
  - apply (History_go_safe s a (-1)); [apply HC|exact H|exact Hl].
Qed.

Lemma Next_safe s a : CInv s -> aNext C (abs s) = Some a -> line_ok (V s) (aline a) ->
  exists s', cmdNextHistory C s = Some s' /\ CInv s' /\ termw s' = termw s.
Proof.
  intros HC H Hl. unfold aNext in H. unfold cmdNextHistory. change (ahptr (abs s)) with (hptr s) in H.
  destruct (zlen (hist C) <=? 0); [exists s; auto|]. destruct (zlen (hist C) <? hptr s + 1); [exists s; auto|].
  apply (History_go_safe s a 1); [apply HC|exact H|exact Hl].
Qed.

(** Every command runs without a panic if the line it leaves is narrow enough. *)
Lemma exec_safe c s a r : builtin c -> CInv s -> wide s ->
  aexec C true c (abs s) = Some (a, r) -> line_ok (V s) (aline a) -> 0 <= acur a <= zlen (aline a) ->
  exists s', exec C c s = Some (s', r) /\ CInv s' /\ termw s' = termw s.
Proof.
  intros Hb HC Hw H Hl Hac. pose proof HC as (HB & Hv & Hz).
  assert (G : forall (oa : option astate) (o : option buf),
             (forall a0, oa = Some a0 -> line_ok (V s) (aline a0) -> 0 <= acur a0 <= zlen (aline a0) ->
                exists s', o = Some s' /\ CInv s' /\ termw s' = termw s) ->
             acontinue oa = Some (a, r) -> exists s', continue_ o = Some (s', r) /\ CInv s' /\ termw s' = termw s).
  { intros oa o Ho Ha. unfold acontinue in Ha. opt Ha. injection Ha as -> <-.
    destruct (Ho a eq_refl Hl Hac) as (s' & -> & HC' & Ht). exists s'. auto. }
  assert (G2 : forall (o : option buf), (exists s', o = Some s' /\ CInv s' /\ termw s' = termw s) -> r = CONTINUE ->
              exists s', continue_ o = Some (s', r) /\ CInv s' /\ termw s' = termw s).
  { intros o (s' & -> & HC' & Ht) ->. exists s'. auto. }
  destruct c; cbn [aexec exec] in *.
  - injection H as _ <-. exists s. auto.
  - unfold cmdInterrupt. injection H as _ <-. eexists. split; [reflexivity|]. split; [|reflexivity].
    split; [split; [constructor|apply HB]|]. unfold zlen; cbn; lia.
  - injection H as _ <-. apply G2; [|reflexivity].
    destruct (repaint_ok (set_view (set_cursor s 0) 0)) as (s' & Hr & HC' & _ & Ht & _); [|apply Hw|exists s'; auto].
    split; [exact HB|]. cbn. lia.
  - injection H as _ <-. apply G2; [|reflexivity]. unfold cmdBackwardChar.
    destruct (cursor s <=? 0) eqn:Hc0; [exists s; auto|].
    change (cursor (set_cursor s (cursor s - 1))) with (cursor s - 1).
    change (view (set_cursor s (cursor s - 1))) with (view s).
    destruct (cursor s - 1 <? view s) eqn:Hcv.
    + destruct (repaint_ok (set_view (set_cursor s (cursor s - 1)) (view s - 1))) as (s' & Hr & HC' & _ & Ht & _); [|apply Hw|exists s'; auto].
      split; [exact HB|]. cbn. lia.
    + destruct (repaint_ok (set_cursor s (cursor s - 1))) as (s' & Hr & HC' & _ & Ht & _); [|apply Hw|exists s'; auto].
      split; [exact HB|]. cbn. lia.
  - injection H as _ <-. apply G2; [|reflexivity]. now apply EndOfLine_safe.
  - eapply G; [|exact H]. intros a0 Ha0 Hl0 _. eapply ForwardChar_safe; eauto.
  - eapply G; [|exact H]. intros a0 Ha0 Hl0 _. eapply BackwardDelete_safe; eauto.
  - eapply G; [|exact H]. intros a0 Ha0 Hl0 _. eapply DeleteChar_safe; eauto.
  - cbn [aline abs] in H. rewrite zlen_emojis in H. fold (abs s) in H. unfold cmdDeleteOrAbort.
    destruct (0 <? zlen (cells s)).
    + destruct (G (aDelete C (abs s)) (cmdDeleteChar C s)) as (s' & Hs' & R); [|exact H|exists s'; split; [exact Hs'|exact R]].
      intros a0 Ha0 Hl0 _. eapply DeleteChar_safe; eauto.
    + injection H as _ <-. exists s. auto.
  - eapply G; [|exact H]. intros a0 Ha0 Hl0 _. now apply KillLine_safe.
  - injection H as _ <-. apply G2; [|reflexivity]. destruct (KillWhole_safe s HB) as (s' & ? & ? & ? & _). eauto.
  - eapply G; [|exact H]. intros a0 Ha0 Hl0 _. eapply WordRubout_safe; eauto.
  - eapply G; [|exact H]. intros a0 Ha0 Hl0 _. eapply LineDiscard_safe; eauto.
  - injection H as _ <-. apply G2; [|reflexivity]. now apply RepaintAll_safe.
  - injection H as _ <-. apply G2; [|reflexivity]. now apply RepaintAll_safe.
  - injection H as _ <-. exists s. auto.
  - eapply G; [|exact H]. intros a0 Ha0 Hl0 _. unfold aYank in Ha0. unfold cmdYank. change (aclip (abs s)) with (clip s) in Ha0.
    destruct (clip s); [|exists s; auto]. apply (Replace_safe s (cursor s) _ a0); auto. lia.
  - eapply G; [|exact H]. intros a0 Ha0 Hl0 _. unfold aYank in Ha0. unfold cmdYankWithQuote. change (aclip (abs s)) with (clip s) in Ha0.
    destruct (clip s); [|exists s; auto]. apply (Replace_safe s (cursor s) _ a0); auto. lia.
  - eapply G; [|exact H]. intros a0 Ha0 Hl0 _. eapply SwapChar_safe; eauto.
  - eapply G; [|exact H]. intros a0 Ha0 Hl0 _. now apply BackwardWord_safe.
  - eapply G; [|exact H]. intros a0 Ha0 Hl0 _. now apply ForwardWord_safe.
  - eapply G; [|exact H]. intros a0 Ha0 Hl0 Hc0. eapply Undo_safe; eauto.
  - eapply G; [|exact H]. intros a0 Ha0 Hl0 _. eapply Previous_safe; eauto.
  - eapply G; [|exact H]. intros a0 Ha0 Hl0 _. eapply Next_safe; eauto.
  - injection H as _ <-. exists s. auto.
  - eapply G; [|exact H]. intros a0 Ha0 Hl0 _. eapply selfInsert_safe; eauto.
  - destruct Hb.
Qed.

End WithCfg.
