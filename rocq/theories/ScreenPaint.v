(** What the painting functions write, and what the screen shows afterwards. *)
From Verif Require Import Base Utf8 Moji Color Prompt Buffer Commands KeyMap Session MojiFacts Abs AbsRef AbsSess
  AbsSafe AbsInv Safe Spec SpecScreen ScreenFacts.
Ltac lia := unfold rune in *; Lia.lia.

(** ** Parts of a line *)
Lemma part_slice l a b : 0 <= a <= b -> b <= zlen l -> slice l a b = Some (part l a b).
Proof. intros. apply slice_ok; lia. Qed.
Lemma part_of_slice l a b d : slice l a b = Some d -> d = part l a b /\ 0 <= a <= b /\ b <= zlen l.
Proof. intros H. apply slice_some in H as (H1 & H2 & ->). auto. Qed.
Lemma part_skip l a b : 0 <= a <= b -> part l a b = skipn (Z.to_nat a) (firstn (Z.to_nat b) l).
Proof. intros H. unfold part. rewrite firstn_skipn_comm. do 2 f_equal. lia. Qed.
Lemma part_same l l' a b : 0 <= a <= b -> firstn (Z.to_nat b) l = firstn (Z.to_nat b) l' -> part l a b = part l' a b.
Proof. intros H He. now rewrite !part_skip, He. Qed.
Lemma skipn_skipn' {A} (i j : nat) (l : list A) : skipn i (skipn j l) = skipn (j + i) l.
Proof. revert l. induction j as [|j IH]; intros l; [reflexivity|]. destruct l; cbn [skipn Nat.add]; [apply skipn_nil|apply IH]. Qed.
Lemma part_split l a b c : 0 <= a <= b -> b <= c -> part l a c = part l a b ++ part l b c.
Proof.
  intros H1 H2. unfold part. replace (Z.to_nat (c - a)) with (Z.to_nat (b - a) + Z.to_nat (c - b))%nat by lia.
  rewrite <- (firstn_skipn (Z.to_nat (b - a)) (skipn (Z.to_nat a) l)) at 1.
  destruct (Nat.le_gt_cases (Z.to_nat (b - a)) (List.length (skipn (Z.to_nat a) l))) as [Hl|Hl].
  - rewrite firstn_app. rewrite firstn_length_le by exact Hl. rewrite (firstn_all2 (firstn _ _)) by (rewrite firstn_length_le by exact Hl; lia).
    f_equal. rewrite skipn_skipn'. do 2 f_equal; lia.
  - assert (Hs : skipn (Z.to_nat (b - a)) (skipn (Z.to_nat a) l) = []) by (apply skipn_all2; lia).
    rewrite Hs, app_nil_r. rewrite skipn_skipn' in Hs. replace (Z.to_nat a + Z.to_nat (b - a))%nat with (Z.to_nat b) in Hs by lia.
    rewrite Hs, firstn_nil, app_nil_r. rewrite firstn_firstn. f_equal. lia.
Qed.
Lemma part_nil l a : part l a a = [].
Proof. unfold part. now rewrite Z.sub_diag. Qed.
Lemma part_empty l a b : b <= a -> part l a b = [].
Proof. intros H. unfold part. now replace (Z.to_nat (b - a)) with 0%nat by lia. Qed.
Lemma zlen_part l a b : 0 <= a <= b -> b <= zlen l -> zlen (part l a b) = b - a.
Proof. intros H1 H2. destruct (slice_split _ _ _ _ (part_slice l a b H1 H2)) as (p & q & _ & _ & H). exact H. Qed.
Lemma Forall_part {P : moji -> Prop} l a b : Forall P l -> Forall P (part l a b).
Proof.
  intros H. unfold part. rewrite <- (firstn_skipn (Z.to_nat a) l) in H. apply Forall_app in H as [_ H].
  rewrite <- (firstn_skipn (Z.to_nat (b - a)) (skipn (Z.to_nat a) l)) in H. now apply Forall_app in H.
Qed.
Lemma part_app_mid p d q : part (p ++ d ++ q) (zlen p) (zlen p + zlen d) = d.
Proof. pose proof (zlen_nonneg p). pose proof (zlen_nonneg d). pose proof (zlen_nonneg q).
  assert (H2 : slice (p ++ d ++ q) (zlen p) (zlen p + zlen d) = Some d) by apply slice_app_mid.
  apply part_of_slice in H2 as [<- _]. reflexivity. Qed.
Lemma part_app_l p q a b : 0 <= a <= b -> b <= zlen p -> part (p ++ q) a b = part p a b.
Proof. intros H1 H2. apply part_same; [exact H1|]. rewrite firstn_app. replace (Z.to_nat b - List.length p)%nat with 0%nat by (unfold zlen in *; lia). now rewrite firstn_O, app_nil_r. Qed.

(** ** Tokens that change nothing on the row *)
Definition quiet (t : tok) : bool :=
  match t with TColor _ | TAttr _ | TBell | TCursorOn | TCursorOff | TFlush => true | _ => false end.
Definition vis (ts : list tok) : list tok := filter (fun t => negb (quiet t)) ts.
Lemma vis_app a b : vis (a ++ b) = vis a ++ vis b.
Proof. apply filter_app. Qed.
Lemma vis_tm l : vis (tm l) = tm l.
Proof. induction l as [|m l IH]; [reflexivity|]. unfold tm, vis in *. cbn [map filter quiet negb]. now rewrite IH. Qed.

Section Screen.
Variable C : cfg.
Notation E := (cE C).
Hypothesis HE : env_ok E.
Variable other : terminal.
Notation D := (display E other).
Notation W := (total_width E).
Notation ok := (Forall (fun m => 0 <= width E m)).

Lemma D_vis ts : forall sc, D (vis ts) sc = D ts sc.
Proof.
  induction ts as [|t ts IH]; intros sc; [reflexivity|]. unfold vis in *. cbn [filter]. destruct t; cbn [quiet negb display fold_left display1]; apply IH.
Qed.
Lemma inside_vis lim ts : forall sc, inside E other lim sc (vis ts) -> inside E other lim sc ts.
Proof.
  induction ts as [|t ts IH]; intros sc H; [exact H|]. change (t :: ts) with ([t] ++ ts) in *. rewrite vis_app in H.
  apply inside_app.
  - destruct t; try (apply inside_other; intros; discriminate). intros [|x [|y a]] m' b Hx; injection Hx; intros; subst; try discriminate.
    apply (H [] m' (vis ts)). reflexivity.
  - apply IH. intros a m b Hx. replace (D a (D [t] sc)) with (D (vis [t] ++ a) sc) by (rewrite D_app, D_vis; reflexivity). apply (H (vis [t] ++ a) m b). rewrite Hx. now rewrite <- app_assoc.
Qed.

(** The state [s'] comes from [s] by writing, up to quiet tokens, [vs]. *)
Definition emits (s s' : buf) (vs : list tok) : Prop := exists ts, out s' = out s ++ ts /\ vis ts = vs.
Lemma emits_trans s s1 s2 a b : emits s s1 a -> emits s1 s2 b -> emits s s2 (a ++ b).
Proof. intros (t1 & H1 & <-) (t2 & H2 & <-). exists (t1 ++ t2). rewrite H2, H1, app_assoc, vis_app. auto. Qed.
Lemma emits_same s s' : out s' = out s -> emits s s' [].
Proof. intros H. exists []. rewrite app_nil_r. auto. Qed.
Lemma emits_emit s ts : emits s (emit s ts) (vis ts).
Proof. exists ts. auto. Qed.

(** ** Lines without tabs *)
Definition nt (l : list moji) : Prop := Forall (fun m => has_tab m = false) l.
Lemma erase_nt m : has_tab m = false -> erase m = m.
Proof. induction m; cbn; try reflexivity; try discriminate; intros H; apply orb_false_iff in H as [H1 H2]; rewrite IHm1, IHm2; auto. Qed.
Lemma nt_ok l : nt l -> ok l.
Proof. intros H. eapply Forall_impl; [|exact H]. intros m Hm. apply width_nonneg; [exact HE|]. now apply notab_ok. Qed.
Lemma nt_mojis l : nt (emojis l) -> map c_moji l = emojis l.
Proof.
  induction l as [|c l IH]; intros H; [reflexivity|]. rewrite emojis_cons in *. inversion H as [|? ? Hc Hl]; subst. cbn [map]. rewrite IH by exact Hl. f_equal.
  unfold emoji in *. rewrite has_tab_erase in Hc. symmetry. now apply erase_nt.
Qed.
Lemma range_W l : range_width C l = W (map c_moji l).
Proof. induction l as [|c l IH]; [reflexivity|]. cbn [range_width map]. rewrite IH. reflexivity. Qed.
Lemma nt_width l : nt (emojis l) -> range_width C l = W (emojis l).
Proof. intros H. now rewrite range_W, nt_mojis. Qed.
Lemma nt_lim l : nt l -> lim E l.
Proof. intros H. left. apply forallb_forall. intros m Hm. unfold nt in H. rewrite Forall_forall in H. now rewrite (H m Hm). Qed.
Lemma nt_cok l : nt (emojis l) -> cok l.
Proof. intros H. apply cok_notab. apply forallb_forall. intros m Hm. unfold nt in H. rewrite Forall_forall in H. now rewrite (H m Hm). Qed.
Lemma nt_part l a b : nt l -> nt (part l a b).
Proof. apply Forall_part. Qed.

(** ** What the painting functions write *)
Lemma paint_emits l : forall c ts k, paint C c l = Some (ts, k) -> vis ts = tm (map c_moji l).
Proof.
  induction l as [|x l IH]; intros c ts k H; cbn [paint] in H; [injection H as <- _; reflexivity|].
  destruct (print E (c_moji x)); [|discriminate]. destruct (paint C (c_color x) l) as [[ts1 k1]|] eqn:Hp; [|discriminate]. injection H as <- _.
  specialize (IH _ _ _ Hp). rewrite vis_app. destruct (c_color x =? c); unfold vis in *; cbn [filter quiet negb app tm map]; now rewrite IH.
Qed.
Lemma puts_emits s a b s' : nt (line s) -> puts C s a b = Some s' ->
  emits s s' (tm (part (line s) a b)) /\ 0 <= a <= b /\ b <= zlen (line s).
Proof.
  intros Hn H. pose proof (puts_paints C s a b s' H) as Hp. unfold puts in H. destruct (refreshColor C s) as [s1|] eqn:Hr; [|discriminate].
  destruct (slice (cells s1) a b) as [seg|] eqn:Hs; [|discriminate]. destruct (paint C (-1) seg) as [[ts k]|] eqn:Hpt; [|discriminate]. injection H as <-.
  unfold refreshColor in Hr. destruct (refresh_loop C (cursor s) 0 0 [] (cells s)) as [[l p]|] eqn:Hrl; [|discriminate]. injection Hr as <-. cbn [cells set_cells] in Hs.
  assert (He : emojis l = line s) by (eapply refresh_loop_emojis; exact Hrl).
  assert (Hm : slice (line s) a b = Some (map c_moji seg)).
  { rewrite <- He, slice_emojis, Hs. cbn [option_map]. f_equal. symmetry. apply nt_mojis.
    rewrite <- He in Hn. apply slice_split in Hs as (p1 & q1 & -> & _). unfold nt, emojis in *. rewrite !map_app in Hn. apply Forall_app in Hn as [_ Hn]. now apply Forall_app in Hn. }
  apply part_of_slice in Hm as (Hm & Hb). split; [|exact Hb]. eexists. split; [reflexivity|]. rewrite vis_app, (paint_emits _ _ _ _ Hpt), Hm.
  destruct (k =? _); cbn; now rewrite app_nil_r.
Qed.

Lemma view_fit_spec vw l : forall w n w2, w < vw -> view_fit C vw w l = (n, w2) ->
  w2 = w + range_width C (firstn n l) /\ w2 < vw /\ (n <= List.length l)%nat /\
  (forall j, (j <= List.length l)%nat -> ok (map c_moji l) -> w + range_width C (firstn j l) < vw -> (j <= n)%nat).
Proof.
  induction l as [|c l IH]; intros w n w2 Hw H; cbn [view_fit] in H.
  - injection H as <- <-. cbn. repeat split; try lia.
  - destruct (vw <=? w + width E (c_moji c)) eqn:Hc.
    + injection H as <- <-. cbn. repeat split; try lia. intros [|j] Hj Hok Hf; [lia|]. cbn [firstn range_width] in Hf. cbn [map] in Hok.
      inversion Hok as [|? ? _ Hl]; subst. assert (G : 0 <= range_width C (firstn j l)).
      { rewrite range_W, <- firstn_map. apply W_nonneg. rewrite <- (firstn_skipn j (map c_moji l)) in Hl. now apply Forall_app in Hl. } lia.
    + destruct (view_fit C vw (w + width E (c_moji c)) l) as [n1 w1] eqn:Hv. injection H as <- <-.
      apply IH in Hv as (H1 & H2 & H3 & H4); [|lia]. cbn [firstn range_width List.length]. repeat split; try lia.
      intros [|j] Hj Hok Hf; [lia|]. cbn [firstn range_width map] in *. inversion Hok; subst. specialize (H4 j ltac:(lia) ltac:(assumption) ltac:(lia)). lia.
Qed.
(** The end of the view: everything up to it fits, and everything that fits is in it. *)
Lemma getView2_emits s e w : nt (line s) -> 0 < ViewWidth s -> getView2 C s = Some (e, w) ->
  w = W (part (line s) (view s) e) /\ w < ViewWidth s /\ 0 <= view s <= e /\ e <= zlen (line s) /\ view s <= cursor s <= zlen (line s) /\
  (forall j, view s <= j <= zlen (line s) -> W (part (line s) (view s) j) < ViewWidth s -> j <= e).
Proof.
  intros Hn Hv H. unfold getView2, getView in H. destruct (slice (cells s) (view s) (zlen (cells s))) as [v|] eqn:Hs; [|discriminate].
  destruct (view_fit C (ViewWidth s) 0 v) as [n w1] eqn:Hf. destruct (slice (cells s) (view s) (cursor s)) as [v2|] eqn:Hs2; [|discriminate]. injection H as <- <-.
  assert (Hz : zlen (line s) = zlen (cells s)) by apply zlen_map.
  apply slice_some in Hs2 as (Hb1 & Hb2 & _). apply slice_some in Hs as (Hb3 & _ & Hv1).
  assert (Hlen : zlen v = zlen (cells s) - view s).
  { subst v. unfold zlen in *. rewrite firstn_length_le; [lia|]. rewrite skipn_length. lia. }
  assert (He : emojis v = skipn (Z.to_nat (view s)) (line s)).
  { rewrite Hv1. unfold emojis. rewrite <- firstn_map, <- skipn_map. change (map emoji (cells s)) with (line s). apply firstn_all2. rewrite skipn_length. unfold zlen in *. lia. }
  assert (Hnv : nt (emojis v)).
  { rewrite He. unfold nt in *. rewrite <- (firstn_skipn (Z.to_nat (view s)) (line s)) in Hn. now apply Forall_app in Hn. }
  assert (HR : forall j, range_width C (firstn j v) = W (part (line s) (view s) (view s + Z.of_nat j))).
  { intros j. rewrite nt_width.
    - unfold emojis. rewrite <- firstn_map. change (map emoji v) with (emojis v). rewrite He. unfold part. do 2 f_equal. lia.
    - unfold nt, emojis in *. rewrite <- firstn_map. rewrite <- (firstn_skipn j (map emoji v)) in Hnv. now apply Forall_app in Hnv. }
  apply view_fit_spec in Hf as (H1 & H2 & H3 & H4); [|lia]. rewrite HR in H1. unfold zlen in Hlen. repeat split; try lia.
  - rewrite Hz. unfold zlen. lia.
  - intros j Hj Hw. specialize (H4 (Z.to_nat (j - view s))). rewrite HR in H4. replace (view s + Z.of_nat (Z.to_nat (j - view s))) with j in H4 by lia.
    rewrite Hz in Hj. unfold zlen in Hj. specialize (H4 ltac:(lia)). rewrite nt_mojis in H4 by exact Hnv. specialize (H4 (nt_ok _ Hnv) Hw). lia.
Qed.

Lemma paint_suffix_emits vw l : forall w ts, w < vw -> paint_suffix C vw w l = Some ts ->
  exists p r, l = p ++ r /\ ts = tm p /\ w + W p < vw.
Proof.
  induction l as [|m l IH]; intros w ts Hw H; cbn [paint_suffix] in H.
  - injection H as <-. exists [], []. repeat split. rewrite W_nil. lia.
  - destruct (vw <=? w + width E m) eqn:Hc; [injection H as <-; exists [], (m :: l); repeat split; rewrite W_nil; lia|].
    destruct (print E m); [|discriminate]. destruct (paint_suffix C vw (w + width E m) l) as [t1|] eqn:Hp; [|discriminate]. injection H as <-.
    apply IH in Hp as (p & r & -> & -> & Hw1); [|lia]. exists (m :: p), r. repeat split. rewrite W_cons. lia.
Qed.
End Screen.
