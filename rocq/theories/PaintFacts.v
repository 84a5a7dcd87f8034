(** Lemmas for C39 and the tabs of C44: what [puts] paints. *)
From Verif Require Import Base Utf8 Moji Color Prompt Buffer MojiFacts AbsRef Safe Spec SpecTerm SpecPaint.

Section WithCfg.
Variable C : cfg.
Notation E := (cE C).

(** * Tokens *)
Lemma paint_coloured l : forall color ts col c0, paint C color l = Some (ts, col) ->
  (color = -1 \/ c0 = Some color) -> Forall (fun c => c_color c <> -1) l ->
  coloured c0 ts = map (fun c => (c_moji c, Some (c_color c))) l /\
  last_colour c0 ts = (match l with [] => c0 | _ => Some col end) /\
  (l = [] -> col = color) /\ (l <> [] -> col <> -1) /\
  (c0 = Some color \/ c0 = None -> thrifty c0 ts).
Proof.
  induction l as [|c l IH]; intros color ts col c0 H Hc Hn; cbn [paint] in H.
  - injection H as <- <-. cbn. tauto.
  - inversion Hn as [|? ? Hn1 Hn2]; subst. destruct (print E (c_moji c)); [|discriminate]. destruct (paint C (c_color c) l) as [[ts1 col1]|] eqn:Hp; [|discriminate].
    injection H as <- <-.
    destruct (IH _ _ _ (Some (c_color c)) Hp (or_intror eq_refl) Hn2) as (H1 & H2 & H3 & H4 & H5).
    assert (G : coloured c0 ((if c_color c =? color then [] else [TColor (c_color c)]) ++ TMoji (c_moji c) :: ts1)
                = (c_moji c, Some (c_color c)) :: coloured (Some (c_color c)) ts1 /\
                last_colour c0 ((if c_color c =? color then [] else [TColor (c_color c)]) ++ TMoji (c_moji c) :: ts1) = last_colour (Some (c_color c)) ts1 /\
                (c0 = Some color \/ c0 = None -> thrifty (Some (c_color c)) ts1 -> thrifty c0 ((if c_color c =? color then [] else [TColor (c_color c)]) ++ TMoji (c_moji c) :: ts1))).
    { destruct (c_color c =? color) eqn:Hq; cbn [app coloured last_colour thrifty].
      - assert (c0 = Some (c_color c)) by (destruct Hc; [lia|subst; f_equal; lia]). subst. auto.
      - split; [reflexivity|]. split; [reflexivity|]. intros Hx Hy. split; [|exact Hy]. intros ->. destruct Hx as [Hx|Hx]; [injection Hx as Hx; lia|discriminate]. }
    destruct G as (G1 & G2 & G3). rewrite G1, G2, H1, H2. split; [reflexivity|]. split; [destruct l; [now rewrite (H3 eq_refl)|reflexivity]|].
    split; [discriminate|]. split; [|intros Hx; apply G3; [exact Hx|apply H5; now left]]. intros _. destruct l; [rewrite (H3 eq_refl); exact Hn1|apply H4; discriminate].
Qed.
Lemma coloured_app a : forall c b, coloured c (a ++ b) = coloured c a ++ coloured (last_colour c a) b.
Proof. induction a as [|t a IH]; intros c b; [reflexivity|]. destruct t; cbn [app coloured last_colour]; rewrite IH; reflexivity. Qed.
Lemma last_colour_app a : forall c b, last_colour c (a ++ b) = last_colour (last_colour c a) b.
Proof. induction a as [|t a IH]; intros c b; [reflexivity|]. destruct t; cbn [app last_colour]; apply IH. Qed.
Lemma thrifty_app a : forall c b, thrifty c a -> thrifty (last_colour c a) b -> thrifty c (a ++ b).
Proof. induction a as [|t a IH]; intros c b Ha Hb; [exact Hb|]. destruct t; cbn [app last_colour thrifty] in *; try (now apply IH). split; [tauto|]. apply IH; tauto. Qed.

Lemma puts_tokens s a b s' : puts C s a b = Some s' -> Forall (fun c => c_color c <> -1) (cells s') -> c_init (ccol C) <> -1 ->
  exists ts seg, out s' = out s ++ ts /\ slice (cells s') a b = Some seg /\
    coloured None ts = map (fun c => (c_moji c, Some (c_color c))) seg /\
    last_colour None ts = Some (c_init (ccol C)) /\ thrifty None ts.
Proof.
  unfold puts. intros H Hn Hd. destruct (refreshColor C s) as [s1|] eqn:Hr; [|discriminate].
  destruct (slice (cells s1) a b) as [seg|] eqn:Hs; [|discriminate]. destruct (paint C (-1) seg) as [[ts col]|] eqn:Hp; [|discriminate].
  injection H as <-. cbn [emit cells out] in *.
  assert (Ho : out s1 = out s). { unfold refreshColor in Hr. destruct (refresh_loop C (cursor s) 0 0 [] (cells s)) as [[l p]|]; [|discriminate]. injection Hr as <-. reflexivity. }
  assert (Hn2 : Forall (fun c => c_color c <> -1) seg).
  { apply slice_split in Hs as (p & q & Hs & _). rewrite Hs in Hn. apply Forall_app in Hn as [_ Hn]. now apply Forall_app in Hn as [Hn _]. }
  destruct (paint_coloured seg (-1) ts col None Hp (or_introl eq_refl) Hn2) as (H1 & H2 & H3 & H4 & H5).
  exists (ts ++ (if col =? c_init (ccol C) then [] else [TColor (c_init (ccol C))])), seg. rewrite Ho.
  split; [reflexivity|]. split; [exact Hs|].
  rewrite coloured_app, last_colour_app, H1, H2. specialize (H5 (or_intror eq_refl)).
  destruct (col =? c_init (ccol C)) eqn:Hq.
  - cbn [coloured last_colour]. rewrite !app_nil_r. split; [reflexivity|]. split; [|exact H5]. destruct seg; [rewrite (H3 eq_refl) in Hq; lia|]. f_equal. lia.
  - cbn [coloured last_colour]. rewrite app_nil_r. split; [reflexivity|]. split; [reflexivity|]. apply thrifty_app; [exact H5|]. rewrite H2. cbn. split; [|exact I].
    destruct seg; [discriminate|]. intros Hx. injection Hx as Hx. lia.
Qed.

(** * Colours *)
Definition mk (i cur : Z) : list rune := if i =? cur then [marker] else [].
Fixpoint heard (cur i : Z) (l : list moji) : list rune :=
  match l with [] => [] | m :: l' => mk i cur ++ mrunes m ++ heard cur (i + 1) l' end.
Lemma heard_out l : forall cur i, cur < i \/ i + zlen l <= cur -> heard cur i l = flat_map mrunes l.
Proof.
  induction l as [|m l IH]; intros cur i H; cbn [heard flat_map]; [reflexivity|]. rewrite zlen_cons in H. pose proof (zlen_nonneg l).
  unfold mk. replace (i =? cur) with false by lia. cbn [app]. f_equal. apply IH. lia.
Qed.
Lemma heard_in l : forall cur i, i <= cur < i + zlen l ->
  heard cur i l = flat_map mrunes (firstn (Z.to_nat (cur - i)) l) ++ [marker] ++ flat_map mrunes (skipn (Z.to_nat (cur - i)) l).
Proof.
  induction l as [|m l IH]; intros cur i H; [unfold zlen in H; cbn in H; lia|]. rewrite zlen_cons in H. cbn [heard]. unfold mk.
  destruct (i =? cur) eqn:He.
  - replace (Z.to_nat (cur - i)) with 0%nat by lia. cbn [firstn skipn flat_map app]. f_equal. f_equal. apply heard_out. lia.
  - replace (Z.to_nat (cur - i)) with (Datatypes.S (Z.to_nat (cur - (i + 1)))) by lia. cbn [firstn skipn flat_map app]. rewrite IH by lia.
    now rewrite <- app_assoc.
Qed.
Lemma runes_written l : Forall moji_valid l -> runes (written l) = flat_map mrunes l.
Proof.
  intros H. change (written l) with (text l). rewrite text_mrunes. apply runes_encode. induction H as [|m l Hm _ IH]; [constructor|]. cbn [flat_map].
  apply Forall_app. auto.
Qed.
Lemma marked_heard cur l : Forall moji_valid l -> marked cur l = heard cur 0 l.
Proof.
  intros H. unfold marked. destruct ((0 <=? cur) && (cur <? zlen l)) eqn:He.
  - rewrite heard_in by lia. rewrite Z.sub_0_r.
    assert (F : Forall moji_valid (firstn (Z.to_nat cur) l) /\ Forall moji_valid (skipn (Z.to_nat cur) l)) by (apply Forall_app; now rewrite firstn_skipn).
    now rewrite !runes_written by tauto.
  - rewrite heard_out by lia. now apply runes_written.
Qed.
Lemma feed_spec rs : forall past cs, feed C past cs rs =
  (rev rs ++ past, match rs with [] => cs | _ => c_next (ccol C) (rev (removelast rs) ++ past) (last rs 0) end).
Proof.
  induction rs as [|r rs IH]; intros past cs; [reflexivity|]. cbn [feed]. rewrite IH. cbn [rev]. rewrite <- app_assoc. cbn [app]. f_equal.
  destruct rs as [|r2 rs]; [reflexivity|]. change (removelast (r :: r2 :: rs)) with (r :: removelast (r2 :: rs)). cbn [rev]. rewrite <- app_assoc. reflexivity.
Qed.
Lemma answer_app K p h : h <> [] -> answer K (p ++ h) = c_next K (rev (removelast h) ++ rev p) (last h 0).
Proof.
  intros H. unfold answer. rewrite removelast_app by exact H. rewrite rev_app_distr. f_equal.
  destruct (exists_last H) as (h' & x & ->). rewrite app_assoc, !last_last. reflexivity.
Qed.
Lemma refresh_colours l : forall cur i pos past l' p, refresh_loop C cur i pos past l = Some (l', p) ->
  Forall (fun c => unit_runes C (c_moji c) = Some (mrunes (c_moji c))) l ->
  forall k c, nth_error l' k = Some c -> c_color c = answer (ccol C) (rev past ++ heard cur i (firstn (Datatypes.S k) (map c_moji l))).
Proof.
  induction l as [|c0 l IH]; intros cur i pos past l' p H Hu k c Hk; cbn [refresh_loop] in H.
  - injection H as <- _. destruct k; discriminate.
  - inversion Hu as [|? ? Hu1 Hu2]; subst. rewrite Hu1 in H. rewrite feed_spec in H.
    set (m' := match c_moji c0 with MTab _ => MTab pos | m => m end) in H.
    destruct (refresh_loop C cur (i + 1) _ _ l) as [[l2 p2]|] eqn:Hr; [|discriminate]. injection H as <- <-.
    assert (Hne := mrunes_nonempty (c_moji c0)).
    destruct k as [|k]; cbn [nth_error] in Hk.
    + injection Hk as <-. cbn [c_color map]. change (firstn 1 (c_moji c0 :: map c_moji l)) with [c_moji c0]. cbn [heard]. rewrite app_nil_r, app_assoc.
      rewrite answer_app by exact Hne. destruct (mrunes (c_moji c0)) as [|r rs] eqn:Hm; [congruence|]. f_equal. f_equal.
      rewrite rev_app_distr, rev_involutive. unfold mk, CursorPositionDummyRune, marker. destruct (i =? cur); reflexivity.
    + specialize (IH _ _ _ _ _ _ Hr Hu2 k c Hk). rewrite IH. cbn [map]. change (firstn (Datatypes.S (Datatypes.S k)) (c_moji c0 :: map c_moji l)) with (c_moji c0 :: firstn (Datatypes.S k) (map c_moji l)).
      cbn [heard]. f_equal. rewrite rev_app_distr, rev_involutive, !app_assoc. do 2 f_equal.
      unfold mk, CursorPositionDummyRune, marker. destruct (i =? cur); cbn [rev]; now rewrite ?app_nil_r.
Qed.
Lemma refresh_heard l : forall cur i pos past l' p, refresh_loop C cur i pos past l = Some (l', p) ->
  Forall (fun c => unit_runes C (c_moji c) = Some (mrunes (c_moji c))) l ->
  rev p = rev past ++ heard cur i (map c_moji l) ++ mk (i + zlen l) cur.
Proof.
  induction l as [|c0 l IH]; intros cur i pos past l' p H Hu; cbn [refresh_loop] in H.
  - injection H as _ <-. cbn [map heard app]. change (zlen []) with 0. rewrite Z.add_0_r. unfold mk, CursorPositionDummyRune, marker. destruct (i =? cur); cbn [rev]; now rewrite ?app_nil_r.
  - inversion Hu as [|? ? Hu1 Hu2]; subst. rewrite Hu1 in H. rewrite feed_spec in H.
    set (m' := match c_moji c0 with MTab _ => MTab pos | m => m end) in H.
    destruct (refresh_loop C cur (i + 1) _ _ l) as [[l2 p2]|] eqn:Hr; [|discriminate]. injection H as _ <-.
    rewrite (IH _ _ _ _ _ _ Hr Hu2). cbn [map heard]. rewrite rev_app_distr, rev_involutive, zlen_cons, <- !app_assoc.
    replace (i + 1 + zlen l) with (i + (zlen l + 1)) by lia.
    replace (rev (if i =? cur then CursorPositionDummyRune :: past else past)) with (rev past ++ mk i cur)
      by (unfold mk, CursorPositionDummyRune, marker; destruct (i =? cur); cbn [rev]; now rewrite ?app_nil_r).
    now rewrite <- !app_assoc.
Qed.
(** The runes of units painted as they are. *)
Lemma print_as_is m : as_is m = true -> print E m = Some (write m).
Proof.
  induction m; cbn [as_is]; try discriminate; intros H; try reflexivity. apply andb_true_iff in H as [H1 H2].
  cbn [print write]. rewrite IHm1, IHm2 by assumption. destruct m1; try discriminate; reflexivity.
Qed.
Lemma unit_runes_ok m : moji_valid m -> heard_as_is m = true -> unit_runes C m = Some (mrunes m).
Proof.
  intros Hv H. destruct m; try reflexivity; try discriminate.
  - unfold unit_runes. cbn [MojiToRune]. rewrite print_as_is by exact H. now rewrite write_mrunes, runes_encode by exact Hv.
  - unfold unit_runes. cbn [MojiToRune print]. change (write m1 ++ write m2) with (write (MMod m1 m2)). now rewrite write_mrunes, runes_encode by exact Hv.
Qed.
Lemma puts_refresh s a b s' : puts C s a b = Some s' -> exists p, refresh_loop C (cursor s) 0 0 [] (cells s) = Some (cells s', p).
Proof.
  unfold puts, refreshColor. destruct (refresh_loop C (cursor s) 0 0 [] (cells s)) as [[l p]|]; [|discriminate]. intros H.
  destruct (slice _ a b) as [seg|]; [|discriminate]. destruct (paint C (-1) seg) as [[ts col]|]; [|discriminate]. injection H as <-. now exists p.
Qed.
Lemma unit_of_as_is m : heard_as_is (erase m) = heard_as_is m.
Proof.
  assert (G : forall m, as_is (erase m) = as_is m) by (induction m0; cbn; congruence).
  destruct m; try reflexivity. apply (G (MZwj m1 m2)).
Qed.
Lemma written_erase l : written (map erase l) = written l. Proof. apply text_erase. Qed.
Lemma zlen_erase (l : list moji) : zlen (map erase l) = zlen l. Proof. unfold zlen. now rewrite map_length. Qed.
Lemma marked_erase cur l : marked cur (map erase l) = marked cur l.
Proof. unfold marked. rewrite zlen_erase, firstn_map, skipn_map, !written_erase. reflexivity. Qed.
Lemma puts_colours s a b s' : puts C s a b = Some s' -> Forall moji_valid (line s) -> Forall (fun m => heard_as_is m = true) (line s) ->
  forall k c, nth_error (cells s') k = Some c -> c_color c = answer (ccol C) (marked (cursor s) (firstn (Datatypes.S k) (line s))).
Proof.
  intros H Hv Hh k c Hk. apply puts_refresh in H as [p H]. unfold line in *.
  rewrite (refresh_colours _ _ _ _ _ _ _ H) with (k := k) (c := c); [|clear -Hv Hh|exact Hk].
  - cbn [rev app]. f_equal.
    rewrite <- (map_map c_moji erase), (firstn_map erase), marked_erase. symmetry. apply marked_heard.
    rewrite <- (map_map c_moji erase) in Hv. apply Forall_forall. intros m Hm. rewrite Forall_forall in Hv.
    specialize (Hv (erase m)). unfold moji_valid in *. rewrite mrunes_erase in Hv. apply Hv. apply in_map.
    rewrite <- (firstn_skipn (Datatypes.S k) (map c_moji (cells s))). apply in_or_app. now left.
  - rewrite Forall_map in Hv, Hh. rewrite Forall_forall in *. intros x Hx. specialize (Hv x Hx). specialize (Hh x Hx). cbn beta in *.
    apply unit_runes_ok; [|now rewrite <- unit_of_as_is]. unfold moji_valid in *. now rewrite mrunes_erase in Hv.
Qed.

Lemma all_heard s l p : refresh_loop C (cursor s) 0 0 [] (cells s) = Some (l, p) -> Forall moji_valid (line s) -> Forall (fun m => heard_as_is m = true) (line s) ->
  rev p = marked (cursor s) (line s) ++ (if cursor s =? zlen (line s) then [marker] else []).
Proof.
  intros H Hv Hh. unfold line in *. rewrite (refresh_heard _ _ _ _ _ _ _ H).
  - cbn [rev app]. rewrite <- (map_map c_moji erase), marked_erase, zlen_erase. rewrite Z.add_0_l. unfold mk. rewrite (Z.eqb_sym (cursor s)). f_equal; [|unfold zlen; now rewrite map_length].
    symmetry. apply marked_heard. rewrite Forall_map in *. eapply Forall_impl; [|exact Hv]. intros x Hx. cbn beta in *. unfold moji_valid in *. now rewrite mrunes_erase in Hx.
  - rewrite Forall_map in Hv, Hh. rewrite Forall_forall in *. intros x Hx. specialize (Hv x Hx). specialize (Hh x Hx). cbn beta in *.
    apply unit_runes_ok; [|now rewrite <- unit_of_as_is]. unfold moji_valid in *. now rewrite mrunes_erase in Hv.
Qed.

(** * Tabs *)
Lemma wn m : sane_widths E -> 0 <= width E m.
Proof.
  intros (H1 & H2 & H3). induction m; cbn [width]; try lia; auto.
  - pose proof (Z.rem_bound_abs pos 4 ltac:(lia)). lia.
  - pose proof (lenEscaped_ge r). lia.
  - specialize (H2 (width E m1) (width E m2)). lia.
  - destruct m1; lia.
Qed.
Lemma columns_nn l : sane_widths E -> 0 <= columns E l.
Proof. intros H. induction l as [|m l IH]; cbn [columns fold_right]; [lia|]. pose proof (wn m H). fold (columns E l). lia. Qed.
Lemma refresh_tabs l : sane_widths E -> forall cur i pos past l' p, refresh_loop C cur i pos past l = Some (l', p) -> 0 <= pos <= 32767 ->
  forall a t q, map c_moji l' = a ++ MTab t :: q -> pos + columns E a <= 32767 -> t = pos + columns E a.
Proof.
  intros Hs. induction l as [|c0 l IH]; intros cur i pos past l' p H Hp a t q Hl Hc; cbn [refresh_loop] in H.
  - injection H as <- _. destruct a; discriminate.
  - destruct (unit_runes C (c_moji c0)); [|discriminate]. rewrite feed_spec in H.
    set (m' := match c_moji c0 with MTab _ => MTab pos | m => m end) in H.
    destruct (refresh_loop C cur (i + 1) _ _ l) as [[l2 p2]|] eqn:Hr; [|discriminate]. injection H as <- <-. cbn [map c_moji] in Hl.
    destruct a as [|x a]; cbn [app] in Hl; injection Hl as Hx Hl.
    + cbn. unfold m' in Hx. destruct (c_moji c0); try discriminate. injection Hx as <-. lia.
    + subst x. cbn [columns fold_right] in *. fold (columns E a) in *. pose proof (wn m' Hs). pose proof (columns_nn a Hs).
      assert (Hw : wrap16 (pos + width E m') = pos + width E m') by (unfold wrap16; rewrite Z.mod_small; lia).
      rewrite Hw in Hr. rewrite (IH _ _ _ _ _ _ Hr ltac:(lia) a t q Hl ltac:(lia)). lia.
Qed.
Lemma puts_tabs s a b s' : sane_widths E -> puts C s a b = Some s' ->
  forall p t q, map c_moji (cells s') = p ++ MTab t :: q -> columns E p < 32768 -> t = columns E p.
Proof. intros Hs H p t q Hl Hc. apply puts_refresh in H as [p' H]. rewrite (refresh_tabs _ Hs _ _ _ _ _ _ H ltac:(lia) p t q Hl ltac:(lia)). lia. Qed.
Lemma tab_width t : 0 <= t -> 1 <= width E (MTab t) <= 4 /\ (t + width E (MTab t)) mod 4 = 0 /\ print E (MTab t) = Some (repeat 32 (Z.to_nat (width E (MTab t)))).
Proof.
  intros H. cbn [width print]. rewrite Z.rem_mod_nonneg by lia. pose proof (Z.mod_pos_bound t 4 ltac:(lia)) as Hb. split; [lia|]. split.
  - pose proof (Z.div_mod t 4 ltac:(lia)). replace (t + (4 - t mod 4)) with ((t / 4 + 1) * 4) by lia. apply Z.mod_mul. lia.
  - assert (t mod 4 = 0 \/ t mod 4 = 1 \/ t mod 4 = 2 \/ t mod 4 = 3) as [->|[->|[->| ->]]] by lia; reflexivity.
Qed.
Lemma columns_app p q : columns E (p ++ q) = columns E p + columns E q.
Proof. induction p as [|m p IH]; [reflexivity|]. cbn [app columns fold_right]. fold (columns E (p ++ q)). fold (columns E p). lia. Qed.
Lemma tabs_shown s a b s' : sane_widths E -> puts C s a b = Some s' ->
  forall p t q, map c_moji (cells s') = p ++ MTab t :: q -> columns E p < 32768 ->
  exists n, print E (MTab t) = Some (repeat 32 (Z.to_nat n)) /\ width E (MTab t) = n /\ 1 <= n <= 4 /\ columns E (p ++ [MTab t]) mod 4 = 0.
Proof.
  intros Hs H p t q Hl Hc. pose proof (puts_tabs s a b s' Hs H p t q Hl Hc) as Ht. pose proof (columns_nn p Hs) as Hn.
  destruct (tab_width t ltac:(lia)) as (H1 & H2 & H3). exists (width E (MTab t)). split; [exact H3|]. split; [reflexivity|]. split; [exact H1|].
  rewrite columns_app, <- Ht. cbn [columns fold_right]. now rewrite Z.add_0_r.
Qed.
End WithCfg.
