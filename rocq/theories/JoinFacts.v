(** Joined characters typed code point by code point (C43). *)
From Verif Require Import Base Utf8 Moji Color Prompt Buffer Commands KeyMap Session MojiFacts
  Abs AbsRef AbsSess AbsSafe AbsInv Spec TextFacts Reach CmdFacts WordFacts EditFacts EditProps SessFacts HistFacts SessProps.

Section WithEnv.
Variable E : env.
Definition glue1 (m : moji) (x : piece) : moji :=
  match x with
  | Attach r => if isVariationSelectorLike E r then MVar m (MRaw r) else MMod m (MRaw r)
  | Join _ n => MZwj m (MRaw n)
  end.
Definition glue (m : moji) (l : list piece) : moji := fold_left glue1 l m.
Definition norm1 (x : piece) : piece := match x with Join _ n => Join 8205 n | _ => x end.

Lemma zwj_is z : (z = 8204 \/ z = 8205) -> zwj_ok E = true -> isZeroWidthJoin E z = true.
Proof. intros [->| ->] H; unfold isZeroWidthJoin; rewrite H; reflexivity. Qed.
Lemma attach_is r : joins E r = true -> r <> 8204 -> r <> 8205 ->
  isZeroWidthJoin E r = false /\ (isVariationSelectorLike E r = true \/ isEmojiModifier E r = true).
Proof.
  unfold joins, isZeroWidthJoin, isVariationSelectorLike, isEmojiModifier, is_join_control, in_range. intros H H1 H2.
  replace (r =? 8204) with false in * by lia. replace (r =? 8205) with false in * by lia. cbn [orb] in *. rewrite andb_false_r in *. cbn [orb] in H.
  split; [reflexivity|]. apply orb_true_iff in H as [H|H]; [now left|]. right. now rewrite <- andb_assoc in H.
Qed.
Lemma units_from_glue l : forall m, Forall (piece_ok E) l -> units_from E (Some m) (flat_map piece_runes l) = [glue m l].
Proof.
  induction l as [|x l IH]; intros m H; [reflexivity|]. apply Forall_cons_iff in H as [Hx H]. cbn [flat_map glue fold_left].
  change (fold_left glue1 l (glue1 m x)) with (glue (glue1 m x) l). destruct x as [r|z n]; cbn [piece_runes app].
  - destruct Hx as (_ & Hj & H1 & H2). destruct (attach_is r Hj H1 H2) as [Hz Hv]. rewrite units_some_other by exact Hz. cbn [glue1].
    destruct (isVariationSelectorLike E r); [now apply IH|]. destruct Hv as [Hv|Hv]; [discriminate|]. rewrite Hv. now apply IH.
  - destruct Hx as (Hz & Hf & _). rewrite units_some_zwj by (now apply zwj_is). now apply IH.
Qed.
Lemma joined_valid base l : valid_rune base = true -> Forall (piece_ok E) l -> Forall (fun r => valid_rune r = true) (joined_runes base l).
Proof.
  intros Hb H. constructor; [exact Hb|]. induction H as [|x l Hx _ IH]; [constructor|]. cbn [flat_map]. apply Forall_app. split; [|exact IH].
  destruct x as [r|z n]; cbn [piece_runes].
  - destruct Hx as [Hx _]. now repeat constructor.
  - destruct Hx as (Hz & _ & Hn & _). constructor; [destruct Hz as [->| ->]; reflexivity|]. now repeat constructor.
Qed.
Lemma units_joined base l : valid_rune base = true -> Forall (piece_ok E) l ->
  units E (encode (joined_runes base l)) = [glue (rune2moji E base 0) l].
Proof.
  intros Hb H. unfold units. rewrite runes_encode by (now apply joined_valid). unfold joined_runes. rewrite units_none. now apply units_from_glue.
Qed.
Lemma mrunes_glue l : forall m, mrunes (glue m l) = mrunes m ++ flat_map piece_runes (map norm1 l).
Proof.
  induction l as [|x l IH]; intros m; cbn [map flat_map glue fold_left]; [now rewrite app_nil_r|].
  change (fold_left glue1 l (glue1 m x)) with (glue (glue1 m x) l). rewrite IH, app_assoc. f_equal. destruct x as [r|z n]; cbn [glue1 norm1 piece_runes].
  - destruct (isVariationSelectorLike E r); reflexivity.
  - reflexivity.
Qed.
Lemma glue_norm l : forall m, glue m (map norm1 l) = glue m l.
Proof.
  induction l as [|x l IH]; intros m; [reflexivity|]. cbn [map glue fold_left]. change (fold_left glue1) with (fun l m => glue m l). cbn beta. rewrite IH.
  destruct x; reflexivity.
Qed.
Lemma norm_ok l : Forall (piece_ok E) l -> Forall (piece_ok E) (map norm1 l).
Proof.
  induction 1 as [|x l Hx _ IH]; constructor; [|exact IH]. destruct x as [r|z n]; [exact Hx|]. destruct Hx as (_ & H). split; [now right|exact H].
Qed.
Lemma write_glue base l : write (glue (rune2moji E base 0) l) = encode (joined_runes base (map norm1 l)).
Proof. rewrite write_mrunes, mrunes_glue, mrunes_rune2moji. reflexivity. Qed.
Lemma grow base l x : valid_rune base = true -> Forall (piece_ok E) (l ++ [x]) ->
  units E (write (glue (rune2moji E base 0) l) ++ encode (piece_runes x)) = [glue (rune2moji E base 0) (l ++ [x])].
Proof.
  intros Hb H. apply Forall_app in H as [H1 H2]. rewrite write_glue, <- encode_app. unfold joined_runes. cbn [app].
  replace (flat_map piece_runes (map norm1 l) ++ piece_runes x) with (flat_map piece_runes (map norm1 l ++ [x])).
  2:{ rewrite flat_map_app. cbn [flat_map]. now rewrite app_nil_r. }
  change (base :: flat_map piece_runes (map norm1 l ++ [x])) with (joined_runes base (map norm1 l ++ [x])).
  rewrite units_joined; [|exact Hb|]. 2:{ apply Forall_app. split; [now apply norm_ok|exact H2]. }
  unfold glue. rewrite !fold_left_app. cbn [fold_left]. fold (glue (rune2moji E base 0) (map norm1 l)). fold (glue (rune2moji E base 0) l). now rewrite glue_norm.
Qed.
Lemma first_encode r : valid_rune r = true -> first_rune (encode_rune r) = r.
Proof.
  intros H. unfold first_rune. replace (encode_rune r) with (encode [r]) by (cbn; now rewrite app_nil_r).
  rewrite runes_encode; [reflexivity|now repeat constructor].
Qed.
Lemma altgr_encode r : valid_rune r = true -> altgr (encode_rune r) = encode_rune r.
Proof.
  intros H. unfold encode_rune. rewrite H. destruct (r <? 128); [reflexivity|]. destruct (r <? 2048) eqn:H2; [|destruct (r <? 65536); reflexivity].
  cbn [altgr]. destruct (Z.eqb_spec (192 + r / 64) 27) as [Hx|]; [|reflexivity]. exfalso.
  assert (0 <= r / 64) by (apply Z.div_pos; [unfold valid_rune in H; lia|lia]). lia.
Qed.
Lemma encode1 r : encode [r] = encode_rune r. Proof. cbn. apply app_nil_r. Qed.
End WithEnv.

Section WithSess.
Variable S : scfg.
Notation C := (base S).
Notation E := (cE C).

Lemma index_last p (m : moji) q : index ((p ++ [m]) ++ q) (zlen (p ++ [m]) - 1) = Some m.
Proof.
  rewrite zlen_snoc. replace (zlen p + 1 - 1) with (zlen p) by lia. unfold index. replace (0 <=? zlen p) with true by (pose proof (zlen_nonneg p); lia).
  rewrite to_nat_zlen, <- app_assoc, nth_error_app2, Nat.sub_diag by lia. reflexivity.
Qed.
(** A variation selector or modifier attaches to the unit before the cursor. *)
Lemma attach_insert s s' r p m q k : exec C (CSelfInsert k) s = Some (s', r) -> at_split s (p ++ [m]) q ->
  joins E (first_rune (altgr k)) = true -> first_rune (altgr k) <> 8204 -> first_rune (altgr k) <> 8205 ->
  at_split s' (p ++ split E (write m ++ altgr k)) q /\ clip s' = clip s /\ history_untouched s s' /\ pending s' = pending s /\ r = CONTINUE.
Proof.
  intros H [Hl Hc] Hj H1 H2. apply exec_ref in H as [b H]; [|exact I]. cbn [aexec] in H. unfold aselfInsert in H.
  destruct (attach_is E _ Hj H1 H2) as [Hz Hv]. unfold AreZeroWidthJoin, AreVariationSelectorLike, AreEmojiModifier in H. rewrite decode_first, Hz, andb_false_r in H.
  assert (Hb : (vs_ok E && isVariationSelectorLike E (first_rune (altgr k)) || mod_ok E && isEmojiModifier E (first_rune (altgr k))) && (0 <? acur (abs s)) = true).
  { change (acur (abs s)) with (cursor s). rewrite Hc, zlen_snoc. replace (0 <? zlen p + 1) with true by (pose proof (zlen_nonneg p); lia).
    unfold isVariationSelectorLike, isEmojiModifier in *. destruct (vs_ok E), (mod_ok E); cbn in *; destruct Hv as [Hv|Hv]; rewrite ?Hv, ?orb_true_r; try reflexivity; discriminate. }
  cbn [andb] in H. rewrite Hb in H. clear Hb.
  assert (Hl' : aline (abs s) = (p ++ [m]) ++ q) by exact Hl. assert (Hc' : acur (abs s) = zlen (p ++ [m])) by exact Hc.
  rewrite Hl' in H. rewrite Hc' in H at 1. rewrite index_last in H. rewrite (aBackwardDelete_eq C (abs s) p m q Hl' Hc') in H.
  match type of H with acontinue (aself_tail _ ?a ?t) = _ =>
    assert (HA : aline a = p ++ q) by (rewrite aupdate_line; reflexivity); assert (HB : acur a = zlen p) by (rewrite aupdate_cur; reflexivity);
    rewrite (aself_tail_eq C a p q t HA HB) in H end.
  apply acont_some in H as [H Hr]. apply abs_fields in H as [F1 F2 F3 F4 F5 F6 F7].
  rewrite ?aupdate_line, ?aupdate_cur, ?aupdate_clip, ?aupdate_modh, ?EditFacts.aupdate_hptr, ?aupdate_pend in *.
  cbn [aline acur aclip amodh ahptr apend aset_line aset_cur apush aset_undo] in *.
  rewrite ?aupdate_clip, ?aupdate_modh, ?EditFacts.aupdate_hptr, ?aupdate_pend in *.
  rewrite (split_units C). split; [split; [rewrite F1, <- app_assoc; reflexivity|now rewrite F2, zlen_app]|].
  split; [exact F4|]. split; [split; assumption|]. split; assumption.
Qed.
(** A joiner takes the unit before the cursor off the line until the next key. *)
Lemma joiner_insert s s' r p m q k : exec C (CSelfInsert k) s = Some (s', r) -> at_split s (p ++ [m]) q ->
  isZeroWidthJoin E (first_rune (altgr k)) = true ->
  at_split s' p q /\ clip s' = clip s /\ history_untouched s s' /\ pending s' = write m ++ altgr k /\ r = CONTINUE.
Proof.
  intros H [Hl Hc] Hz. apply exec_ref in H as [b H]; [|exact I]. cbn [aexec] in H. unfold aselfInsert in H.
  assert (Hb : AreZeroWidthJoin E (altgr k) && (0 <? acur (abs s)) = true).
  { unfold AreZeroWidthJoin. rewrite decode_first, Hz. change (acur (abs s)) with (cursor s). rewrite Hc, zlen_snoc.
    replace (0 <? zlen p + 1) with true by (pose proof (zlen_nonneg p); lia).
    unfold isZeroWidthJoin in Hz. destruct (zwj_ok E); [reflexivity|discriminate]. }
  rewrite Hb in H. clear Hb.
  assert (Hl' : aline (abs s) = (p ++ [m]) ++ q) by exact Hl. assert (Hc' : acur (abs s) = zlen (p ++ [m])) by exact Hc.
  rewrite Hl' in H. rewrite Hc' in H at 1. rewrite index_last in H.
  rewrite (aBackwardDelete_eq C (aset_pend (abs s) (write m ++ altgr k)) p m q Hl' Hc') in H.
  apply acont_some in H as [H Hr]. apply abs_fields in H as [F1 F2 F3 F4 F5 F6 F7].
  rewrite ?aupdate_line, ?aupdate_cur, ?aupdate_clip, ?aupdate_modh, ?EditFacts.aupdate_hptr, ?aupdate_pend in *.
  cbn [aline acur aclip amodh ahptr apend aset_line aset_cur apush aset_undo] in *.
  split; [split; [exact F1|exact F2]|].
  split; [exact F4|]. split; [split; assumption|]. split; assumption.
Qed.

Definition piece_keys (x : piece) : list str := map encode_rune (piece_runes x).
Definition good (s0 s : buf) (p q l : list moji) : Prop :=
  at_split s (p ++ l) q /\ pending s = [] /\ clip s = clip s0 /\ history_untouched s0 s.

Lemma key_exec k s x : unbound S k -> step S (EKey k) (Running MNormal s) = Some x ->
  exists s1 r, exec C (CSelfInsert k) (emit s [TCursorOff]) = Some (s1, r) /\ (r = CONTINUE -> x = Running MNormal (emit (emit s1 [TCursorOn]) [TFlush])).
Proof.
  intros Hu H. cbn [step] in H. unfold key_normal in H. unfold unbound, bound in Hu. rewrite Hu in H.
  destruct (exec C (CSelfInsert k) (emit s [TCursorOff])) as [[s1 r]|]; [|discriminate]. exists s1, r. split; [reflexivity|].
  intros ->. now apply after_continue in H.
Qed.

Lemma type_piece base l x s0 s y p q : valid_rune base = true -> Forall (piece_ok E) (l ++ [x]) ->
  Forall (unbound S) (piece_keys x) -> good s0 s p q [glue E (rune2moji E base 0) l] ->
  run S (map EKey (piece_keys x)) (Running MNormal s) = Some y ->
  exists s', y = Running MNormal s' /\ good s0 s' p q [glue E (rune2moji E base 0) (l ++ [x])].
Proof.
  intros Hb Hok Hu (Hs & Hp & Hc & Hh) H. pose proof (grow E base l x Hb Hok) as HG.
  apply Forall_app in Hok as [_ Hx]. apply Forall_cons_iff in Hx as [Hx _].
  destruct x as [r|z n]; cbn [piece_keys piece_runes map run] in H, Hu, HG.
  - apply Forall_cons_iff in Hu as [Hu _]. destruct (step S (EKey (encode_rune r)) (Running MNormal s)) as [y0|] eqn:Ev; [|discriminate]. injection H as <-. destruct Hx as (Hv & Hj & H1 & H2).
    apply key_exec in Ev as (s1 & rr & He & Hy); [|exact Hu]. pose proof (altgr_encode r Hv) as Ha. pose proof (first_encode r Hv) as Hf.
    apply attach_insert with (p := p) (q := q) (m := glue E (rune2moji E base 0) l) in He as (G1 & G2 & G3 & G4 & G5); try (rewrite Ha, Hf; assumption); [|exact Hs].
    eexists. split; [exact (Hy G5)|]. rewrite encode1 in HG. rewrite Ha, (split_units C), HG in G1.
    split; [exact G1|]. split; [change (pending s1 = []); now rewrite G4|]. split; [change (clip s1 = clip s0); now rewrite G2|].
    destruct G3 as [G31 G32], Hh as [Hh1 Hh2]. cbn in G31, G32. split; cbn; congruence.
  - apply Forall_cons_iff in Hu as [Hu1 Hu]. apply Forall_cons_iff in Hu as [Hu2 _].
    destruct (step S (EKey (encode_rune z)) (Running MNormal s)) as [y1|] eqn:Hs1; [|discriminate].
    destruct (step S (EKey (encode_rune n)) y1) as [y2|] eqn:Hs2; [|discriminate]. injection H as <-.
    destruct Hx as (Hz & Hf & Hn & Hj).
    assert (Hvz : valid_rune z = true) by (destruct Hz as [->| ->]; reflexivity).
    apply key_exec in Hs1 as (s1 & rr & He & Hy); [|exact Hu1].
    apply joiner_insert with (p := p) (q := q) (m := glue E (rune2moji E base 0) l) in He as (G1 & G2 & G3 & G4 & G5); [|exact Hs|].
    2:{ rewrite (altgr_encode z Hvz), (first_encode z Hvz). now apply zwj_is. }
    specialize (Hy G5). subst y1. rewrite (altgr_encode z Hvz) in G4.
    pose proof (altgr_encode n Hn) as Ha. pose proof (first_encode n Hn) as Hfn.
    apply type_key with (p := p) (q := q) in Hs2 as (s2 & -> & K1 & K2 & K3 & K4); [|exact Hu2|exact G1|now rewrite Ha, Hfn].
    exists s2. split; [reflexivity|]. rewrite Ha in K1. change (pending (emit (emit s1 [TCursorOn]) [TFlush])) with (pending s1) in K1. rewrite G4 in K1.
    rewrite <- app_assoc in K1. replace (encode_rune z ++ encode_rune n) with (encode [z; n]) in K1 by (cbn; now rewrite app_nil_r).
    rewrite (split_units C), HG in K1. split; [exact K1|]. split; [exact K2|]. cbn in K3, G2. split; [congruence|].
    destruct G3 as [G31 G32], Hh as [Hh1 Hh2], K4 as [K41 K42]. cbn in *. split; congruence.
Qed.
Lemma type_pieces base l2 : forall l1 s0 s y p q, valid_rune base = true -> Forall (piece_ok E) (l1 ++ l2) ->
  Forall (unbound S) (flat_map piece_keys l2) -> good s0 s p q [glue E (rune2moji E base 0) l1] ->
  run S (map EKey (flat_map piece_keys l2)) (Running MNormal s) = Some y ->
  exists s', y = Running MNormal s' /\ good s0 s' p q [glue E (rune2moji E base 0) (l1 ++ l2)].
Proof.
  induction l2 as [|x l2 IH]; intros l1 s0 s y p q Hb Hok Hu Hg H; cbn [flat_map map] in H, Hu.
  - cbn [run] in H. injection H as <-. exists s. now rewrite app_nil_r.
  - rewrite map_app, run_app in H. destruct (run S (map EKey (piece_keys x)) (Running MNormal s)) as [y1|] eqn:Hr; [|discriminate].
    apply Forall_app in Hu as [Hu1 Hu2]. replace (l1 ++ x :: l2) with ((l1 ++ [x]) ++ l2) in * by (now rewrite <- app_assoc).
    destruct (type_piece base l1 x s0 s y1 p q Hb) as (s1 & -> & Hg1); [now apply Forall_app in Hok|exact Hu1|exact Hg|exact Hr|].
    eapply IH; eauto.
Qed.
Lemma typed_joined base l s y p q : valid_rune base = true -> joins E base = false -> Forall (piece_ok E) l ->
  Forall (unbound S) (map encode_rune (joined_runes base l)) -> at_split s p q -> pending s = [] ->
  run S (map EKey (map encode_rune (joined_runes base l))) (Running MNormal s) = Some y ->
  exists s', y = Running MNormal s' /\ at_split s' (p ++ split E (encode (joined_runes base l))) q /\
    pending s' = [] /\ clip s' = clip s /\ history_untouched s s' /\ List.length (split E (encode (joined_runes base l))) = 1%nat.
Proof.
  intros Hb Hj Hok Hu Hs Hp H. unfold joined_runes in Hu, H. cbn [map run] in Hu, H.
  assert (Hm : map encode_rune (flat_map piece_runes l) = flat_map piece_keys l).
  { clear. induction l as [|x l IH]; [reflexivity|]. cbn [flat_map]. rewrite map_app, IH. reflexivity. }
  rewrite Hm in *. apply Forall_cons_iff in Hu as [Hu1 Hu2]. opt H.
  pose proof (altgr_encode base Hb) as Ha. pose proof (first_encode base Hb) as Hfn.
  apply type_key with (p := p) (q := q) in Ev as (s1 & -> & K1 & K2 & K3 & K4); [|exact Hu1|exact Hs|now rewrite Ha, Hfn].
  rewrite Hp, Ha, (split_units C) in K1. cbn [app] in K1. pose proof (units_joined E base [] Hb (Forall_nil _)) as U0.
  unfold joined_runes in U0. cbn [flat_map] in U0. rewrite encode1 in U0. rewrite U0 in K1.
  destruct (type_pieces base l [] s s1 y p q Hb Hok Hu2) as (s2 & -> & (M1 & M2 & M3 & M4)); [repeat split; try assumption; try apply K1; try apply K4|exact H|].
  exists s2. split; [reflexivity|]. cbn [app] in M1. rewrite (split_units C), (units_joined E base l Hb Hok). auto 10.
Qed.
End WithSess.
