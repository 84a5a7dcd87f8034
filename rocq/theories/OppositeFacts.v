(** Lemmas for C76. *)
From Verif Require Import Base Utf8 Moji Color Prompt Buffer Commands KeyMap Session MojiFacts
  Abs AbsRef AbsSess AbsSafe AbsInv Safe SafeSess Plain Spec TextFacts Reach SafetyFacts CmdFacts WordFacts EditFacts EditProps LineInv EditMore SessFacts HistFacts Sample SpecOpposite.
Ltac lia := unfold rune in *; Lia.lia.

Section WithSess.
Variable S : scfg.
Notation C := (base S).
Notation E := (cE C).

(** A key bound to a command that goes on. *)
Lemma key_runs k c s x : bound S k c -> c <> CQuotedInsert -> c <> CISearchBackward ->
  (forall s1 s2 r, exec C c s1 = Some (s2, r) -> r = CONTINUE) -> step S (EKey k) (Running MNormal s) = Some x ->
  exists s1, exec C c (emit s [TCursorOff]) = Some (s1, CONTINUE) /\ x = Running MNormal (emit (emit s1 [TCursorOn]) [TFlush]).
Proof.
  intros Hb H1 H2 Hc H. cbn [step] in H. unfold key_normal in H. unfold bound in Hb. rewrite Hb in H.
  destruct c; try congruence;
    (match type of H with after_command _ ?o = _ => destruct o as [[s1 r]|] eqn:He end; [|discriminate];
     pose proof (Hc _ _ _ He) as ->; exists s1; split; [reflexivity|]; now apply after_continue in H).
Qed.
Lemma goes_on c s1 s2 r : c = CBackwardDeleteChar \/ c = CBackwardChar \/ c = CForwardChar \/ c = CDeleteChar -> exec C c s1 = Some (s2, r) -> r = CONTINUE.
Proof. intros [-> | [-> | [-> | ->]]] H; cbn [exec] in H; unfold continue_ in H; opt H; now injection H. Qed.
Lemma emit2 s ts ts' p q : at_split s p q -> at_split (emit (emit s ts) ts') p q. Proof. exact (fun H => H). Qed.

Lemma backs kb m : forall s x p q, bound S kb CBackwardDeleteChar -> at_split s (p ++ m) q ->
  run S (presses kb (List.length m)) (Running MNormal s) = Some x ->
  exists s', x = Running MNormal s' /\ at_split s' p q /\ clip s' = clip s /\ rest_kept s s'.
Proof.
  induction m as [|u m IH] using rev_ind; intros s x p q Hb Hs H.
  - injection H as <-. rewrite app_nil_r in Hs. exists s. repeat split; apply Hs.
  - rewrite app_length, Nat.add_comm in H. cbn [List.length plus] in H. unfold presses in *. cbn [repeat run] in H. opt H. rewrite app_assoc in Hs.
    apply (key_runs kb CBackwardDeleteChar) in Ev as (s1 & He & ->); [|exact Hb|discriminate|discriminate|intros; eapply goes_on; [|eassumption]; auto].
    pose proof (backward_delete C _ _ _ _ _ _ He (at_split_emit _ _ _ _ Hs)) as (G1 & G2 & (G3 & G4) & G5).
    destruct (IH _ _ p q Hb (emit2 _ [TCursorOn] [TFlush] _ _ G1) H) as (s2 & -> & K1 & K2 & (K3 & K4) & K5).
    exists s2. split; [reflexivity|]. split; [exact K1|]. cbn in *. split; [congruence|]. split; [split; congruence|congruence].
Qed.
Lemma lefts kb m : forall s x p q, bound S kb CBackwardChar -> at_split s (p ++ m) q ->
  run S (presses kb (List.length m)) (Running MNormal s) = Some x ->
  exists s', x = Running MNormal s' /\ at_split s' p (m ++ q) /\ same_content s s'.
Proof.
  induction m as [|u m IH] using rev_ind; intros s x p q Hb Hs H.
  - injection H as <-. rewrite app_nil_r in Hs. exists s. repeat split; apply Hs.
  - rewrite app_length, Nat.add_comm in H. cbn [List.length plus] in H. unfold presses in *. cbn [repeat run] in H. opt H. rewrite app_assoc in Hs.
    apply (key_runs kb CBackwardChar) in Ev as (s1 & He & ->); [|exact Hb|discriminate|discriminate|intros; eapply goes_on; [|eassumption]; auto].
    pose proof (backward_char C _ _ _ _ _ _ He (at_split_emit _ _ _ _ Hs)) as G1.
    destruct (move_same C CBackwardChar _ _ _ eq_refl ltac:(discriminate) He) as ((M1 & M2 & M3 & M4 & M5 & M6) & _).
    destruct (IH _ _ p (u :: q) Hb (emit2 _ [TCursorOn] [TFlush] _ _ G1) H) as (s2 & -> & K1 & (N1 & N2 & N3 & N4 & N5 & N6)).
    exists s2. split; [reflexivity|]. split; [rewrite <- app_assoc; exact K1|]. unfold line in *. cbn in *. repeat split; unfold line; congruence.
Qed.
Lemma rights kf m : forall s x p q, bound S kf CForwardChar -> at_split s p (m ++ q) ->
  run S (presses kf (List.length m)) (Running MNormal s) = Some x ->
  exists s', x = Running MNormal s' /\ at_split s' (p ++ m) q /\ same_content s s'.
Proof.
  induction m as [|u m IH]; intros s x p q Hb Hs H.
  - injection H as <-. rewrite app_nil_r. exists s. repeat split; apply Hs.
  - unfold presses in *. cbn [List.length repeat run] in H. opt H.
    apply (key_runs kf CForwardChar) in Ev as (s1 & He & ->); [|exact Hb|discriminate|discriminate|intros; eapply goes_on; [|eassumption]; auto].
    cbn [app] in Hs. pose proof (forward_char C _ _ _ _ _ _ He (at_split_emit _ _ _ _ Hs)) as G1.
    assert (Hlt : cursor (emit s [TCursorOff]) < zlen (cells (emit s [TCursorOff]))).
    { destruct Hs as [Hs1 Hs2]. cbn. rewrite Hs2. apply (f_equal zlen) in Hs1. unfold line, zlen in *. rewrite map_length, app_length in Hs1. cbn [List.length] in Hs1. lia. }
    destruct (move_same C CForwardChar _ _ _ eq_refl (fun _ => or_intror (or_intror Hlt)) He) as ((M1 & M2 & M3 & M4 & M5 & M6) & _).
    destruct (IH _ _ (p ++ [u]) q Hb (emit2 _ [TCursorOn] [TFlush] _ _ G1) H) as (s2 & -> & K1 & (N1 & N2 & N3 & N4 & N5 & N6)).
    exists s2. split; [reflexivity|]. split; [rewrite <- app_assoc in K1; exact K1|]. unfold line in *. cbn in *. repeat split; unfold line; congruence.
Qed.

Lemma cut_here s : 0 <= cursor s <= zlen (cells s) ->
  at_split s (firstn (Z.to_nat (cursor s)) (line s)) (skipn (Z.to_nat (cursor s)) (line s)).
Proof.
  intros H. split; [now rewrite firstn_skipn|]. unfold zlen, line in *. rewrite firstn_length, map_length. lia.
Qed.
Lemma type_back s ks kb x : 0 <= cursor s <= zlen (cells s) -> pending s = [] -> Forall (typable S) ks -> bound S kb CBackwardDeleteChar ->
  run S (map EKey ks ++ presses kb (List.length (flat_map (split E) ks))) (Running MNormal s) = Some x ->
  exists s', x = Running MNormal s' /\ as_before s s'.
Proof.
  intros H0 Hp Hk Hb H. rewrite run_app in H. destruct (run S (map EKey ks) (Running MNormal s)) as [x1|] eqn:Hr; [|discriminate].
  assert (K1 : Forall (unbound S) ks) by (eapply Forall_impl; [|exact Hk]; now intros k (Hx & _)).
  assert (K2 : Forall (fun k => joins E (first_rune (altgr k)) = false) ks).
  { eapply Forall_impl; [|exact Hk]. intros k (_ & Ha & Hj & _). change (altgr k = k) in Ha. now rewrite Ha. }
  assert (Hf : flat_map (fun k => split E (altgr k)) ks = flat_map (split E) ks).
  { clear -Hk. induction Hk as [|k ks (_ & Ha & _) _ IH]; [reflexivity|]. cbn [flat_map]. change (altgr k = k) in Ha. now rewrite IH, Ha. }
  pose proof (cut_here s H0) as Hs.
  destruct (type_keys S ks s x1 _ _ K1 K2 Hs Hp Hr) as (s1 & -> & T1 & T2 & T3 & T4). rewrite Hf in T1.
  destruct (backs kb _ _ _ _ _ Hb T1 H) as (s2 & -> & [B1 B2] & B3 & (B4 & B5) & B6). exists s2. split; [reflexivity|].
  destruct Hs as [Hs1 Hs2], T4 as [T4 T5]. repeat split; congruence.
Qed.
Lemma one_unit r : valid_rune r = true -> List.length (split E (encode_rune r)) = 1%nat.
Proof.
  intros Hv. unfold split. rewrite map_length. unfold StringToMoji. replace (runes (encode_rune r)) with [r]; [reflexivity|].
  symmetry. pose proof (runes_encode [r]) as H. unfold encode in H. cbn [flat_map] in H. rewrite app_nil_r in H. apply H. now constructor.
Qed.
Lemma chars_back s rs kb x : 0 <= cursor s <= zlen (cells s) -> pending s = [] ->
  Forall (fun r => valid_rune r = true /\ typable S (encode_rune r)) rs -> bound S kb CBackwardDeleteChar ->
  run S (map EKey (map encode_rune rs) ++ presses kb (List.length rs)) (Running MNormal s) = Some x ->
  exists s', x = Running MNormal s' /\ as_before s s'.
Proof.
  intros H0 Hp Hk Hb H. eapply (type_back s (map encode_rune rs)); [exact H0|exact Hp| |exact Hb|].
  - apply Forall_map. eapply Forall_impl; [|exact Hk]. now intros r [_ Hr].
  - replace (List.length (flat_map (split E) (map encode_rune rs))) with (List.length rs); [exact H|].
    clear -Hk. induction Hk as [|r rs [Hr _] _ IH]; [reflexivity|]. cbn [map flat_map]. rewrite app_length, one_unit by exact Hr. cbn. now rewrite IH.
Qed.
Lemma content_before s s' : same_content s s' -> cursor s' = cursor s -> as_before s s'.
Proof. intros (H1 & H2 & H3 & H4 & H5 & H6) Hc. repeat split; assumption. Qed.
Lemma there_and_back s kf kb n x : 0 <= cursor s -> cursor s + Z.of_nat n <= zlen (cells s) -> bound S kf CForwardChar -> bound S kb CBackwardChar ->
  run S (presses kf n ++ presses kb n) (Running MNormal s) = Some x -> exists s', x = Running MNormal s' /\ as_before s s'.
Proof.
  intros H0 H1 Hf Hb H. pose proof (cut_here s ltac:(lia)) as Hs. set (p := firstn _ _) in Hs. set (q := skipn _ _) in Hs.
  rewrite <- (firstn_skipn n q) in Hs.
  assert (Hn : List.length (firstn n q) = n).
  { rewrite firstn_length. subst q. rewrite skipn_length. unfold line. rewrite map_length. unfold zlen in *. lia. }
  rewrite run_app in H. destruct (run S (presses kf n) (Running MNormal s)) as [x1|] eqn:Hr; [|discriminate]. rewrite <- Hn in Hr.
  destruct (rights kf _ s x1 p _ Hf Hs Hr) as (s1 & -> & T1 & T2). rewrite <- Hn in H.
  destruct (lefts kb _ s1 x p _ Hb T1 H) as (s2 & -> & B1 & B2). exists s2. split; [reflexivity|]. apply content_before.
  - destruct T2 as (M1 & M2 & M3 & M4 & M5 & M6), B2 as (N1 & N2 & N3 & N4 & N5 & N6). repeat split; congruence.
  - destruct B1 as [_ ->], Hs as [_ ->]. reflexivity.
Qed.
Lemma back_and_there s kf kb n x : Z.of_nat n <= cursor s <= zlen (cells s) -> bound S kf CForwardChar -> bound S kb CBackwardChar ->
  run S (presses kb n ++ presses kf n) (Running MNormal s) = Some x -> exists s', x = Running MNormal s' /\ as_before s s'.
Proof.
  intros H0 Hf Hb H. pose proof (cut_here s ltac:(lia)) as Hs. set (p := firstn _ _) in Hs. set (q := skipn _ _) in Hs.
  assert (Hl : zlen p = cursor s) by (destruct Hs as [_ ->]; reflexivity).
  set (k := (List.length p - n)%nat). rewrite <- (firstn_skipn k p) in Hs.
  assert (Hn : List.length (skipn k p) = n) by (rewrite skipn_length; subst k; unfold zlen in Hl; lia).
  rewrite run_app in H. destruct (run S (presses kb n) (Running MNormal s)) as [x1|] eqn:Hr; [|discriminate]. rewrite <- Hn in Hr.
  destruct (lefts kb _ s x1 _ _ Hb Hs Hr) as (s1 & -> & T1 & T2). rewrite <- Hn in H.
  destruct (rights kf _ s1 x _ _ Hf T1 H) as (s2 & -> & B1 & B2). exists s2. split; [reflexivity|]. apply content_before.
  - destruct T2 as (M1 & M2 & M3 & M4 & M5 & M6), B2 as (N1 & N2 & N3 & N4 & N5 & N6). repeat split; congruence.
  - destruct B1 as [_ ->], Hs as [_ ->]. reflexivity.
Qed.
Lemma delete_retype s kd k m q x : 0 <= cursor s -> pending s = [] -> bound S kd CDeleteChar -> typable S k ->
  skipn (Z.to_nat (cursor s)) (line s) = m :: q -> split E k = [m] ->
  run S [EKey kd; EKey k] (Running MNormal s) = Some x ->
  exists s', x = Running MNormal s' /\ line s' = line s /\ cursor s' = cursor s + 1 /\ clip s' = clip s /\ history_untouched s s'.
Proof.
  intros H0 Hp Hd (Hu & Ha & Hj & _) Hq Hk H. cbn [run] in H. opt H. change (altgr k = k) in Ha.
  assert (Hlt : cursor s < zlen (cells s)).
  { apply (f_equal (@List.length moji)) in Hq. rewrite skipn_length in Hq. unfold line in Hq. rewrite map_length in Hq. cbn in Hq. unfold zlen. lia. }
  pose proof (cut_here s ltac:(lia)) as Hs. rewrite Hq in Hs. set (p := firstn _ _) in Hs.
  apply (key_runs kd CDeleteChar) in Ev as (t1 & He & ->); [|exact Hd|discriminate|discriminate|intros; eapply goes_on; [|eassumption]; auto].
  destruct (delete_char C _ _ _ p m q CDeleteChar (or_introl eq_refl) He (at_split_emit _ _ _ _ Hs)) as (G1 & G2 & ((G3 & G4) & G5) & _).
  assert (Hj' : joins E (first_rune (altgr k)) = false) by now rewrite Ha.
  destruct (type_key S k _ _ p q Hu (emit2 _ [TCursorOn] [TFlush] _ _ G1) Hj' Ev0) as (t2 & Hx & T1 & T2 & T3 & (T4 & T5)).
  injection H as <-. subst. exists t2. split; [reflexivity|]. change (pending (emit _ _)) with (pending t1) in T1. change (pending (emit s _)) with (pending s) in G5. rewrite G5, Hp, Ha in T1. cbn [app] in T1. rewrite Hk in T1.
  cbn [clip hptr modh emit] in *.
  destruct T1 as [T1 T6], Hs as [Hs1 Hs2]. rewrite <- app_assoc in T1. cbn in T1.
  split; [congruence|]. split; [|split; [congruence|split; congruence]]. rewrite T6, Hs2. unfold zlen. rewrite app_length. cbn. lia.
Qed.
End WithSess.
Lemma attached : exists S r1 r2 kb s t, valid_rune r1 = true /\ valid_rune r2 = true /\
  unbound S (encode_rune r1) /\ unbound S (encode_rune r2) /\ bound S kb CBackwardDeleteChar /\
  readline S [] 0 40 None (map EKey (map encode_rune [r1; r2]) ++ presses kb 1 ++ [key 13]) = Some (Finished s t RNil) /\ t <> encode_rune r1.
Proof.
  exists S_on, 97, 65039, [8]. do 2 eexists. do 5 (split; [reflexivity|]). split; [vm_compute; reflexivity|discriminate].
Qed.
