(** Facts for PRestore.v. *)
From Verif Require Import Base Utf8 Moji Color Prompt Buffer Commands KeyMap Session Script SpecScript
  Life SpecLife LifeFacts Restore.

Section Settings.
Variable M : Type.
Variable make_raw enable_vt : M -> M.
Notation effects := (effects M make_raw enable_vt).
Definition inv (m0 : M) (p : phase) (w : world M) : Prop :=
  match p with
  | NotOpen | IsClosed => settings w = m0
  | IsOpen => exists f, undo w = Some f /\ f (settings w) = m0
  end.
Lemma inv_call m0 t c p a p' w : (t = Tty8 -> c = OpeningFails) -> inv m0 p w -> call p a = Some p' ->
  inv m0 p' (snd (effect M make_raw enable_vt t c a w)).
Proof.
  intros Hc Hi Hp. destruct a as [[|]|ok| | |tk]; destruct p; cbn in Hp; try discriminate; injection Hp as <-; cbn [effect snd];
    try exact Hi; cbn [inv] in *.
  - subst m0. destruct t; cbn; eauto.
  - destruct t; [rewrite (Hc eq_refl)| |]; exact Hi.
  - destruct Hi as (f & Hf & Hm). unfold close. rewrite Hf. exact Hm.
Qed.
Lemma call_opened p a p' : p <> NotOpen -> call p a = Some p' -> p' <> NotOpen /\ forall b, a <> AOpen b.
Proof. intros H Hp. destruct a as [[|]|ok| | |tk]; destruct p; cbn in Hp; try discriminate; try congruence; injection Hp as <-; split; congruence. Qed.
Lemma inv_calls m0 t c tr : forall p p' w, (t = Tty8 -> c = OpeningFails) \/ p <> NotOpen -> inv m0 p w -> calls p tr = Some p' ->
  inv m0 p' (snd (effects t c tr w)).
Proof.
  induction tr as [|a tr IH]; intros p p' w Hc Hi Hp; cbn [calls] in Hp; [injection Hp as <-; exact Hi|].
  destruct (call p a) as [p1|] eqn:Ha; [|discriminate].
  assert (H1 : inv m0 p1 (snd (effect M make_raw enable_vt t c a w))).
  { destruct Hc as [Hc|Hn]; [exact (inv_call m0 t c p a p1 w Hc Hi Ha)|]. destruct (call_opened p a p1 Hn Ha) as [_ Hb].
    pose proof (inv_call m0 t OpeningFails p a p1 w (fun _ => eq_refl) Hi Ha) as G. destruct a as [b|ok| | |tk]; try exact G. now destruct (Hb b). }
  assert (Hc1 : (t = Tty8 -> c = OpeningFails) \/ p1 <> NotOpen) by (destruct Hc as [Hc|Hn]; [now left|right; eapply call_opened; eauto]).
  cbn [Restore.effects]. destruct (effect M make_raw enable_vt t c a w) as [l w1]. specialize (IH p1 p' w1 Hc1 H1 Hp).
  destruct (effects t c tr w1) as [l' w2]. exact IH.
Qed.
Lemma opened_first r : r_open r = true -> exists tr, fst (calls_of r) = AOpen true :: tr.
Proof.
  unfold calls_of, readline_calls. intros ->. destruct (r_size r); [|eexists; reflexivity].
  destruct (start _ _ _ _ _); [|eexists; reflexivity]. destruct (loop_calls _ _ _) as [tr o]. eexists. reflexivity.
Qed.
Definition no_leak (r : read) : Prop := ~ (r_term r = Tty8 /\ r_open r = false /\ r_cause r = SizeFails).
Lemma read_restores r w : scripted (r_set r) -> no_leak r -> snd (calls_of r) <> Blocked ->
  settings (snd (read_effect M make_raw enable_vt r w)) = settings w.
Proof.
  intros HS Hc Hb. unfold read_effect. destruct (calls_of r) as [tr o] eqn:Hr. cbn [fst snd] in *. pose proof Hr as Hr0. unfold calls_of in Hr.
  apply (life_protocol _ HS) in Hr.
  assert (H : inv (settings w) (if r_open r then IsClosed else NotOpen) (snd (effects (r_term r) (r_cause r) tr w))).
  { destruct (r_open r) eqn:Ho.
    - destruct (opened_first r Ho) as [tr1 Ht]. rewrite Hr0 in Ht. cbn [fst] in Ht. subst tr.
      assert (Hr1 : calls IsOpen tr1 = Some IsClosed) by (destruct o; [congruence|exact Hr|exact Hr]).
      cbn [Restore.effects effect].
      assert (Hn : IsOpen <> NotOpen) by discriminate. set (w1 := open_ok M make_raw enable_vt (r_term r) w).
      assert (Hw1 : inv (settings w) IsOpen w1) by (unfold w1; destruct (r_term r); cbn; eauto).
      pose proof (inv_calls (settings w) (r_term r) (r_cause r) tr1 IsOpen IsClosed w1 (or_intror Hn) Hw1 Hr1) as G.
      destruct (effects (r_term r) (r_cause r) tr1 w1) as [l w2]. exact G.
    - apply (inv_calls (settings w) (r_term r) (r_cause r) tr NotOpen NotOpen w); [|reflexivity|destruct o; [congruence|exact Hr|exact Hr]].
      left. intros Ht. destruct (r_cause r) eqn:Hcs; [reflexivity|]. destruct Hc. auto. }
  destruct (r_open r); exact H.
Qed.
Lemma reads_restore rs : forall w, Forall (fun r => scripted (r_set r) /\ no_leak r /\ snd (calls_of r) <> Blocked) rs ->
  settings (after_reads M make_raw enable_vt rs w) = settings w.
Proof.
  induction rs as [|r rs IH]; intros w H; [reflexivity|]. apply Forall_cons_iff in H as [(H1 & H2 & H3) H]. cbn [after_reads fold_left].
  fold (after_reads M make_raw enable_vt rs (snd (read_effect M make_raw enable_vt r w))). rewrite IH by exact H. now apply read_restores.
Qed.
(** A second Close. *)
Lemma closed_undo t c tr : forall w, calls IsClosed tr = Some IsClosed -> undo w = None -> undo (snd (effects t c tr w)) = None.
Proof.
  induction tr as [|a tr IH]; intros w Hp Hw; cbn [calls] in Hp; [exact Hw|].
  destruct a as [[|]|ok| | |tk]; cbn [call] in Hp; try discriminate; cbn [Restore.effects effect];
    specialize (IH w Hp Hw); destruct (effects t c tr w) as [l' w2]; exact IH.
Qed.
Lemma open_undo t c tr : forall w, calls IsOpen tr = Some IsClosed -> undo (snd (effects t c tr w)) = None.
Proof.
  induction tr as [|a tr IH]; intros w Hp; cbn [calls] in Hp; [discriminate|].
  destruct a as [[|]|ok| | |tk]; cbn [call] in Hp; try discriminate; cbn [Restore.effects effect];
    try (specialize (IH w Hp); destruct (effects t c tr w) as [l' w2]; exact IH).
  assert (Hc : undo (close M w) = None) by (unfold close; now destruct (undo w) eqn:E).
  pose proof (closed_undo t c tr (close M w) Hp Hc) as G. destruct (effects t c tr (close M w)) as [l' w2]. exact G.
Qed.
Lemma read_close_again r w m : scripted (r_set r) -> r_open r = true -> snd (calls_of r) <> Blocked ->
  settings (snd (effects (r_term r) (r_cause r) [AClose] (mkWorld m (undo (snd (read_effect M make_raw enable_vt r w)))))) = m.
Proof.
  intros HS Ho Hb. assert (Hu : undo (snd (read_effect M make_raw enable_vt r w)) = None).
  { unfold read_effect. destruct (calls_of r) as [tr o] eqn:Hr. cbn [fst snd] in *. pose proof Hr as Hr0. unfold calls_of in Hr.
    apply (life_protocol _ HS) in Hr. destruct (opened_first r Ho) as [tr1 Ht]. rewrite Hr0 in Ht. cbn [fst] in Ht. subst tr. rewrite Ho in Hr.
    assert (Hr1 : calls IsOpen tr1 = Some IsClosed) by (destruct o; [congruence|exact Hr|exact Hr]).
    cbn [Restore.effects effect]. pose proof (open_undo (r_term r) (r_cause r) tr1 (open_ok M make_raw enable_vt (r_term r) w) Hr1) as G.
    destruct (effects (r_term r) (r_cause r) tr1 (open_ok M make_raw enable_vt (r_term r) w)) as [l w2]. exact G. }
  rewrite Hu. reflexivity.
Qed.
(** While ReadLine waits. *)
Definition mode_in (t : terminal) (m : M) : M := match t with Tty8 => make_raw m | Tty10Unix => m | Tty10Windows => enable_vt m end.
Lemma open_kept t c tr : forall w, calls IsOpen tr = Some IsOpen -> settings (snd (effects t c tr w)) = settings w.
Proof.
  induction tr as [|a tr IH]; intros w Hp; cbn [calls] in Hp; [reflexivity|].
  destruct a as [[|]|ok| | |tk]; cbn [call] in Hp; try discriminate; cbn [Restore.effects effect];
    try (specialize (IH w Hp); destruct (effects t c tr w) as [l' w2]; exact IH).
  exfalso. clear IH. revert Hp. induction tr as [|a tr IH]; cbn [calls]; [discriminate|]. destruct a as [[|]|ok| | |tk]; cbn [call]; try discriminate. exact IH.
Qed.
Lemma read_meanwhile r w : scripted (r_set r) -> snd (calls_of r) = Blocked ->
  settings (snd (read_effect M make_raw enable_vt r w)) = mode_in (r_term r) (settings w).
Proof.
  intros HS Hb. unfold read_effect. destruct (calls_of r) as [tr o] eqn:Hr. cbn [fst snd] in *. subst o. pose proof Hr as Hr0. unfold calls_of in Hr.
  assert (Ho : r_open r = true) by (unfold readline_calls in Hr; destruct (r_open r); [reflexivity|discriminate]).
  apply (life_protocol _ HS) in Hr. destruct (opened_first r Ho) as [tr1 Ht]. rewrite Hr0 in Ht. cbn [fst] in Ht. subst tr.
  assert (Hr1 : calls IsOpen tr1 = Some IsOpen) by exact Hr. cbn [Restore.effects effect].
  pose proof (open_kept (r_term r) (r_cause r) tr1 (open_ok M make_raw enable_vt (r_term r) w) Hr1) as G.
  destruct (effects (r_term r) (r_cause r) tr1 (open_ok M make_raw enable_vt (r_term r) w)) as [l w2]. cbn [snd] in *. rewrite G. now destruct (r_term r).
Qed.
(** Every wait for a key is a wait in raw mode. *)
Lemma closed_waits t c tr : forall p' w, calls IsClosed tr = Some p' -> fst (effects t c tr w) = [].
Proof.
  induction tr as [|a tr IH]; intros p' w Hp; cbn [calls] in Hp; [reflexivity|].
  destruct a as [[|]|ok| | |tk]; cbn [call] in Hp; try discriminate. cbn [Restore.effects effect].
  specialize (IH p' w Hp). destruct (effects t c tr w). exact IH.
Qed.
Lemma open_waits t c tr : forall p' w, calls IsOpen tr = Some p' -> Forall (eq (make_raw (settings w))) (fst (effects t c tr w)).
Proof.
  induction tr as [|a tr IH]; intros p' w Hp; cbn [calls] in Hp; [constructor|].
  destruct a as [[|]|ok| | |tk]; cbn [call] in Hp; try discriminate; cbn [Restore.effects effect];
    try (specialize (IH p' w Hp); destruct (effects t c tr w) as [l' w2]; cbn [fst app] in *; first [exact IH | apply Forall_cons; [reflexivity|exact IH]]).
  pose proof (closed_waits t c tr p' (close M w) Hp) as G. destruct (effects t c tr (close M w)). cbn [fst app] in *. rewrite G. constructor.
Qed.
Lemma read_waits r w : scripted (r_set r) -> Forall (eq (make_raw (mode_in (r_term r) (settings w)))) (fst (read_effect M make_raw enable_vt r w)).
Proof.
  intros HS. unfold read_effect. destruct (calls_of r) as [tr o] eqn:Hr. cbn [fst snd] in *. pose proof Hr as Hr0. unfold calls_of in Hr.
  destruct (r_open r) eqn:Ho.
  - apply (life_protocol _ HS) in Hr. destruct (opened_first r Ho) as [tr1 Ht]. rewrite Hr0 in Ht. cbn [fst] in Ht. subst tr.
    assert (Hr1 : exists p', calls IsOpen tr1 = Some p') by (destruct o; eexists; exact Hr). destruct Hr1 as [p' Hr1]. cbn [Restore.effects effect].
    pose proof (open_waits (r_term r) (r_cause r) tr1 p' (open_ok M make_raw enable_vt (r_term r) w) Hr1) as G.
    destruct (effects (r_term r) (r_cause r) tr1 (open_ok M make_raw enable_vt (r_term r) w)) as [l w2]. cbn [fst app] in *. now destruct (r_term r).
  - unfold readline_calls in Hr. injection Hr as <- <-. constructor.
Qed.
End Settings.

Lemma waits_raw M make_raw enable_vt (r : read) (w : world M) : scripted (r_set r) ->
  Forall (fun m => m = make_raw (mode_in M make_raw enable_vt (r_term r) (settings w))) (fst (read_effect M make_raw enable_vt r w)).
Proof. intros HS. eapply Forall_impl; [|exact (read_waits M make_raw enable_vt r w HS)]. intros m H. now symmetry. Qed.
