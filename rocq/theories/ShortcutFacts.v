(** Lemmas for C77. *)
From Verif Require Import Base Utf8 Moji Color Prompt Buffer Commands KeyMap Session MojiFacts
  Abs AbsRef AbsSess AbsSafe AbsInv Safe SafeSess Plain Spec TextFacts Reach SafetyFacts CmdFacts WordFacts EditFacts EditProps LineInv EditMore SessFacts HistFacts Sample SpecOpposite OppositeFacts SpecShortcut.
Ltac lia := unfold rune in *; Lia.lia.

Section WithSess.
Variable S : scfg.
Notation C := (base S).

Definition others (s s' : buf) : Prop := clip s' = clip s /\ rest_kept s s'.
(** From the state [s] cut at the cursor into [p] and [q], the keys lead to the cut [p'], [q']. *)
Definition leads (es : list event) (s : buf) (p' q' : list moji) (cl : option str) : Prop :=
  forall x, run S es (Running MNormal s) = Some x ->
  exists s', x = Running MNormal s' /\ at_split s' p' q' /\ clip s' = cl /\ rest_kept s s'.
Lemma leads_nil s p q : at_split s p q -> leads [] s p q (clip s).
Proof. intros H x Hx. injection Hx as <-. exists s. repeat split; apply H. Qed.
Lemma leads_app es es' s p q cl p' q' cl' : leads es s p q cl ->
  (forall s1, at_split s1 p q -> clip s1 = cl -> leads es' s1 p' q' cl') -> leads (es ++ es') s p' q' cl'.
Proof.
  intros H1 H2 x Hx. rewrite run_app in Hx. destruct (run S es (Running MNormal s)) as [x1|] eqn:Hr; [|discriminate].
  destruct (H1 _ Hr) as (s1 & -> & A1 & A2 & ((A3 & A4) & A5)). destruct (H2 s1 A1 A2 _ Hx) as (s2 & -> & B1 & B2 & ((B3 & B4) & B5)).
  exists s2. split; [reflexivity|]. repeat split; try apply B1; congruence.
Qed.
Lemma ways (R : buf -> buf -> Prop) s es es' p q cl cl' : leads es s p q cl -> leads es' s p q cl' ->
  (forall t t', same_line t t' -> clip t = cl -> clip t' = cl' -> R t t') -> equal_ways S R s es es'.
Proof.
  intros H H' HR x x' Hx Hx'. destruct (H _ Hx) as (t & -> & [A1 A2] & A3 & ((A4 & A5) & A6)).
  destruct (H' _ Hx') as (t' & -> & [B1 B2] & B3 & ((B4 & B5) & B6)). exists t, t'. split; [reflexivity|]. split; [reflexivity|].
  apply HR; try assumption. repeat split; congruence.
Qed.
Lemma ways_clip s es es' p q cl : leads es s p q cl -> leads es' s p q cl -> equal_ways S with_clip s es es'.
Proof. intros H H'. eapply ways; [exact H|exact H'|]. intros t t' Hs H1 H2. split; [exact Hs|congruence]. Qed.
Lemma ways_line s es es' p q cl cl' : leads es s p q cl -> leads es' s p q cl' -> equal_ways S same_line s es es'.
Proof. intros H H'. eapply ways; [exact H|exact H'|]. auto. Qed.

Definition plain_cmd (c : cmd) : Prop := In c [CBackwardDeleteChar; CBackwardChar; CForwardChar; CDeleteChar; CBeginningOfLine; CEndOfLine; CKillLine; CUnixLineDiscard; CKillWholeLine].
Lemma plain_on c s1 s2 r : plain_cmd c -> exec C c s1 = Some (s2, r) -> r = CONTINUE.
Proof. unfold plain_cmd. cbn [In]. intros Hc H. repeat (destruct Hc as [<- | Hc]; [cbn [exec] in H; unfold continue_ in H; opt H; now injection H|]). destruct Hc. Qed.
Lemma one k c s p q cl : bound S k c -> plain_cmd c ->
  (forall s1 r, exec C c (emit s [TCursorOff]) = Some (s1, r) -> at_split s1 p q /\ clip s1 = cl /\ rest_kept (emit s [TCursorOff]) s1) -> leads [EKey k] s p q cl.
Proof.
  intros Hb Hc H x Hx. cbn [run] in Hx. opt Hx. injection Hx as <-.
  apply (key_runs S k c) in Ev as (s1 & He & ->); [|exact Hb| | |intros; eapply plain_on; eassumption].
  2,3: intros ->; unfold plain_cmd in Hc; cbn in Hc; repeat (destruct Hc as [Hc | Hc]; [discriminate Hc|]); destruct Hc.
  destruct (H _ _ He) as (A1 & A2 & A3). eexists. split; [reflexivity|]. split; [exact (emit2 _ [TCursorOn] [TFlush] _ _ A1)|]. split; [exact A2|exact A3].
Qed.
Lemma moved c s s1 r : is_move c = true -> (c = CForwardChar -> cursor s < zlen (cells s)) -> exec C c s = Some (s1, r) -> others s s1.
Proof.
  intros Hm Hf He. destruct (move_same C c s s1 r Hm (fun H => or_intror (or_intror (Hf H))) He) as ((M1 & M2 & M3 & M4 & M5 & M6) & _). repeat split; assumption.
Qed.
Lemma lead_home k s p q : bound S k CBeginningOfLine -> at_split s p q -> leads [EKey k] s [] (p ++ q) (clip s).
Proof.
  intros Hb Hs. apply (one k CBeginningOfLine); [exact Hb|cbn; tauto|]. intros s1 r He. pose proof (beginning_of_line C _ _ _ He) as A.
  destruct (moved CBeginningOfLine _ _ _ eq_refl ltac:(discriminate) He) as (B1 & B2). split; [|split; assumption]. destruct Hs as [Hs _]. change (line (emit s [TCursorOff])) with (line s) in A. now rewrite Hs in A.
Qed.
Lemma lead_end k s p q : bound S k CEndOfLine -> at_split s p q -> leads [EKey k] s (p ++ q) [] (clip s).
Proof.
  intros Hb Hs. apply (one k CEndOfLine); [exact Hb|cbn; tauto|]. intros s1 r He. pose proof (end_of_line C _ _ _ He) as A.
  destruct (moved CEndOfLine _ _ _ eq_refl ltac:(discriminate) He) as (B1 & B2). split; [|split; assumption]. destruct Hs as [Hs _]. change (line (emit s [TCursorOff])) with (line s) in A. now rewrite Hs in A.
Qed.
Lemma lead_lefts k s p m q : bound S k CBackwardChar -> at_split s (p ++ m) q -> leads (presses k (List.length m)) s p (m ++ q) (clip s).
Proof. intros Hb Hs x Hx. destruct (lefts S k m s x p q Hb Hs Hx) as (s' & -> & A & (M1 & M2 & M3 & M4 & M5 & M6)). exists s'. repeat split; try apply A; assumption. Qed.
Lemma lead_rights k s p m q : bound S k CForwardChar -> at_split s p (m ++ q) -> leads (presses k (List.length m)) s (p ++ m) q (clip s).
Proof. intros Hb Hs x Hx. destruct (rights S k m s x p q Hb Hs Hx) as (s' & -> & A & (M1 & M2 & M3 & M4 & M5 & M6)). exists s'. repeat split; try apply A; assumption. Qed.
Lemma lead_backs k s p m q : bound S k CBackwardDeleteChar -> at_split s (p ++ m) q -> leads (presses k (List.length m)) s p q (clip s).
Proof. intros Hb Hs x Hx. destruct (backs S k m s x p q Hb Hs Hx) as (s' & -> & A & B1 & B2). exists s'. repeat split; try apply A; try assumption; apply B2. Qed.
Lemma lead_delete k s p m q : bound S k CDeleteChar -> at_split s p (m :: q) -> leads [EKey k] s p q (clip s).
Proof.
  intros Hb Hs. apply (one k CDeleteChar); [exact Hb|cbn; tauto|]. intros s1 r He.
  destruct (delete_char C _ _ _ p m q CDeleteChar (or_introl eq_refl) He (at_split_emit _ _ _ _ Hs)) as (A1 & A2 & A3 & _). auto.
Qed.
Lemma lead_deletes k m : forall s p q, bound S k CDeleteChar -> at_split s p (m ++ q) -> leads (presses k (List.length m)) s p q (clip s).
Proof.
  induction m as [|u m IH]; intros s p q Hb Hs; [now apply leads_nil|]. change (presses k (List.length (u :: m))) with ([EKey k] ++ presses k (List.length m)).
  eapply leads_app; [now apply (lead_delete k s p u (m ++ q))|]. intros s1 H1 Hc. rewrite <- Hc. now apply IH.
Qed.
Lemma lead_kill k s p q : bound S k CKillLine -> at_split s p q -> leads [EKey k] s p [] (option_map (fun _ => written q) (clip s)).
Proof.
  intros Hb Hs. apply (one k CKillLine); [exact Hb|cbn; tauto|]. intros s1 r He. exact (kill_line C _ _ _ p q He (at_split_emit _ _ _ _ Hs)).
Qed.
Lemma lead_discard k s p q : bound S k CUnixLineDiscard -> at_split s p q -> leads [EKey k] s [] q (option_map (fun _ => written p) (clip s)).
Proof.
  intros Hb Hs. apply (one k CUnixLineDiscard); [exact Hb|cbn; tauto|]. intros s1 r He. exact (line_discard C _ _ _ p q He (at_split_emit _ _ _ _ Hs)).
Qed.
Lemma lead_whole k s : bound S k CKillWholeLine -> leads [EKey k] s [] [] (clip s).
Proof.
  intros Hb. apply (one k CKillWholeLine); [exact Hb|cbn; tauto|]. intros s1 r He. destruct (kill_whole_line C _ _ _ He) as (A1 & A2 & A3). auto.
Qed.
Definition before (s : buf) := firstn (Z.to_nat (cursor s)) (line s).
Definition behind (s : buf) := skipn (Z.to_nat (cursor s)) (line s).
Lemma cut s : inside s -> at_split s (before s) (behind s). Proof. exact (cut_here s). Qed.
Lemma len_before s : inside s -> List.length (before s) = Z.to_nat (cursor s).
Proof. unfold inside, before, line, zlen. intros H. rewrite firstn_length, map_length. lia. Qed.
Lemma len_behind s : inside s -> List.length (behind s) = Z.to_nat (zlen (cells s) - cursor s).
Proof. unfold inside, behind, line, zlen. intros H. rewrite skipn_length, map_length. lia. Qed.

Lemma home_lefts s kh kl : inside s -> bound S kh CBeginningOfLine -> bound S kl CBackwardChar ->
  equal_ways S with_clip s [EKey kh] (presses kl (Z.to_nat (cursor s))).
Proof.
  intros Hi H1 H2. pose proof (cut s Hi) as Hs. rewrite <- len_before by exact Hi. eapply ways_clip; [exact (lead_home _ _ _ _ H1 Hs)|]. now apply lead_lefts.
Qed.
Lemma end_rights s ke kr : inside s -> bound S ke CEndOfLine -> bound S kr CForwardChar ->
  equal_ways S with_clip s [EKey ke] (presses kr (Z.to_nat (zlen (cells s) - cursor s))).
Proof.
  intros Hi H1 H2. pose proof (cut s Hi) as Hs. rewrite <- len_behind by exact Hi. eapply ways_clip; [exact (lead_end _ _ _ _ H1 Hs)|].
  apply lead_rights; [assumption|]. now rewrite app_nil_r.
Qed.
Lemma kill_deletes s kk kd : inside s -> bound S kk CKillLine -> bound S kd CDeleteChar ->
  equal_ways S same_line s [EKey kk] (presses kd (Z.to_nat (zlen (cells s) - cursor s))).
Proof.
  intros Hi H1 H2. pose proof (cut s Hi) as Hs. rewrite <- len_behind by exact Hi. eapply ways_line; [exact (lead_kill _ _ _ _ H1 Hs)|].
  apply lead_deletes; [assumption|]. now rewrite app_nil_r.
Qed.
Lemma discard_backs s kk kb : inside s -> bound S kk CUnixLineDiscard -> bound S kb CBackwardDeleteChar ->
  equal_ways S same_line s [EKey kk] (presses kb (Z.to_nat (cursor s))).
Proof.
  intros Hi H1 H2. pose proof (cut s Hi) as Hs. rewrite <- len_before by exact Hi. eapply ways_line; [exact (lead_discard _ _ _ _ H1 Hs)|]. now apply lead_backs.
Qed.
Lemma delete_back s kd kr kb : inside s -> cursor s < zlen (cells s) -> bound S kd CDeleteChar -> bound S kr CForwardChar -> bound S kb CBackwardDeleteChar ->
  equal_ways S with_clip s [EKey kd] [EKey kr; EKey kb].
Proof.
  intros Hi Hl H1 H2 H3. pose proof (cut s Hi) as Hs. pose proof (len_behind s Hi) as Hn. destruct (behind s) as [|m q]; [cbn in Hn; lia|].
  eapply ways_clip; [exact (lead_delete _ _ _ _ _ H1 Hs)|]. change [EKey kr; EKey kb] with (presses kr 1 ++ presses kb 1).
  eapply leads_app; [exact (lead_rights kr s (before s) [m] q H2 Hs)|]. intros s1 A1 A2. rewrite <- A2. now apply (lead_backs kb s1 (before s) [m] q).
Qed.
Lemma back_delete s kd kl kb : inside s -> 0 < cursor s -> bound S kd CDeleteChar -> bound S kl CBackwardChar -> bound S kb CBackwardDeleteChar ->
  equal_ways S with_clip s [EKey kb] [EKey kl; EKey kd].
Proof.
  intros Hi Hl H1 H2 H3. pose proof (cut s Hi) as Hs. pose proof (len_before s Hi) as Hn.
  destruct (before s) as [|x l _] using rev_ind; [cbn in Hn; lia|].
  eapply ways_clip; [exact (lead_backs kb s l [x] _ H3 Hs)|]. change [EKey kl; EKey kd] with (presses kl 1 ++ presses kd 1).
  eapply leads_app; [exact (lead_lefts kl s l [x] _ H2 Hs)|]. intros s1 A1 A2. rewrite <- A2. now apply (lead_delete kd s1 l x).
Qed.
(** Three ways to an empty line. *)
Lemma home_kill_end_discard s kh kk ke kd : inside s -> bound S kh CBeginningOfLine -> bound S kk CKillLine -> bound S ke CEndOfLine -> bound S kd CUnixLineDiscard ->
  equal_ways S with_clip s [EKey kh; EKey kk] [EKey ke; EKey kd].
Proof.
  intros Hi H1 H2 H3 H4. pose proof (cut s Hi) as Hs. change [EKey kh; EKey kk] with ([EKey kh] ++ [EKey kk]). change [EKey ke; EKey kd] with ([EKey ke] ++ [EKey kd]).
  eapply ways_clip.
  - eapply leads_app; [exact (lead_home _ _ _ _ H1 Hs)|]. intros s1 A1 A2. pose proof (lead_kill _ _ _ _ H2 A1) as G. rewrite A2 in G. exact G.
  - eapply leads_app; [exact (lead_end _ _ _ _ H3 Hs)|]. intros s1 A1 A2. pose proof (lead_discard _ _ _ _ H4 A1) as G. rewrite A2 in G. exact G.
Qed.
Lemma whole_home_kill s kw kh kk : inside s -> bound S kw CKillWholeLine -> bound S kh CBeginningOfLine -> bound S kk CKillLine ->
  equal_ways S same_line s [EKey kw] [EKey kh; EKey kk].
Proof.
  intros Hi H1 H2 H3. pose proof (cut s Hi) as Hs. change [EKey kh; EKey kk] with ([EKey kh] ++ [EKey kk]). eapply ways_line; [exact (lead_whole kw s H1)|].
  eapply leads_app; [exact (lead_home _ _ _ _ H2 Hs)|]. intros s1 A1 A2. pose proof (lead_kill _ _ _ _ H3 A1) as G. rewrite A2 in G. exact G.
Qed.
Lemma twice s k c : inside s -> bound S k c -> c = CBeginningOfLine \/ c = CEndOfLine \/ c = CKillWholeLine -> equal_ways S with_clip s [EKey k] [EKey k; EKey k].
Proof.
  intros Hi Hb Hc. pose proof (cut s Hi) as Hs. change [EKey k; EKey k] with ([EKey k] ++ [EKey k]). destruct Hc as [-> | [-> | ->]].
  - eapply ways_clip; [exact (lead_home _ _ _ _ Hb Hs)|]. eapply leads_app; [exact (lead_home _ _ _ _ Hb Hs)|]. intros s1 A1 A2. rewrite <- A2. exact (lead_home _ _ _ _ Hb A1).
  - eapply ways_clip; [exact (lead_end _ _ _ _ Hb Hs)|]. eapply leads_app; [exact (lead_end _ _ _ _ Hb Hs)|]. intros s1 A1 A2. rewrite <- A2.
    pose proof (lead_end _ _ _ _ Hb A1) as G. now rewrite app_nil_r in G.
  - eapply ways_clip; [exact (lead_whole k s Hb)|]. eapply leads_app; [exact (lead_whole k s Hb)|]. intros s1 A1 A2. rewrite <- A2. now apply lead_whole.
Qed.
Lemma twice_line s k c : inside s -> bound S k c -> c = CKillLine \/ c = CUnixLineDiscard -> equal_ways S same_line s [EKey k] [EKey k; EKey k].
Proof.
  intros Hi Hb Hc. pose proof (cut s Hi) as Hs. change [EKey k; EKey k] with ([EKey k] ++ [EKey k]). destruct Hc as [-> | ->].
  - eapply ways_line; [exact (lead_kill _ _ _ _ Hb Hs)|]. eapply leads_app; [exact (lead_kill _ _ _ _ Hb Hs)|]. intros s1 A1 A2. pose proof (lead_kill _ _ _ _ Hb A1) as G. rewrite A2 in G. exact G.
  - eapply ways_line; [exact (lead_discard _ _ _ _ Hb Hs)|]. eapply leads_app; [exact (lead_discard _ _ _ _ Hb Hs)|]. intros s1 A1 A2. pose proof (lead_discard _ _ _ _ Hb A1) as G. rewrite A2 in G. exact G.
Qed.
End WithSess.
Lemma other_clip S s es es' x y : run S es (Running MNormal s) = Some (Running MNormal x) -> run S es' (Running MNormal s) = Some (Running MNormal y) ->
  clip y <> clip x -> ~ equal_ways S with_clip s es es'.
Proof.
  intros Hx Hy Hn H. destruct (H _ _ Hx Hy) as (t & t' & Ht & Ht' & _ & Hc). injection Ht as ->. injection Ht' as ->. now apply Hn.
Qed.
