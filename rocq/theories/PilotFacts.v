(** ReadLine on an auto.Pilot. *)
From Verif Require Import Base Utf8 Moji Color Prompt Buffer Commands KeyMap Session Spec HistFacts SafetyFacts KeyInput KeyFacts.

Definition over (x : sess) : Prop := exists s t e, x = Finished s t e.
Lemma after_cases S o x : after_command S o = Some x -> over x \/ exists s, x = Running MNormal s.
Proof.
  unfold after_command. destruct o as [[s rc]|]; [|discriminate]. destruct rc; intros H; [right; injection H as <-; eauto| | |];
    left; unfold finish in H; destruct (suffix _);
    try (destruct (repaintWithoutUpdateSuffix _ _) as [s1|]; [|discriminate]); injection H as <-; unfold over; eauto.
Qed.
Lemma enter_normal S s x : LookupCommand (kmap S) (gmap S) [13] = CAcceptLine -> step S (EKey [13]) (Running MNormal s) = Some x -> over x.
Proof.
  intros Hb H. cbn [step] in H. unfold key_normal in H. rewrite Hb in H. cbn [exec] in H. unfold after_command in H.
  unfold finish in H. destruct (suffix _); try (destruct (repaintWithoutUpdateSuffix _ _) as [s1|]; [|discriminate]); injection H as <-; unfold over; eauto.
Qed.
Lemma step_over S e x : over x -> step S e x = Some x.
Proof. intros (s & t & r & ->). reflexivity. Qed.
Lemma two_enters S x y : LookupCommand (kmap S) (gmap S) [13] = CAcceptLine -> run S [EKey [13]; EKey [13]] x = Some y -> over y.
Proof.
  intros Hb H. cbn [run] in H. destruct (step S (EKey [13]) x) as [x1|] eqn:H1; [|discriminate].
  destruct (step S (EKey [13]) x1) as [x2|] eqn:H2; [|discriminate]. injection H as <-.
  assert (G : over x1 \/ exists s, x1 = Running MNormal s).
  { destruct x as [m s|s t e]; [|rewrite (step_over S) in H1; [injection H1 as <-; left|]; unfold over; eauto]. destruct m.
    - left. eapply enter_normal; eauto.
    - cbn [step] in H1. unfold key_quoted in H1. eapply after_cases; eauto.
    - cbn [step] in H1. unfold key_search in H1. cbn [search_key str_eqb Z.eqb Pos.eqb andb orb] in H1. eapply after_cases; eauto. }
  destruct G as [G|(s & ->)].
  - rewrite (step_over S _ x1 G) in H2. injection H2 as <-. exact G.
  - eapply enter_normal; eauto.
Qed.
Lemma pilot_over S d cur w cl script x : LookupCommand (kmap S) (gmap S) [13] = CAcceptLine ->
  readline S d cur w cl (map EKey (Pilot_keys (List.length script + 2) script)) = Some x -> over x.
Proof.
  intros Hb. rewrite pilot_list, map_app. unfold readline. destruct (start S d cur w cl) as [x0|]; [|discriminate].
  rewrite run_app. destruct (run S (map EKey script) x0) as [x1|]; [|discriminate]. now apply two_enters.
Qed.
