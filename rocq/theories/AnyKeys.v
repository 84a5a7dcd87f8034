(** Keys that are any bytes: lemma for PAnyKeys.v. *)
From Verif Require Import Base Utf8 Moji Color Prompt Buffer Commands KeyMap Session MojiFacts Spec SpecAnyKeys HistFacts SessFacts TextFacts SessProps.
Ltac lia := unfold rune in *; Lia.lia.

Section Any.
Variable S : scfg.
Notation E := (cE (base S)).
Lemma any_texts ks : exists ts, written (flat_map (fun k => split E (altgr k)) ks) = List.concat ts /\
  Forall2 (comes_back E) ks ts.
Proof.
  induction ks as [|k ks (ts & Ht & Hf)]; [exists []; split; [reflexivity|constructor]|].
  exists (written (split E (altgr k)) :: ts). split; [cbn [flat_map List.concat]; now rewrite written_app, Ht|].
  constructor; [|exact Hf]. change (altgr k) with (key_text k). rewrite written_split. split.
  - exact (written_any E (key_text k)).
  - exact (written_off E (key_text k)).
  - intros [H1 H2]. exact (written_valid E (key_text k) H1 H2).
Qed.
Lemma any_returned d cur w cl ks kr x : 0 <= cur -> Forall (unbound S) ks -> Forall (fun k => joins E (first_rune (key_text k)) = false) ks ->
  bound S kr CAcceptLine -> readline S d cur w cl (map EKey ks ++ [EKey kr]) = Some x ->
  exists s n ts, x = Finished s (written (firstn n (split E d)) ++ List.concat ts ++ written (skipn n (split E d))) RNil /\
    n = Z.to_nat (Z.min cur (zlen (split E d))) /\
    Forall2 (comes_back E) ks ts.
Proof.
  intros H0 K1 K2 Hb H. unfold readline in H. destruct (start S d cur w cl) as [y|] eqn:Hst; [|discriminate].
  rewrite run_app in H. destruct (run S (map EKey ks) y) as [x1|] eqn:Hr; [|discriminate].
  apply start_state in Hst as (s0 & -> & Hl & Hc & Hu & Hp & _ & _ & Hcl).
  set (n := Z.to_nat (Z.min cur (zlen (split E d)))).
  assert (Hs : at_split s0 (firstn n (split E d)) (skipn n (split E d))).
  { split; [now rewrite firstn_skipn|]. rewrite Hc. unfold zlen in *. rewrite firstn_length. subst n. lia. }
  destruct (type_keys S ks s0 x1 _ _ K1 K2 Hs Hp Hr) as (s & -> & [H1 H2] & _).
  destruct (any_texts ks) as (ts & Ht & Hf). cbn [run] in H.
  destruct (step S (EKey kr) (Running MNormal s)) as [x2|] eqn:Hx; [|discriminate]. apply key_end in Hx as [s' ->]; [|exact Hb]. injection H as <-.
  exists s', n, ts. split; [|split; [reflexivity|exact Hf]]. f_equal. now rewrite H1, !written_app, Ht, <- app_assoc.
Qed.
End Any.
