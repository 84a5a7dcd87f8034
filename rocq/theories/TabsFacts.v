(** From the conditions of SpecTabs.v to those of Tabs.v. *)
From Verif Require Import Base Utf8 Moji Color Prompt Buffer Commands KeyMap Session MojiFacts Abs AbsRef AbsSess AbsSafe AbsInv Safe SafeSess
  Plain Tabs Spec Reach SafetyFacts SpecTabs.
Ltac lia := unfold rune in *; Lia.lia.

Section WithSess.
Variable S : scfg.
Notation C := (base S).
Notation E := (cE C).
Lemma ordinary_sh t : ordinary_text E t -> sh S t.
Proof. intros [H1 H2]. split; [|exact H2]. apply Forall_forall. intros r Hr. unfold sr. rewrite <- joins_like. now apply H1. Qed.
Lemma ordinary_tab_event e : ordinary_event S e -> tab_event S e.
Proof.
  destruct e as [k| |w|c]; cbn; [|auto| |].
  - intros (H1 & H2). split; [now apply ordinary_sh|]. intros k' Hk. now apply ordinary_sh, H2.
  - unfold prompt_width, PW. lia.
  - intros H. destruct c; [|exact I]. now apply ordinary_sh, H.
Qed.
Lemma ordinary_safe default cur w cl es : ordinary_editor S -> ordinary_text E default -> ordinary_clip E cl ->
  Forall (ordinary_event S) es -> 0 <= cur -> prompt_width C + 11 < w ->
  (forall es1 e es2 x, es = es1 ++ e :: es2 -> readline S default cur w cl es1 = Some x -> short_line x /\ no_swap_at_end S e x) ->
  exists x, readline S default cur w cl es = Some x /\ in_bounds (buf_of x).
Proof.
  intros (H1 & H2 & H3 & H4 & H5 & H6 & H7) Hd Hcl Hes Hc Hw Hok.
  destruct (tab_readline S) with (default := default) (cur := cur) (w := w) (cl := cl) (es := es) as (x & w' & Hx & HS); auto.
  - now rewrite <- joins_like.
  - intros r Hr. rewrite <- joins_like. now apply H5.
  - destruct H6 as [H6|H6]; [now left|right]. intros t c. now apply ordinary_sh.
  - eapply Forall_impl; [|exact H7]. apply ordinary_sh.
  - now apply only_builtin_keys.
  - unfold prompt_width, PW in *. lia.
  - now apply ordinary_sh.
  - destruct cl; [|exact I]. now apply ordinary_sh, Hcl.
  - eapply Forall_impl; [|exact Hes]. apply ordinary_tab_event.
  - intros es1 e es2 y He Hy. destruct (Hok es1 e es2 y He Hy) as [[K1 K2] K3].
    assert (L : forall s, zlen (aline (abs s)) = zlen (cells s)) by (intros s; apply zlen_emojis).
    split.
    + destruct y as [m s|s t r]; cbn [abss ashort buf_of] in *; rewrite L; [|exact K1]. split; [exact K1|].
      destruct m as [| |ss]; auto. exact (K2 ss s eq_refl).
    + unfold bad_swap. destruct e as [k| | |]; try (intros []; fail). destruct y as [[| |ss] s|s t r]; cbn [abss]; try (intros []; fail).
      intros [Hs [Ha Hb]]. rewrite L in Ha. specialize (K3 k s eq_refl eq_refl Hs Ha). cbn in Hb. lia.
  - exists x. split; [exact Hx|]. destruct x; apply HS.
Qed.
End WithSess.
