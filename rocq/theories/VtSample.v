(** A configuration and a terminal for C58: a coloured prompt, blue italic predictions
    (main.go:65), rules painted two columns wide, a terminal on which they take one. *)
From Verif Require Import Base Utf8 Moji Color Prompt Buffer Commands KeyMap Session Spec SpecLib SpecTerm SpecScreen SpecVt Sample TermSample
  ScreenCheck VtFacts.
Ltac lia := unfold rune in *; Lia.lia.

(** Texts after which the terminal is ready, checked on the characters alone. *)
Fixpoint quiet (p : parser) (rs : list rune) : bool :=
  match rs with
  | [] => match p with Ground => true | _ => false end
  | r :: rs' => match p with Csi ps => negb (str_eqb ps [63; 50; 53] && ((r =? 104) || (r =? 108))) | _ => true end && quiet (next_state p r) rs'
  end.
Lemma quiet_fold V rs : forall v, quiet (v_state v) rs = true -> v_state (fold_left (vrune V) rs v) = Ground /\ v_shown (fold_left (vrune V) rs v) = v_shown v.
Proof.
  induction rs as [|r rs IH]; intros v H; cbn [quiet fold_left] in *.
  - split; [|reflexivity]. now destruct (v_state v).
  - apply andb_true_iff in H as [H1 H2].
    assert (K : v_state (vrune V v r) = next_state (v_state v) r) by reflexivity.
    rewrite <- K in H2. destruct (IH _ H2) as [I1 I2]. split; [exact I1|]. rewrite I2. unfold vrune, effect, csi, unknown, vprint, verase.
    destruct (v_state v) as [| |ps|];
      repeat match goal with |- context [if ?b then _ else _] => destruct b eqn:? end; try reflexivity.
    + exfalso. match goal with X : (r =? 104) && _ = true |- _ => apply andb_true_iff in X as [G1 G2] end. rewrite G1, G2 in H1. discriminate.
    + exfalso. match goal with X : (r =? 108) && _ = true |- _ => apply andb_true_iff in X as [G1 G2] end. rewrite G1, G2 in H1. rewrite orb_true_r in H1. discriminate.
Qed.
Lemma quiet_ready V b : str_eqb (encode (runes b)) b && forallb valid_rune (runes b) = true -> quiet Ground (runes b) = true -> ready_after V b.
Proof.
  intros Hb H. apply andb_true_iff in Hb as [H1 H2]. apply str_eqb_eq in H1. split.
  - rewrite <- H1. apply valid_utf8_encode. now apply Forall_forall, forallb_forall.
  - intros v Hv. apply quiet_fold. now rewrite Hv.
Qed.
Lemma sgr_attribute V (ps : list Z) : forallb (fun r => (32 <=? r) && (r <=? 63)) ps = true -> attribute_only V ([27; 91] ++ ps ++ [109]).
Proof.
  intros Hp. assert (P : Forall param ps) by (apply Forall_forall; intros y Hy; eapply forallb_forall in Hp; [|exact Hy]; cbn beta in Hp; unfold param; lia).
  split.
  - apply (csi_bytes V ps 109 (mkVt Ground 0 (fun _ => Empty) 0 true)); auto. lia.
  - intros v Hv Hc. destruct (csi_bytes V ps 109 v Hv P ltac:(lia)) as [_ ->]. repeat split.
Qed.

Definition vt_rw (r : rune) : Z := if control r then 0 else if r <? 128 then 1 else if in_range r 768 879 then 0 else 2.
Definition E_vt : env := mkEnv true true true true true vt_rw (fun a b => a + 1 + b) sample_vsme.
Definition S_vt : scfg := mkScfg (mkCfg E_vt sample_hist false ([27] ++ s2l "[3;22;34m") ([27] ++ s2l "[23;39m") (predictByHistory sample_hist)
  (Some ([10; 27] ++ s2l "[36;1m$ " ++ [27] ++ s2l "[0m")) VimBatch ascii_upper) [] GlobalKeyMap.
(** A terminal on which rules, mathematical letters and U+1F3F3 take one column, whatever
    it does with half characters and other sequences. *)
Definition V_with torn other : vterm :=
  mkVterm (fun r => if in_range r 9472 9599 || in_range r 119808 120831 || (r =? 127987) then 1 else vt_rw r) torn other.
Definition V_vt : vterm := V_with (fun _ _ _ => Empty) (fun rs v => match rs with [13] => at_col v 0 | _ => mkVt Ground 0 (fun _ => Empty) 0 true end).

Lemma vt_counts torn other : counts_like (V_with torn other) E_vt.
Proof.
  constructor; cbn [vt_width V_with rw amb_wide E_vt]; unfold vt_rw, control, in_range; intros.
  - repeat match goal with |- context [if ?b then _ else _] => destruct b eqn:? end; lia.
  - rewrite H. repeat match goal with |- context [if ?b then _ else _] => destruct b eqn:? end; lia.
  - repeat match goal with |- context [if ?b then _ else _] => destruct b eqn:? end; lia.
  - repeat match goal with |- context [if ?b then _ else _] => destruct b eqn:? end; lia.
  - now replace ((0 <=? r) && (r <=? 31) || (127 <=? r) && (r <=? 159)) with true by lia.
Qed.
Lemma builtin_vt : only_builtin S_vt. Proof. intros k f. apply global_builtin. discriminate. Qed.
Lemma simple_vt : simple_editor S_vt.
Proof.
  split; [apply builtin_vt|]. split.
  { repeat split; cbn; intros; try lia. unfold vt_rw. repeat match goal with |- context [if ?b then _ else _] => destruct b end; lia. }
  split; [intros r; cbn; unfold vt_rw; repeat match goal with |- context [if ?b then _ else _] => destruct b end; lia|]. split; [reflexivity|]. split; [reflexivity|].
  split; [|now apply sample_hist_ok]. right. intros t c. cbn [base S_vt predictor]. unfold predictByHistory.
  destruct (predict_suffix (rev sample_hist) t) as [-> |(h & n & Hi & ->)]; [intros r []|].
  assert (G : forallb (fun h => forallb (fun n => simple_textb E_vt (skipn n h)) (seq 0 (S (List.length h)))) (rev sample_hist) = true) by reflexivity.
  rewrite forallb_forall in G. specialize (G h Hi). rewrite forallb_forall in G. apply simple_textb_ok.
  destruct (Nat.le_gt_cases n (List.length h)) as [Hn|Hn]; [apply G, in_seq; lia|]. rewrite skipn_all2 by lia. reflexivity.
Qed.
Lemma low_vt r : 0 <= r < 128 -> joins E_vt r = false.
Proof.
  intros Hr. assert (G : forallb (fun n => negb (joins E_vt (Z.of_nat n))) (seq 0 128) = true) by (vm_compute; reflexivity).
  rewrite forallb_forall in G. specialize (G (Z.to_nat r)). rewrite Z2Nat.id in G by lia. apply negb_true_iff, G, in_seq. lia.
Qed.
