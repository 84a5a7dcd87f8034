(** Texts that try to reach the terminal (C74). *)
From Verif Require Import Base Utf8 Moji Color Prompt Buffer Commands KeyMap Session Spec SpecTerm SpecVt Script SpecInject Sample TermSample InjectFacts.
Ltac lia := unfold rune in *; Lia.lia.

Lemma silent_builtin S : only_builtin S -> silent_user S.
Proof. intros H k f Hk. now destruct (H k f). Qed.
Lemma silent_editor edit : silent (cmdStartEditor edit).
Proof. cbn. intros s. destruct (edit (buf_string s)); cbn; auto 10. Qed.
Definition E_quiet : env := mkEnv false false false true false term_rw (fun a b => a + 1 + b) sample_vsme.
(** CTRL-X calls up an external editor that answers with [t]. *)
Definition S_quiet (t : str) : scfg :=
  mkScfg (cfg_of E_quiet) [([24], CUser (run_script (cfg_of E_quiet) (cmdStartEditor (fun _ => Some t))))] GlobalKeyMap.
Lemma silent_quiet t : silent_user (S_quiet t).
Proof.
  intros k f H. unfold LookupCommand, S_quiet in H. cbn [kmap gmap] in H. unfold Lookup in H. cbn [aget] in H.
  destruct (str_eqb k [24]) eqn:Hk.
  - injection H as <-. exists (cmdStartEditor (fun _ => Some t)). split; [apply silent_editor|reflexivity].
  - exfalso. apply (global_builtin [] ltac:(discriminate) (cfg_of E_quiet) k f H).
Qed.
Lemma quiet_widths t r : 127 <= r <= 159 -> rw (cE (base (S_quiet t))) r = 0.
Proof. intros H. cbn. unfold term_rw, control. now replace ((0 <=? r) && (r <=? 31) || (127 <=? r) && (r <=? 159)) with true by lia. Qed.
Lemma quiet_joins t r : joins (cE (base (S_quiet t))) r = false. Proof. reflexivity. Qed.

(** "x", zero width joiner and a control character. *)
Definition smuggle (c : Z) (more : str) : str := encode [120; 8205; c] ++ more.
Fixpoint has (p b : str) : bool := match b with [] => has_prefix b p | _ :: b' => has_prefix b p || has p b' end.
Lemma has_ok p b : has p b = true -> exists u v, b = u ++ p ++ v.
Proof.
  assert (G : forall b p, has_prefix b p = true -> exists v, b = p ++ v).
  { induction b0 as [|x b0 IH]; intros [|y q] H; cbn in H; try discriminate; [now exists []|now exists (x :: b0)|].
    apply andb_true_iff in H as [H1 H2]. apply Z.eqb_eq in H1. subst. destruct (IH q H2) as [v ->]. now exists v. }
  induction b as [|x b IH]; cbn [has]; intros H.
  - destruct (G [] p H) as [v Hv]. now exists [], v.
  - apply orb_true_iff in H as [H|H]; [destruct (G _ _ H) as [v Hv]; now exists [], v|]. destruct (IH H) as (u & v & ->). now exists (x :: u), v.
Qed.
(** No sequence of the editor, no setting of this one and no harmless text has a byte 14. *)
Lemma own_no_so lf b : (forall rc, ~ In 14 (lf rc)) -> own S_term lf b -> ~ In 14 b.
Proof.
  intros Hl H. inversion H; subst; try (cbn; intuition lia); try apply Hl.
  - rewrite !in_app_iff. intros [G|[G|G]]; [cbn in G; intuition lia| |cbn in G; intuition lia]. rewrite Forall_forall in H0. specialize (H0 14 G). lia.
  - rewrite !in_app_iff. intros [G|[G|G]]; [cbn in G; intuition lia| |cbn in G; intuition lia]. rewrite Forall_forall in H0. specialize (H0 14 G). lia.
Qed.
Lemma harmless_no_so b : harmless b -> ~ In 14 b.
Proof.
  intros (rs & -> & H) G. unfold encode in G. apply in_flat_map in G as (r & Hr & G). rewrite Forall_forall in H. destruct (H r Hr) as [Hv Hc].
  unfold encode_rune in G. rewrite Hv in G. unfold control in Hc. unfold valid_rune in Hv. destruct (r <? 128) eqn:E1; [destruct G as [G|[]]; subst; discriminate|].
  destruct (r <? 2048); [|destruct (r <? 65536)]; cbn [In] in G;
    repeat (match type of G with context [?a mod ?b] => lazymatch goal with K : 0 <= a mod b < b |- _ => fail | _ => pose proof (Z.mod_pos_bound a b ltac:(lia)) end end);
    repeat (match type of G with context [?a / ?b] => lazymatch goal with K : 0 <= a / b |- _ => fail | _ => assert (0 <= a / b) by (apply Z.div_pos; lia) end end); lia.
Qed.
Lemma smuggled : exists x, readline S_term [] 0 80 (Some (smuggle 14 [])) [key 25] = Some x /\
  In 14 (out_bytes E_term (fun _ => [10]) (out (buf_of x))).
Proof.
  set (o := readline S_term [] 0 80 (Some (smuggle 14 [])) [key 25]).
  assert (H : match o with Some x => existsb (Z.eqb 14) (out_bytes E_term (fun _ => [10]) (out (buf_of x))) | None => false end = true) by (vm_compute; reflexivity).
  destruct o as [x|]; [|discriminate H]. exists x. split; [reflexivity|]. apply existsb_exists in H as (y & Hy & Ey). apply Z.eqb_eq in Ey. now subst.
Qed.
Lemma not_safe : exists S lf cl w es x, silent_user S /\ (forall r, 127 <= r <= 159 -> rw (cE (base S)) r = 0) /\
  readline S [] 0 w cl es = Some x /\
  ~ exists ps, out_bytes (cE (base S)) lf (out (buf_of x)) = List.concat ps /\ Forall (fun b => own S lf b \/ harmless b) ps.
Proof.
  destruct smuggled as (x & Hx & H14). exists S_term, (fun _ => [10]), (Some (smuggle 14 [])), 80, [key 25], x.
  split; [apply silent_builtin, builtin_term|]. split; [intros r Hr; apply (ag_control _ _ term_agrees r Hr)|]. split; [exact Hx|].
  intros (ps & Hp & HF). change (cE (base S_term)) with E_term in Hp. rewrite Hp in H14. apply in_concat in H14 as (b & Hb & H14). rewrite Forall_forall in HF.
  destruct (HF b Hb) as [Ho|Hh]; [eapply own_no_so; [|exact Ho|exact H14]; cbn; intuition lia|exact (harmless_no_so b Hh H14)].
Qed.
Lemma clears : exists S lf cl w es x, only_builtin S /\ (forall r, 127 <= r <= 159 -> rw (cE (base S)) r = 0) /\
  readline S [] 0 w cl es = Some x /\ ~ In TClear (out (buf_of x)) /\
  exists a b, out_bytes (cE (base S)) lf (out (buf_of x)) = a ++ [27; 91; 50; 74] ++ b.
Proof.
  set (o := readline S_term [] 0 80 (Some (smuggle 27 (s2l "[2J"))) [key 25]).
  assert (H : match o with Some x => has [27; 91; 50; 74] (out_bytes E_term (fun _ => [10]) (out (buf_of x))) &&
                                     negb (existsb (fun t => match t with TClear => true | _ => false end) (out (buf_of x))) | None => false end = true) by (vm_compute; reflexivity).
  destruct o as [x|] eqn:Ho; [|discriminate H]. apply andb_true_iff in H as [H1 H2].
  exists S_term, (fun _ => [10]), (Some (smuggle 27 (s2l "[2J"))), 80, [key 25], x.
  split; [apply builtin_term|]. split; [intros r Hr; apply (ag_control _ _ term_agrees r Hr)|]. split; [exact Ho|]. split; [|now apply has_ok].
  intros Hi. apply negb_true_iff in H2. rewrite <- not_true_iff_false in H2. apply H2. apply existsb_exists. exists TClear. split; [exact Hi|reflexivity].
Qed.
