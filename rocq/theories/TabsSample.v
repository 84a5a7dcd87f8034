(** Checking the conditions of SpecTabs.v for the example of PTabs.v. *)
From Verif Require Import Base Utf8 Moji Color Prompt Buffer Commands KeyMap Session Spec Sample SpecTabs.

Definition ordinary_textb (E : env) (t : str) : bool :=
  forallb (fun r => negb (joins E r)) (runes t) && (zlen (runes t) <=? 800).
Definition ordinary_eventb (S : scfg) (e : event) : bool :=
  match e with
  | EKey k => ordinary_textb (cE (base S)) k &&
     match LookupCommand (kmap S) (gmap S) k with CSelfInsert k' => ordinary_textb (cE (base S)) k' | _ => true end
  | EKeyErr => true
  | EResize w => prompt_width (base S) + 11 <? w
  | EClip None => true
  | EClip (Some t) => ordinary_textb (cE (base S)) t
  end.
Definition short_lineb (x : sess) : bool :=
  (zlen (cells (buf_of x)) <=? 800) && match x with Running (MSearch ss) s => zlen (runes (ss_str ss)) <=? 800 | _ => true end.
Definition no_swapb (S : scfg) (e : event) (x : sess) : bool :=
  match e, x with
  | EKey k, Running MNormal s => match LookupCommand (kmap S) (gmap S) k with CSwapChar => negb (cursor s =? zlen (cells s)) || (cursor s <? 2) | _ => true end
  | _, _ => true
  end.
(** All prefixes of a run. *)
Fixpoint along (S : scfg) (x : sess) (es : list event) : bool :=
  match es with
  | [] => true
  | e :: es' => short_lineb x && no_swapb S e x && match step S e x with Some x' => along S x' es' | None => true end
  end.
Lemma ordinary_textb_ok E t : ordinary_textb E t = true -> ordinary_text E t.
Proof.
  intros H. apply andb_true_iff in H as [H1 H2]. split; [|now apply Z.leb_le].
  rewrite forallb_forall in H1. intros r Hr. specialize (H1 r Hr). now destruct (joins E r).
Qed.
Lemma ordinary_eventb_ok S es : forallb (ordinary_eventb S) es = true -> Forall (ordinary_event S) es.
Proof.
  intros H. apply Forall_forall. intros e He. rewrite forallb_forall in H. specialize (H e He).
  destruct e as [k| |w|[t|]]; cbn in *; [|exact I|now apply Z.ltb_lt| |discriminate].
  - apply andb_true_iff in H as [H1 H2]. split; [now apply ordinary_textb_ok|]. intros k' Hk. rewrite Hk in H2. now apply ordinary_textb_ok.
  - intros t' [= <-]. now apply ordinary_textb_ok.
Qed.
Lemma along_ok S es : forall x, along S x es = true ->
  forall es1 e es2 y, es = es1 ++ e :: es2 -> run S es1 x = Some y -> short_line y /\ no_swap_at_end S e y.
Proof.
  induction es as [|e0 es IH]; intros x H es1 e es2 y He Hy; [destruct es1; discriminate|].
  cbn [along] in H. apply andb_true_iff in H as [H H3]. apply andb_true_iff in H as [H1 H2]. destruct es1 as [|e1 es1].
  - injection He as -> ->. cbn in Hy. injection Hy as <-. split.
    + apply andb_true_iff in H1 as [H1 H4]. split; [now apply Z.leb_le|]. intros ss s ->. now apply Z.leb_le.
    + intros k s -> -> Hk Hc. cbn [no_swapb] in H2. rewrite Hk in H2. rewrite Hc, Z.eqb_refl in H2. cbn in H2. rewrite Hc. now apply Z.ltb_lt.
  - injection He as -> ->. cbn [run] in Hy. destruct (step S e1 x) as [x'|]; [|discriminate]. exact (IH x' H3 es1 e es2 y eq_refl Hy).
Qed.
Definition along_read (S : scfg) default cur w cl es : bool := match start S default cur w cl with Some x => along S x es | None => true end.
Lemma along_read_ok S default cur w cl es : along_read S default cur w cl es = true ->
  forall es1 e es2 x, es = es1 ++ e :: es2 -> readline S default cur w cl es1 = Some x -> short_line x /\ no_swap_at_end S e x.
Proof.
  unfold along_read, readline. destruct (start S default cur w cl) as [x0|]; [|discriminate]. intros H es1 e es2 x He Hx. exact (along_ok S es x0 H es1 e es2 x He Hx).
Qed.
Lemma ordinary_off : ordinary_editor S_off.
Proof.
  split; [exact builtin_off|]. split; [exact sane_off|]. split; [exact sample_rw8|]. split; [reflexivity|].
  split; [intros r Hr; unfold joins; cbn; reflexivity|]. split; [now left|].
  apply Forall_forall. intros t Ht. apply ordinary_textb_ok. revert t Ht. apply forallb_forall. vm_compute. reflexivity.
Qed.
