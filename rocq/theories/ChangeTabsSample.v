(** Lines with tabs while prompts and settings change, for the examples of PPrompts.v and PSettings.v. *)
From Verif Require Import Base Utf8 Moji Color Prompt Buffer Commands KeyMap Session Spec Sample SpecTabs TabsSample
  Script SpecScript SpecTabScript SpecIndep Prompts SpecPrompts Settings SpecSettings SettingsSample.
Ltac lia := unfold rune in *; Lia.lia.

Lemma waitsb_ok S e x : short_lineb x && no_swapb S e x = true -> short_line x /\ no_swap_at_end S e x.
Proof.
  intros H. apply andb_true_iff in H as [H1 H2]. split.
  - apply andb_true_iff in H1 as [H1 H4]. split; [now apply Z.leb_le|]. intros ss s ->. now apply Z.leb_le.
  - intros k s -> -> Hk Hc. cbn [no_swapb] in H2. rewrite Hk in H2. rewrite Hc, Z.eqb_refl in H2. cbn in H2. rewrite Hc. now apply Z.ltb_lt.
Qed.

(** Prompts. *)
Fixpoint along_prompts (S : scfg) (x : sess) (pes : list (option str * event)) : bool :=
  match pes with
  | [] => true
  | (p, e) :: pes' => short_lineb x && no_swapb S e x && match step (with_prompt S p) e x with Some x' => along_prompts S x' pes' | None => true end
  end.
Lemma along_prompts_ok S pes : forall x, along_prompts S x pes = true ->
  forall pes1 p e pes2 y, pes = pes1 ++ (p, e) :: pes2 -> run_prompts S pes1 x = Some y -> short_line y /\ no_swap_at_end S e y.
Proof.
  induction pes as [|[p0 e0] pes IH]; intros x H pes1 p e pes2 y He Hy; [destruct pes1; discriminate|].
  cbn [along_prompts] in H. apply andb_true_iff in H as [H H3]. destruct pes1 as [|[p1 e1] pes1].
  - injection He as -> -> ->. injection Hy as <-. now apply waitsb_ok.
  - injection He as -> -> ->. cbn [run_prompts] in Hy. destruct (step (with_prompt S p1) e1 x) as [x'|]; [|discriminate]. exact (IH x' H3 pes1 p e pes2 y eq_refl Hy).
Qed.
Definition prompts_tabsb (S : scfg) f default cur w cl pes : bool :=
  forallb (fun pe => ordinary_eventb S (snd pe) && (prompt_width (base (with_prompt S (fst pe))) <=? prompt_width (base S))) pes &&
  match start_prompt S f default cur w cl with Some x => along_prompts S x pes | None => true end.
Lemma prompts_tabsb_ok S f default cur w cl pes : prompts_tabsb S f default cur w cl pes = true ->
  Forall (fun pe => ordinary_event S (snd pe) /\ not_wider S (fst pe)) pes /\
  (forall pes1 p e pes2 x, pes = pes1 ++ (p, e) :: pes2 -> readline_prompts S f default cur w cl pes1 = Some x -> short_line x /\ no_swap_at_end S e x).
Proof.
  intros H. apply andb_true_iff in H as [H1 H2]. split.
  - apply Forall_forall. intros pe Hi. rewrite forallb_forall in H1. apply H1, andb_true_iff in Hi as [H3 H4]. split; [|now apply Z.leb_le].
    assert (G : Forall (ordinary_event S) [snd pe]) by (apply ordinary_eventb_ok; cbn [forallb]; now rewrite H3). now inversion G.
  - unfold readline_prompts. destruct (start_prompt S f default cur w cl) as [x0|]; [|discriminate].
    intros pes1 p e pes2 x He Hx. exact (along_prompts_ok S pes x0 H2 pes1 p e pes2 x He Hx).
Qed.

(** Settings without user commands. *)
Fixpoint along_settings (x : sess) (ses : list (scfg * event)) : bool :=
  match ses with
  | [] => true
  | (T, e) :: ses' => ordinary_eventb T e && (short_lineb x && no_swapb T e x) && match step T e x with Some x' => along_settings x' ses' | None => true end
  end.
Lemma along_settings_ok ses : Forall (fun q => only_builtin (fst q)) ses -> forall x, along_settings x ses = true ->
  forall ses1 T e ses2 y, ses = ses1 ++ (T, e) :: ses2 -> run_settings ses1 x = Some y ->
  ordinary_event T e /\ short_line y /\ no_swap_at_end T e y /\ careful_there T e y.
Proof.
  induction 1 as [|[T0 e0] ses HT _ IH]; intros x H ses1 T e ses2 y He Hy; [destruct ses1; discriminate|].
  cbn [along_settings] in H. apply andb_true_iff in H as [H H3]. destruct ses1 as [|[T1 e1] ses1].
  - injection He as -> -> ->. injection Hy as <-. apply andb_true_iff in H as [H1 H2].
    split; [assert (G : Forall (ordinary_event T) [e]) by (apply ordinary_eventb_ok; cbn [forallb]; now rewrite H1); now inversion G|].
    destruct (waitsb_ok _ _ _ H2) as [K1 K2]. split; [exact K1|]. split; [exact K2|]. intros k s f -> _ Hk. now destruct (HT k f).
  - injection He as -> -> ->. cbn [run_settings] in Hy. destruct (step T1 e1 x) as [x'|]; [|discriminate]. exact (IH x' H3 ses1 T e ses2 y eq_refl Hy).
Qed.
Definition settings_tabsb (S : scfg) default cur w cl ses : bool :=
  match start S default cur w cl with Some x => along_settings x ses | None => true end.
Lemma settings_tabsb_ok S default cur w cl ses : Forall (fun q => only_builtin (fst q)) ses -> settings_tabsb S default cur w cl ses = true ->
  forall ses1 T e ses2 x, ses = ses1 ++ (T, e) :: ses2 -> readline_settings S default cur w cl ses1 = Some x ->
  ordinary_event T e /\ short_line x /\ no_swap_at_end T e x /\ careful_there T e x.
Proof.
  unfold settings_tabsb, readline_settings. intros HB. destruct (start S default cur w cl) as [x0|]; [|discriminate]. intros H. exact (along_settings_ok ses HB x0 H).
Qed.

Lemma sources_x n h km : 0 < n <= 8 -> forallb (ordinary_textb (E_x n)) h = true -> ordinary_sources (S_x n h "" km).
Proof.
  intros Hn Hh. split; [|split; [|split; [reflexivity|split; [intros r _; reflexivity|split; [now left|]]]]].
  - repeat split; cbn; intros; try lia. unfold rw_x. destruct (r =? 120); [lia|]. apply sane_off.
  - intros r. cbn. unfold rw_x. destruct (r =? 120); [lia|apply sample_rw8].
  - apply Forall_forall. intros t Ht. rewrite forallb_forall in Hh. now apply ordinary_textb_ok, Hh.
Qed.
(** The editors of [x_events], with tabs in the line. *)
Definition xt_typed : list (scfg * event) :=
  map (fun e => (at_first, e)) (keys "xx" ++ [key 9; key 9] ++ keys "x") ++ map (fun e => (then_wide, e)) (keys "yx" ++ [key 9; key 2; key 1; key 5]) ++
  map (fun e => (then_more, e)) [key 16; key 14; EResize 20; key 2; key 20].
Definition xt_events : list (scfg * event) := xt_typed ++ map (fun e => (at_last, e)) [key 24; key 9; key 13].
Lemma xt_ok : ordinary_sources at_first /\ Forall (fun p => ordinary_sources (fst p)) xt_events /\ each_follows at_first xt_events /\
  Forall (fun q => only_builtin (fst q)) xt_events.
Proof.
  assert (A1 : ordinary_sources at_first) by (apply sources_x; [lia|vm_compute; reflexivity]).
  assert (A2 : ordinary_sources then_wide) by (apply sources_x; [lia|vm_compute; reflexivity]).
  assert (A3 : ordinary_sources then_more) by (apply sources_x; [lia|vm_compute; reflexivity]).
  assert (A4 : ordinary_sources at_last) by (apply sources_x; [lia|vm_compute; reflexivity]).
  assert (B0 : forall n h p km, (forall k c f, aget str_eqb km k = Some c -> c <> CUser f) -> only_builtin (S_x n h p km)).
  { intros n h p km Hkm k f. apply global_builtin. exact Hkm. }
  assert (B1 : forall n h p, only_builtin (S_x n h p [])) by (intros n h p; apply B0; discriminate).
  assert (B4 : only_builtin at_last).
  { apply B0. intros k c f. cbn [aget]. destruct (str_eqb k [24]); [|discriminate]. intros [= <-]. discriminate. }
  split; [exact A1|]. split; [|split].
  - unfold xt_events, xt_typed. rewrite !Forall_app, !Forall_map. repeat split; apply Forall_forall; intros e _; cbn [fst]; assumption.
  - assert (F1 : may_follow at_first at_first).
    { unfold at_first. rewrite <- (app_nil_r sample_hist) at 2. apply follow_x; [lia|lia|discriminate]. }
    assert (F2 : may_follow at_first then_wide).
    { unfold at_first, then_wide. rewrite <- (app_nil_r sample_hist) at 2. apply follow_x; [lia|lia|discriminate]. }
    assert (F3 : may_follow then_wide then_wide).
    { unfold then_wide. rewrite <- (app_nil_r sample_hist) at 2. apply follow_x; [lia|lia|discriminate]. }
    assert (F4 : may_follow then_wide then_more) by (apply follow_x; [lia|lia|discriminate]).
    assert (F5 : may_follow then_more then_more).
    { unfold then_more. rewrite <- (app_nil_r more_hist) at 2. apply follow_x; [lia|lia|discriminate]. }
    assert (F6 : may_follow then_more at_last).
    { unfold then_more, at_last. rewrite <- (app_nil_r more_hist) at 2. apply follow_x; [lia|lia|discriminate]. }
    assert (F7 : may_follow at_last at_last).
    { unfold at_last. rewrite <- (app_nil_r more_hist) at 2. apply follow_x; [lia|lia|discriminate]. }
    unfold xt_events, xt_typed. cbn [map keys s2l app each_follows]. repeat (split; [first [exact F1|exact F2|exact F3|exact F4|exact F5|exact F6|exact F7]|]). exact I.
  - unfold xt_events, xt_typed. rewrite !Forall_app, !Forall_map. repeat split; apply Forall_forall; intros e _; cbn [fst]; try assumption; apply B1.
Qed.
