(** Schedules on a terminal that reads bytes: lemmas for PWhole.v. *)
From Verif Require Import Base Utf8 Moji Color Prompt Buffer Commands KeyMap Session Spec SessFacts EditMore SessProps SpecRepl SpecTty SpecTerm SpecScreen SpecVt Sched SpecSched SchedFacts SchedTabs.
From Verif Require VtFacts TtyFacts Utf8 Utf8.
From Verif Require Import Session Spec SpecScreen.

Lemma typed_simple S ls : Forall (simple_label S) ls -> Forall (simple_event S) (typed ls).
Proof.
  induction 1 as [|l ls Hl _ IH]; [constructor|]. cbn [typed flat_map]. apply Forall_app. split; [|exact IH].
  destruct l; try constructor; try exact Hl; try exact Logic.I; constructor.
Qed.
Lemma sizes_simple S ls : Forall (simple_label S) ls -> Forall (fun w => simple_event S (EResize w)) (sizes ls).
Proof.
  induction 1 as [|l ls Hl _ IH]; [constructor|]. cbn [sizes flat_map]. apply Forall_app. split; [|exact IH].
  destruct l; try constructor; try exact Hl; constructor.
Qed.
Lemma split_simple S es : Forall (simple_event S) (inputs es) -> Forall (fun w => simple_event S (EResize w)) (resizes es) -> Forall (simple_event S) es.
Proof.
  induction es as [|e es IH]; [constructor|]. rewrite inputs_cons. cbn [resizes flat_map]. intros H1 H2.
  apply Forall_app in H1 as [H1 H1']. apply Forall_app in H2 as [H2 H2']. constructor; [|now apply IH].
  destruct e; cbn in H1, H2; inversion H1; inversion H2; subst; assumption.
Qed.
Lemma within_simple S ls es : Forall (simple_label S) ls -> within ls es -> Forall (simple_event S) es.
Proof.
  intros Hl [[ks Hk] [ws Hw]]. apply split_simple.
  - apply typed_simple in Hl. rewrite Hk in Hl. now apply Forall_app in Hl as [Hl _].
  - apply sizes_simple in Hl. rewrite Hw in Hl. now apply Forall_app in Hl as [Hl _].
Qed.

Section Whole.
Variable V : vterm.
Variable S : scfg.
Variable I : impl.
Notation C := (base S).
Notation E := (cE C).

(** C58 for schedules. *)
Lemma schedule_screen default cur w cl s0 ls c m : implements S I ->
  simple_editor S -> simple_text E default -> simple_clip E cl -> 0 <= cur -> prompt_width C + 11 < w < 9223372036854775808 ->
  (forall r, 0 <= r < 128 -> joins E r = false) -> counts_like V E ->
  ready_after V (fst (callPromptWriter E (prompt C))) -> ready_after V (last_line_prompt (prompt C)) ->
  (pcolor0 C <> [] -> attribute_only V (pcolor0 C) /\ attribute_only V (pcolor1 C)) ->
  start S default cur w cl = Some (Running MNormal s0) -> Forall (simple_label S) ls ->
  (forall es, within ls es -> steady_run S es (Running MNormal s0)) ->
  exec_to I (ready s0) ls (Some c) -> lp c = LRead /\ m = MNormal /\ ~ in_callback (sz c) \/ lp c = LInner m ->
  forall lf v0, v_state v0 = Ground -> 0 <= v_col v0 ->
  vt_right V E (Running m (shared c)) (vbytes V (out_bytes E lf (out (shared c))) v0).
Proof.
  intros HI HE Hd Hcl Hc Hw Ha HV Hp1 Hp2 Hat Hs Hls Hst Hx Hl lf v0 Hv Hv'.
  assert (G : exists es, run S es (Running MNormal s0) = Some (Running m (shared c)) /\ inputs es = typed ls /\ sizes ls = resizes es ++ waiting (sz c)).
  { destruct Hl as [(Hl & -> & Hn)|Hl]; [eapply atomic_wait|eapply atomic_inner]; eauto. }
  destruct G as (es & Hr & Hi & Hz).
  assert (Hwi : within ls es) by (split; [exists []; now rewrite app_nil_r|eauto]).
  change (out (shared c)) with (out (buf_of (Running m (shared c)))).
  refine (VtFacts.vt_session V S default cur w cl es _ HE Hd Hcl (within_simple S ls es Hls Hwi) Hc Hw Ha _ HV Hp1 Hp2 Hat _ lf v0 Hv Hv').
  - intros x0 Hx0. rewrite Hs in Hx0. injection Hx0 as <-. now apply Hst.
  - unfold readline. now rewrite Hs.
Qed.

(** Typing a line, with resizes anywhere. *)
Variable ks : list str.
Variable kr : str.
Hypothesis Hks : Forall (typable S) ks.
Hypothesis Hkr : bound S kr CAcceptLine.

(** After the keys [done]: *)
Definition stage (done : list str) (x : sess) : Prop :=
  (exists s, x = Running MNormal s /\ at_split s (flat_map (split E) done) [] /\ pending s = [] /\ exists todo, ks = done ++ todo) \/
  (done = ks ++ [kr] /\ exists s, x = Finished s (List.concat ks) RNil).
Lemma typed_written l : Forall (typable S) l -> written (flat_map (split E) l) = List.concat l.
Proof.
  intros H. rewrite <- (typed_text S l H). clear -H. induction H as [|k l (_ & Ha & _) _ IH]; [reflexivity|].
  cbn [flat_map]. change (altgr k = k) in Ha. now rewrite !written_app, IH, Ha.
Qed.
Lemma stage_key done k todo x x' : ks ++ [kr] = done ++ k :: todo -> stage done x -> step S (EKey k) x = Some x' -> stage (done ++ [k]) x'.
Proof.
  intros Hk [(s & -> & Hsp & Hp & rest & Hd)|(-> & s & ->)] Hs.
  - rewrite Hd, <- app_assoc in Hk. apply app_inv_head in Hk. destruct rest as [|k' rest]; cbn [app] in Hk; injection Hk as Hkk Ht.
    + right. subst k. rewrite app_nil_r in Hd. subst done. split; [reflexivity|]. apply key_end in Hs as [s' ->]; [|exact Hkr].
      exists s'. f_equal. destruct Hsp as [Hl _]. rewrite Hl, app_nil_r. now apply typed_written.
    + subst k'. left. pose proof Hks as Hall. rewrite Hd in Hall. apply Forall_app in Hall as [_ Hall]. apply Forall_cons_iff in Hall as [(Hu & Ha & Hj & _) _].
      change (altgr k = k) in Ha.
      destruct (type_key S k s x' _ _ Hu Hsp) as (s' & -> & Hsp' & Hp' & _); [now rewrite Ha|exact Hs|].
      exists s'. split; [reflexivity|]. rewrite Hp, Ha in Hsp'. cbn [app] in Hsp'. split; [now rewrite flat_map_app; cbn [flat_map]; rewrite app_nil_r|].
      split; [exact Hp'|]. exists rest. now rewrite Hd, <- app_assoc.
  - exfalso. apply (f_equal (@List.length _)) in Hk. rewrite !app_length in Hk. cbn in Hk. lia.
Qed.
Lemma stage_resize done w x x' : stage done x -> step S (EResize w) x = Some x' -> stage done x'.
Proof.
  intros [(s & -> & [Hl Hc] & Hp & Hd)|(-> & s & ->)] Hs.
  - left. cbn [step] in Hs. destruct (on_resize S w s) as [s'|] eqn:Hr; [|discriminate]. injection Hs as <-.
    apply resize_same in Hr as [(H1 & _ & _ & _ & _ & H6) H7]. exists s'. split; [reflexivity|].
    split; [split; congruence|]. split; [congruence|exact Hd].
  - right. split; [reflexivity|]. injection Hs as <-. eauto.
Qed.
Lemma stage_run es : forall done todo x x', ks ++ [kr] = done ++ todo -> (exists rest, map EKey todo = inputs es ++ rest) ->
  stage done x -> run S es x = Some x' -> exists more, inputs es = map EKey more /\ stage (done ++ more) x' /\ exists rest, todo = more ++ rest.
Proof.
  induction es as [|e es IH]; intros done todo x x' Hk [rest Hi] Hst Hr; cbn [run] in Hr.
  - injection Hr as <-. exists []. rewrite app_nil_r. split; [reflexivity|]. split; [exact Hst|now exists todo].
  - destruct (step S e x) as [y|] eqn:Hs; [|discriminate]. rewrite inputs_cons in Hi |- *.
    destruct (is_resize e) eqn:Hz.
    + destruct e; try discriminate Hz. apply (IH done todo y x'); [exact Hk|now exists rest|now apply (stage_resize done w x)|exact Hr].
    + cbn [app] in Hi |- *. destruct todo as [|k todo]; [discriminate Hi|]. cbn [map] in Hi. injection Hi as He Hi. subst e.
      destruct (IH (done ++ [k]) todo y x') as (more & H1 & H2 & r2 & H3); [now rewrite <- app_assoc|now exists rest|now apply (stage_key done k todo x)|exact Hr|].
      exists (k :: more). cbn [map]. rewrite H1. split; [reflexivity|]. split; [|exists r2; now rewrite H3]. now rewrite <- app_assoc in H2.
Qed.
Lemma stage_steady es : forall done todo x, ks ++ [kr] = done ++ todo -> (exists rest, map EKey todo = inputs es ++ rest) ->
  stage done x -> steady_run S es x.
Proof.
  induction es as [|e es IH]; intros done todo x Hk [rest Hi] Hst; cbn [steady_run]; [exact Logic.I|].
  rewrite inputs_cons in Hi. destruct (is_resize e) eqn:Hz.
  - destruct e; try discriminate Hz. split; [now destruct x|]. intros x' Hs. apply (IH done todo x'); [exact Hk|now exists rest|now apply (stage_resize done w x)].
  - cbn [app] in Hi. destruct todo as [|k todo]; [discriminate Hi|]. cbn [map] in Hi. injection Hi as He Hi. subst e. split.
    + destruct Hst as [(s & -> & _ & _ & rest' & Hd)|(-> & s & ->)]; [|exact Logic.I]. cbn [steady].
      assert (Hb : LookupCommand (kmap S) (gmap S) k = CAcceptLine \/ LookupCommand (kmap S) (gmap S) k = CSelfInsert k).
      { rewrite Hd, <- app_assoc in Hk. apply app_inv_head in Hk. destruct rest' as [|k' rest']; cbn [app] in Hk; injection Hk as Hkk Ht.
        - left. subst k. exact Hkr.
        - right. subst k'. pose proof Hks as Hall. rewrite Hd in Hall. apply Forall_app in Hall as [_ Hall]. now apply Forall_cons_iff in Hall as [(Hu & _) _]. }
      destruct Hb as [-> | ->]; split; discriminate.
    + intros x' Hs. apply (IH (done ++ [k]) todo x'); [now rewrite <- app_assoc|now exists rest|now apply (stage_key done k todo x)].
Qed.
End Whole.

Section Typing.
Variable V : vterm.
Variable S : scfg.
Variable I : impl.
Notation C := (base S).
Notation E := (cE C).
Variable l : list rune.
Variable cur w : Z.
Variable cl : option str.
Variable s0 : buf.
Variable ls : list label.
Hypothesis HI : implements S I.
Hypothesis HE : simple_editor S.
Hypothesis Hcl : simple_clip E cl.
Hypothesis Hl : Forall (typed_char (fun _ => S) E) l.
Hypothesis Hb : bound S [13] CAcceptLine.
Hypothesis Ha : forall r, 0 <= r < 128 -> joins E r = false.
Hypothesis Hc : 0 <= cur.
Hypothesis Hw : prompt_width C + 11 < w < 9223372036854775808.
Hypothesis Hs : start S [] cur w cl = Some (Running MNormal s0).
Hypothesis Hz : Forall (fun w => prompt_width C + 11 < w) (sizes ls).
Hypothesis Hk : exists rest, map EKey (map encode_rune l ++ [[13]]) = typed ls ++ rest.

Lemma typing_typable : Forall (typable S) (map encode_rune l).
Proof.
  clear Ha Hw. apply Forall_map. eapply Forall_impl; [|exact Hl]. intros r (Hv & H0 & H27 & H9 & Hj & Hu).
  split; [apply (Hu [])|]. split; [now apply TtyFacts.altgr_char|]. split; [now rewrite TtyFacts.first_rune_char by exact Hv|].
  split; [apply Utf8.valid_utf8_encode_rune|]. destruct (zwj_ok E) eqn:Hzw; [right|now left].
  rewrite <- (app_nil_r (encode_rune r)), Utf8.runes_encode_rune by exact Hv. unfold joins in Hj. rewrite Hzw in Hj.
  apply orb_false_iff in Hj as [Hj _]. apply orb_false_iff in Hj as [Hj _]. cbn [andb] in Hj. apply orb_false_iff in Hj as [Ha' Hb']. split.
  - intros [Hi|[]]. lia.
  - intros rs Hrs. destruct rs as [|a rs]; [cbn in Hrs; injection Hrs as ->; lia|].
    apply (f_equal (@List.length _)) in Hrs. cbn in Hrs. rewrite app_length in Hrs. cbn in Hrs. lia.
Qed.
Lemma typing_simple_key k : In k (map encode_rune l ++ [[13]]) -> simple_event S (EKey k).
Proof.
  intros Hi. apply in_app_or in Hi as [Hi|[<-|[]]].
  - apply in_map_iff in Hi as (r & <- & Hi). rewrite Forall_forall in Hl. pose proof (Hl r Hi) as Ht. destruct Ht as (Hv & _ & _ & H9 & Hj & Hu).
    assert (Hst : simple_text E (encode_rune r)).
    { intros x Hx. rewrite <- (app_nil_r (encode_rune r)), Utf8.runes_encode_rune in Hx by exact Hv. destruct Hx as [<-|[]]. auto. }
    specialize (Hu []). unfold unbound, bound in Hu. cbn. rewrite Hu. split; [exact Hst|]. split; [discriminate|]. intros k' [= <-]. exact Hst.
  - cbn. unfold bound in Hb. rewrite Hb. split; [|split; discriminate]. intros r [<-|[]]. split; [lia|apply Ha; lia].
Qed.
Lemma typing_labels : Forall (simple_label S) ls.
Proof.
  destruct Hk as [rest Hk']. assert (Ht : Forall (fun e => exists k, e = EKey k /\ In k (map encode_rune l ++ [[13]])) (typed ls)).
  { apply Forall_forall. intros e He. assert (Hi : In e (map EKey (map encode_rune l ++ [[13]]))) by (rewrite Hk'; apply in_or_app; now left).
    apply in_map_iff in Hi as (k & <- & Hi). eauto. }
  clear Hk Hk'. revert Ht Hz. induction ls as [|a ls' IH]; [constructor|]. intros Ht Hz'. cbn [typed sizes flat_map] in Ht, Hz'. apply Forall_app in Ht as [H1 H2]. apply Forall_app in Hz' as [H3 H4].
  constructor; [|now apply IH]. destruct a; try exact Logic.I.
  - apply Forall_cons_iff in H1 as [(k' & [= ->] & Hi) _]. now apply typing_simple_key.
  - now apply Forall_cons_iff in H3 as [H3 _].
Qed.
Lemma typing_stage0 : stage S (map encode_rune l) [13] [] (Running MNormal s0).
Proof.
  clear Ha Hw. left. exists s0. split; [reflexivity|]. pose proof Hs as Hs'. apply start_state in Hs' as (s & [= <-] & Hli & Hcu & _ & Hp & _).
  split; [|split; [exact Hp|now exists (map encode_rune l)]]. split; [exact Hli|]. rewrite Hcu. change (Z.min cur 0 = 0). lia.
Qed.
Lemma typing_within es : within ls es -> exists rest, map EKey (map encode_rune l ++ [[13]]) = inputs es ++ rest.
Proof. intros [[r Hr] _]. destruct Hk as [rest Hk']. rewrite Hk', Hr, <- app_assoc. eauto. Qed.

Lemma typing_no_crash : ~ exec_to I (ready s0) ls None.
Proof. apply (no_crash S I HI [] cur w cl s0 ls HE); try assumption; [intros r []|lia|apply typing_labels]. Qed.

Variable c : config.
Hypothesis Hx : exec_to I (ready s0) ls (Some c).

Lemma typing_line : lp c = LRead -> ~ in_callback (sz c) ->
  exists done todo, l = done ++ todo /\ typed ls = map (fun r => EKey (encode_rune r)) done /\
    written (line (shared c)) = encode done /\ cursor (shared c) = zlen (line (shared c)).
Proof.
  intros Hr Hn. destruct (atomic_wait S I HI s0 ls c Hx Hr Hn) as (es & Hrun & Hin & Hsz).
  assert (Hwi : within ls es) by (split; [exists []; now rewrite app_nil_r|eauto]).
  destruct (stage_run S (map encode_rune l) [13] typing_typable Hb es [] (map encode_rune l ++ [[13]]) _ _ eq_refl (typing_within es Hwi) typing_stage0 Hrun)
    as (more & H1 & H2 & H3). cbn [app] in H2. destruct H2 as [(s & [= <-] & [Hli Hcu] & _ & todo & Hd)|(_ & s & Hf)]; [|discriminate Hf].
  assert (Hm : exists done todo', l = done ++ todo' /\ more = map encode_rune done).
  { clear -Hd. revert more Hd. induction l as [|r l' IH]; intros more Hd.
    - destruct more; [|discriminate Hd]. exists [], []. auto.
    - destruct more as [|k more]; [exists [], (r :: l'); auto|]. cbn [map app] in Hd. injection Hd as <- Hd. destruct (IH more Hd) as (d & t & -> & ->). exists (r :: d), t. auto. }
  destruct Hm as (done & todo' & Hl' & ->). exists done, todo'. split; [exact Hl'|]. split; [now rewrite <- Hin, H1, map_map|].
  rewrite Hli, app_nil_r. split; [|rewrite Hcu; reflexivity].
  rewrite (typed_written S); [unfold encode; now rewrite flat_map_concat_map|].
  pose proof typing_typable as Ht. rewrite Hd in Ht. now apply Forall_app in Ht as [Ht _].
Qed.
Lemma typing_result t e : lp c = LEnd t e -> t = encode l /\ e = RNil.
Proof.
  intros Hr. destruct (atomic_end S I HI s0 ls c t e Hx Hr) as (es & s & Hrun & Hin & Hsz).
  assert (Hwi : within ls es) by (split; [exists []; now rewrite app_nil_r|exact Hsz]).
  destruct (stage_run S (map encode_rune l) [13] typing_typable Hb es [] (map encode_rune l ++ [[13]]) _ _ eq_refl (typing_within es Hwi) typing_stage0 Hrun)
    as (more & H1 & H2 & H3). cbn [app] in H2. destruct H2 as [(s' & Hf & _)|(_ & s' & [= <- -> ->])]; [discriminate Hf|].
  split; [|reflexivity]. unfold encode. now rewrite flat_map_concat_map.
Qed.
Lemma typing_screen : counts_like V E ->
  ready_after V (fst (callPromptWriter E (prompt C))) -> ready_after V (last_line_prompt (prompt C)) ->
  (pcolor0 C <> [] -> attribute_only V (pcolor0 C) /\ attribute_only V (pcolor1 C)) ->
  lp c = LRead -> ~ in_callback (sz c) -> forall lf v0, v_state v0 = Ground -> 0 <= v_col v0 ->
  vt_right V E (Running MNormal (shared c)) (vbytes V (out_bytes E lf (out (shared c))) v0).
Proof.
  intros HV Hp1 Hp2 Hat Hr Hn. apply (schedule_screen V S I [] cur w cl s0 ls c MNormal HI HE); try assumption; [intros r []|apply typing_labels| |auto].
  intros es Hwi. exact (stage_steady S (map encode_rune l) [13] typing_typable Hb es [] _ _ eq_refl (typing_within es Hwi) typing_stage0).
Qed.
End Typing.
