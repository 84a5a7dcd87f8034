(** A configuration for C58 with tabs: that of VtSample.v without predictions. *)
From Verif Require Import Base Utf8 Moji Color Prompt Buffer Commands KeyMap Session Spec SpecLib SpecTerm SpecScreen SpecVt SpecTabScreen SpecVtTabs Sample TermSample
  ScreenCheck VtFacts VtSample VtTabs.
Ltac lia := unfold rune in *; Lia.lia.

Definition tab_hist : list str := [s2l "make" ++ [9] ++ s2l "all"; s2l "readme"].
Definition S_vtt : scfg := mkScfg (mkCfg E_vt tab_hist false [] [] (fun _ _ => [])
  (Some ([10; 27] ++ s2l "[36;1m$ " ++ [27] ++ s2l "[0m")) VimBatch ascii_upper) [] GlobalKeyMap.
Definition single_textb (E : env) (t : str) : bool := forallb (fun r => negb (joins E r)) (runes t).
Lemma single_textb_ok E t : single_textb E t = true -> single_text E t.
Proof. intros H r Hr. eapply forallb_forall in H; [|exact Hr]. now apply negb_true_iff in H. Qed.
Definition single_eventb (S : scfg) (e : event) : bool :=
  match e with
  | EKey k => single_textb (cE (base S)) k && match LookupCommand (kmap S) (gmap S) k with CSelfInsert k' => single_textb (cE (base S)) k' | _ => true end
  | EClip (Some t) => single_textb (cE (base S)) t
  | _ => true
  end.
Lemma single_eventb_ok S es : forallb (single_eventb S) es = true -> Forall (single_event S) es.
Proof.
  intros H. apply Forall_forall. intros e He. eapply forallb_forall in H; [|exact He]. destruct e as [k| |w|[t|]]; cbn [single_eventb single_event] in *; try exact I.
  - apply andb_true_iff in H as [H1 H2]. split; [now apply single_textb_ok|]. intros k' Hk. rewrite Hk in H2. now apply single_textb_ok.
  - intros t' Ht. injection Ht as <-. now apply single_textb_ok.
  - intros t' Ht. discriminate.
Qed.
Lemma builtin_vtt : only_builtin S_vtt. Proof. intros k f. apply global_builtin. discriminate. Qed.
Lemma single_vtt : single_editor S_vtt.
Proof.
  split; [apply builtin_vtt|]. split; [exact (proj1 (proj2 simple_vt))|]. split; [now left|]. split; [reflexivity|]. split; [exact low_vt|].
  repeat constructor; now apply single_textb_ok.
Qed.
(** The same with predictions. *)
Definition S_vttp : scfg := mkScfg (mkCfg E_vt tab_hist false ([27] ++ s2l "[3;22;34m") ([27] ++ s2l "[23;39m") (predictByHistory tab_hist)
  (Some ([10; 27] ++ s2l "[36;1m$ " ++ [27] ++ s2l "[0m")) VimBatch ascii_upper) [] GlobalKeyMap.
Lemma single_vttp : single_editor S_vttp.
Proof.
  split; [intros k f; apply global_builtin; discriminate|]. split; [exact (proj1 (proj2 simple_vt))|]. split; [|split; [reflexivity|]; split; [exact low_vt|]; repeat constructor; now apply single_textb_ok].
  right. intros t c. cbn [base S_vttp predictor]. unfold predictByHistory.
  destruct (predict_suffix (rev tab_hist) t) as [-> |(h & n & Hi & ->)]; [intros r []|].
  assert (G : forallb (fun h => forallb (fun n => single_textb E_vt (skipn n h)) (seq 0 (S (List.length h)))) (rev tab_hist) = true) by reflexivity.
  rewrite forallb_forall in G. specialize (G h Hi). rewrite forallb_forall in G. apply single_textb_ok.
  destruct (Nat.le_gt_cases n (List.length h)) as [Hn|Hn]; [apply G, in_seq; lia|]. rewrite skipn_all2 by lia. reflexivity.
Qed.
