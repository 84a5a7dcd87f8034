(** Changing settings, for the examples and witnesses of PSettings.v. *)
From Verif Require Import Base Utf8 Moji Color Prompt Buffer Commands KeyMap Session Spec Sample SpecComp Script SpecScript
  SpecIndep ScriptSample Settings SpecSettings.
Ltac lia := unfold rune in *; Lia.lia.

(** SetCharWidth('x', n). *)
Definition rw_x (n : Z) (r : rune) : Z := if r =? 120 then n else sample_rw r.
Definition E_x (n : Z) : env := mkEnv false false false true false (rw_x n) (fun a b => a + 1 + b) sample_vsme.
(** ... a history, the look of predictions and a key binding. *)
Definition S_x (n : Z) (h : list str) (p : string) (km : keymap) : scfg :=
  mkScfg (mkCfg (E_x n) h false (s2l p) [] (predictByHistory h) (Some (s2l "$ ")) VimBatch ascii_upper) km GlobalKeyMap.
Definition more_hist : list str := sample_hist ++ [s2l "xxx xxx xxx"].

Lemma careful_x n h p km : 0 < n <= 8 -> forallb (simple_textb (E_x n)) h = true -> p = ""%string ->
  (forall k c f, aget str_eqb km k = Some c -> c <> CUser f) -> careful_editor (S_x n h p km).
Proof.
  intros Hn Hh -> Hkm. split; [|split; [|split; [|split; [reflexivity|split; [reflexivity|split; [now left|]]]]]].
  - intros k f Hk. exfalso. revert Hk. apply global_builtin. exact Hkm.
  - repeat split; cbn; intros; try lia. unfold rw_x. destruct (r =? 120); [lia|]. apply sane_off.
  - intros r. cbn. unfold rw_x. destruct (r =? 120); [lia|apply sample_rw8].
  - apply Forall_forall. intros t Ht. rewrite forallb_forall in Hh. now apply simple_textb_ok, Hh.
Qed.
Lemma follow_x n n' h more p p' km km' : 0 < n -> 0 < n' -> h <> [] -> may_follow (S_x n h p km) (S_x n' (h ++ more) p' km').
Proof.
  intros H1 H2 Hh. constructor; try reflexivity.
  - intros r. cbn. unfold rw_x. destruct (r =? 120); [lia|reflexivity].
  - exists more. reflexivity.
  - intros H. destruct (Hh H).
Qed.

(** [x] is typed, its width is set to three columns, a line is added to the history, then
    Ctrl-X is bound to PREVIOUS_HISTORY and used. *)
Definition at_first : scfg := S_x 1 sample_hist "" [].
Definition then_wide : scfg := S_x 3 sample_hist "" [].
Definition then_more : scfg := S_x 3 more_hist "" [].
Definition at_last : scfg := S_x 2 more_hist "" [([24], CPreviousHistory)].
Definition x_events : list (scfg * event) :=
  map (fun e => (at_first, e)) (keys "xxxxxxxx") ++ map (fun e => (then_wide, e)) (keys "yx" ++ [key 1; key 5]) ++
  map (fun e => (then_more, e)) [key 16; key 14; EResize 20; key 2] ++ map (fun e => (at_last, e)) [key 24; key 13].

Lemma x_careful : careful_editor at_first /\ Forall (fun p => careful_editor (fst p)) x_events /\ each_follows at_first x_events.
Proof.
  assert (A1 : careful_editor at_first) by (apply careful_x; [lia|vm_compute; reflexivity|reflexivity|discriminate]).
  assert (A2 : careful_editor then_wide) by (apply careful_x; [lia|vm_compute; reflexivity|reflexivity|discriminate]).
  assert (A3 : careful_editor then_more) by (apply careful_x; [lia|vm_compute; reflexivity|reflexivity|discriminate]).
  assert (A4 : careful_editor at_last).
  { apply careful_x; [lia|vm_compute; reflexivity|reflexivity|]. intros k c f. cbn [aget]. destruct (str_eqb k [24]); [|discriminate]. intros [= <-]. discriminate. }
  split; [exact A1|]. split.
  - unfold x_events. rewrite !Forall_app, !Forall_map. repeat split; apply Forall_forall; intros e _; cbn [fst]; assumption.
  - assert (F1 : may_follow at_first at_first).
    { unfold at_first. rewrite <- (app_nil_r sample_hist) at 2. apply follow_x; [lia|lia|discriminate]. }
    assert (F2 : may_follow at_first then_wide).
    { unfold at_first, then_wide. rewrite <- (app_nil_r sample_hist) at 2. apply follow_x; [lia|lia|discriminate]. }
    assert (F3 : may_follow then_wide then_wide).
    { unfold then_wide. rewrite <- (app_nil_r sample_hist) at 2. apply follow_x; [lia|lia|discriminate]. }
    assert (F4 : may_follow then_wide then_more) by (apply follow_x; [lia|lia|discriminate]).
    assert (F5 : may_follow then_more then_more).
    { unfold then_more. rewrite <- (app_nil_r more_hist) at 2. apply follow_x; [lia|lia|discriminate]. }
    assert (F6 : may_follow then_more at_last).
    { unfold then_more, at_last. rewrite <- (app_nil_r more_hist) at 2. apply follow_x; [lia|lia|discriminate]. }
    assert (F7 : may_follow at_last at_last).
    { unfold at_last. rewrite <- (app_nil_r more_hist) at 2. apply follow_x; [lia|lia|discriminate]. }
    unfold x_events. cbn [map keys s2l app each_follows]. repeat (split; [first [exact F1|exact F2|exact F3|exact F4|exact F5|exact F6|exact F7]|]). exact I.
Qed.
Fixpoint settingsb (ses : list (scfg * event)) : bool :=
  match ses with [] => true | (T, e) :: ses' => simple_eventb T e && settingsb ses' end.
Lemma settingsb_ok ses : settingsb ses = true -> forall T e, In (T, e) ses -> simple_event T e.
Proof.
  induction ses as [|[T0 e0] ses IH]; [easy|]. cbn [settingsb]. intros H T e. apply andb_true_iff in H as [H1 H2]. intros [[= -> ->]|Hi]; [|now apply IH].
  assert (G : Forall (simple_event T) [e]) by (apply simple_eventb_ok; cbn [forallb]; now rewrite H1). now inversion G.
Qed.

(** Colours, widths and the display of characters beyond the basic plane change all the time. *)
Definition show (n : Z) (sur : bool) (col : coloring) (p : string) : scfg :=
  mkScfg (mkCfg (mkEnv false false false sur false (rw_x n) (fun a b => a + 1 + b) sample_vsme) sample_hist false [] []
            (predictByHistory sample_hist) (Some (s2l p)) col ascii_upper) [] GlobalKeyMap.
Lemma same_show n sur col p n' sur' col' p' : same_but_display (show n sur col p) (show n' sur' col' p').
Proof. constructor; reflexivity. Qed.

(** Searching a history that was empty when the search began. *)
Definition S_hist (h : list str) : scfg :=
  mkScfg (mkCfg E_off h false [] [] (predictByHistory h) (Some (s2l "$ ")) VimBatch ascii_upper) [] GlobalKeyMap.
Lemma never_found S a z f : hist (base S) = [a] -> ci_contains S a z = false ->
  forall i, i <= 0 -> search_older S f i (mkSearch z [] (-1)) = None.
Proof.
  intros Hh Hc. induction f as [|f IH]; intros i Hi; [reflexivity|]. cbn [search_older ss_pos ss_str ss_found]. rewrite Hh.
  replace (if i <? 0 then zlen [a] - 1 else i) with 0 by (change (zlen [a] - 1) with 0; destruct (i <? 0) eqn:Hl; lia).
  change (0 =? -1) with false. change (index [a] 0) with (Some a). cbn iota. rewrite Hc. cbn [andb]. apply IH. lia.
Qed.
