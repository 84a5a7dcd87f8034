(** Facts for the examples of PComp.v. *)
From Verif Require Import Base Utf8 Moji Color Prompt Buffer Commands KeyMap Session Spec Sample
  Completion SpecComp CompFacts CompProps CompFiles CompSample.
Ltac lia := unfold rune in *; Lia.lia.

Lemma in_word_plain quotes blank del w : forallb (fun c => match c with [b] => negb (existsb (Z.eqb b) (blank ++ del)) | _ => true end) w = true ->
  in_word quotes blank del w.
Proof.
  intros H p c r -> _ (b & -> & Hb). rewrite forallb_app in H. cbn [forallb] in H. apply andb_true_iff in H as [_ H]. apply andb_true_iff in H as [H _].
  apply negb_true_iff in H. assert (existsb (Z.eqb b) (blank ++ del) = true) as Hx by (apply existsb_exists; exists b; split; [exact Hb|apply Z.eqb_refl]).
  congruence.
Qed.
Lemma fruit_chars : chars_ok (Enclosures fruit) white (Delimiters fruit).
Proof.
  change (Enclosures fruit) with [34; 39]. change (Delimiters fruit) with [38; 124; 62; 60; 59]. unfold white. split; [|split].
  - repeat constructor; cbn; intuition lia.
  - cbn. intuition lia.
  - cbn. intuition lia.
Qed.
Lemma units_raws t : Forall unit_text (map write (raws t)).
Proof.
  unfold raws. apply Forall_map, Forall_map, Forall_forall. intros b _. apply unit_text_rune.
Qed.
Definition C32_buf : buf := match run_comp fruit (keys "echo ""apx" ++ [key 2]) with Some x => buf_of x | None => mkBuf [] None 0 0 0 0 0 [] [] [] None [] end.
Lemma C32_case_facts : exists s s', run_comp fruit (keys "echo ""apx" ++ [key 2]) = Some (Running MNormal s) /\
  exec (cfg_of E_off) (CmdCompletion up0 fold0 (cfg_of E_off) fruit [32]) s = Some (s', CONTINUE) /\
  at_split s (raws "echo " ++ raws """ap") (raws "x") /\ Forall unit_text (map write (raws "echo " ++ raws """ap")) /\
  chars_ok (Enclosures fruit) white (Delimiters fruit) /\
  between_words (Enclosures fruit) white (Delimiters fruit) (map write (raws "echo ")) [s2l "echo"] /\
  in_word (Enclosures fruit) white (Delimiters fruit) (map write (raws """ap")) /\
  at_split s' (raws "echo " ++ raws """apple") (raws "x").
Proof.
  eexists C32_buf, _. split; [vm_compute; reflexivity|]. split; [vm_compute; reflexivity|]. split; [split; vm_compute; reflexivity|].
  split; [apply (units_raws "echo ""ap")|]. split; [exact fruit_chars|]. split.
  - apply (B_word (Enclosures fruit) white (Delimiters fruit) [] [] (map write (raws "echo")) 32).
    + constructor.
    + discriminate.
    + apply in_word_plain. vm_compute. reflexivity.
    + intros q Hq. change (Enclosures fruit) with [34; 39] in Hq. destruct Hq as [<-|[<-|[]]]; vm_compute; reflexivity.
    + now left.
  - split; [apply in_word_plain; vm_compute; reflexivity|]. split; vm_compute; reflexivity.
Qed.
Lemma begins_of fold w n : (zlen w <=? zlen n) && EqualFold fold w (firstn (List.length w) n) = true -> begins fold w n.
Proof. apply begins_dec. Qed.
Lemma begins_not fold w n : (zlen w <=? zlen n) && EqualFold fold w (firstn (List.length w) n) = false -> ~ begins fold w n.
Proof. intros H Hb. apply begins_dec in Hb. congruence. Qed.
Lemma C33_case_facts : selected (begins fold0 (s2l "ap")) [s2l "Apple pie"; s2l "apples"; s2l "banana"] [s2l "Apple pie"; s2l "apples"] /\
  even_case up0 [s2l "Apple pie"; s2l "apples"] /\ ~ In RuneError (runes (s2l "ap")) /\ (forall c, fold0 c = fold0 RuneError -> c = RuneError).
Proof.
  split; [|split; [|split]].
  - apply Sel_yes; [apply begins_of; vm_compute; reflexivity|]. apply Sel_yes; [apply begins_of; vm_compute; reflexivity|].
    apply Sel_no; [apply begins_not; vm_compute; reflexivity|]. apply Sel_nil.
  - apply even_caseb_ok; [|vm_compute; reflexivity]. repeat (apply Forall_cons; [apply valid_text; vm_compute; reflexivity|]). apply Forall_nil.
  - vm_compute. intuition discriminate.
  - intros c. change (fold0 RuneError) with RuneError. unfold fold0, RuneError, in_range. destruct ((97 <=? c) && (c <=? 122)) eqn:Hc; lia.
Qed.
Lemma C34_case_facts : path_of (s2l "src/a") (s2l "src/") (s2l "a") /\ path_of (s2l "MA") [] (s2l "MA") /\
  exists es, tree (place []) = Some es /\ good_names es /\ selected (wanted fold0 (s2l "MA")) es [(s2l "Makefile", false); (s2l "mail", true)] /\
    selected (wanted fold0 (s2l "n")) es [(s2l "new", true)] /\ tree (s2l "new/") = Some [].
Proof.
  assert (W1 : forall b e, negb (str_eqb (fst e) (s2l ".")) && negb (str_eqb (fst e) (s2l "..")) && ((zlen b <=? zlen (fst e)) && EqualFold fold0 b (firstn (List.length b) (fst e))) = true -> wanted fold0 b e).
  { intros b e H. apply andb_true_iff in H as [H H3]. apply andb_true_iff in H as [H1 H2]. apply negb_true_iff in H1, H2.
    split; [intros Hx; apply str_eqb_eq in Hx; congruence|]. split; [intros Hx; apply str_eqb_eq in Hx; congruence|]. now apply begins_of. }
  assert (W2 : forall b e, (zlen b <=? zlen (fst e)) && EqualFold fold0 b (firstn (List.length b) (fst e)) = false -> ~ wanted fold0 b e).
  { intros b e H (_ & _ & Hb). revert Hb. now apply begins_not. }
  split; [|split].
  - split; [reflexivity|]. split; [right; exists (s2l "src"); reflexivity|]. vm_compute. intuition discriminate.
  - split; [reflexivity|]. split; [now left|]. vm_compute. intuition discriminate.
  - exists [(s2l "Makefile", false); (s2l "mail", true); (s2l "new", true); (s2l "src", true)]. split; [vm_compute; reflexivity|]. split; [|split; [|split]].
    + repeat (apply Forall_cons; [split; [discriminate|vm_compute; intuition discriminate]|]). apply Forall_nil.
    + apply Sel_yes; [apply W1; vm_compute; reflexivity|]. apply Sel_yes; [apply W1; vm_compute; reflexivity|].
      apply Sel_no; [apply W2; vm_compute; reflexivity|]. apply Sel_no; [apply W2; vm_compute; reflexivity|]. apply Sel_nil.
    + apply Sel_no; [apply W2; vm_compute; reflexivity|]. apply Sel_no; [apply W2; vm_compute; reflexivity|].
      apply Sel_yes; [apply W1; vm_compute; reflexivity|]. apply Sel_no; [apply W2; vm_compute; reflexivity|]. apply Sel_nil.
    + vm_compute. reflexivity.
Qed.

Definition commandb (S : scfg) (e : event) (x : sess) : bool :=
  match e with EKey k => match LookupCommand (kmap S) (gmap S) k with CUser _ => true | _ => false end | _ => false end &&
  match x with Running MNormal _ => true | Running _ _ => false | Finished _ _ _ => true end.
Fixpoint eventsb (S : scfg) (es : list event) (x : sess) : bool :=
  match es with
  | [] => true
  | e :: es' => (simple_eventb S e || commandb S e x) && match step S e x with Some y => eventsb S es' y | None => true end
  end.
Lemma eventsb_ok S es : forall x, eventsb S es x = true ->
  forall es1 e es2 y, es = es1 ++ e :: es2 -> run S es1 x = Some y -> simple_or_command S e y.
Proof.
  induction es as [|e0 es IH]; intros x H es1 e es2 y He Hr; [destruct es1; discriminate|]. cbn [eventsb] in H. apply andb_true_iff in H as [H1 H2].
  destruct es1 as [|e1 es1]; cbn in He; injection He as -> ->; cbn [run] in Hr.
  - injection Hr as ->. apply orb_true_iff in H1 as [H1|H1].
    + left. assert (G : Forall (simple_event S) [e]) by (apply simple_eventb_ok; cbn; now rewrite H1). now inversion G.
    + right. apply andb_true_iff in H1 as [H1 H3]. destruct e as [k| | |]; try discriminate.
      destruct (LookupCommand (kmap S) (gmap S) k) eqn:Hk; try discriminate. exists k, f. split; [reflexivity|]. split; [exact Hk|].
      destruct y as [[| |ss] s|s t r]; easy.
  - destruct (step S e1 x) as [z|]; [|discriminate]. eapply IH; [exact H2|reflexivity|exact Hr].
Qed.
Lemma comp_events_ok P es : match run_comp P [] with Some x => eventsb (S_comp P) es x | None => true end = true ->
  forall es1 e es2 x, es = es1 ++ e :: es2 -> run_comp P es1 = Some x -> simple_or_command (S_comp P) e x.
Proof.
  unfold run_comp, readline. destruct (start (S_comp P) [] 0 80 None) as [x|]; [|discriminate]. cbn [run]. intros H. exact (eventsb_ok _ _ _ H).
Qed.

Lemma theta_facts :
  text_of (readline (S_theta thetas) [] 0 80 None [EKey (encode [952])]) = Some (encode [952]) /\
  selected (begins fold_theta (encode [952])) [encode [952; 97]; encode [1012; 98]] [encode [952; 97]; encode [1012; 98]] /\
  text_of (readline (S_theta thetas) [] 0 80 None [EKey (encode [952]); key 9]) = Some [].
Proof.
  split; [vm_compute; reflexivity|]. split; [|vm_compute; reflexivity].
  apply Sel_yes; [exists (encode [952]), [97]; repeat split; reflexivity|].
  apply Sel_yes; [exists (encode [1012]), [98]; repeat split; reflexivity|]. apply Sel_nil.
Qed.

(** * completion.File as the completion of a command *)
Lemma file_chars : chars_ok (s2l """'") white (s2l "&|><;").
Proof.
  split; [repeat constructor; cbn; intuition discriminate|]. split.
  - intros q Hq. split; intros Hi; cbn in Hq, Hi; intuition (subst; discriminate).
  - intros q Hq. cbn in Hq. intuition (subst; lia).
Qed.
Lemma file_command : forall up fold read_dir fuel C postfix s s' res p w r fs dir base es hits,
  exec C (CmdCompletion up fold C (File fold read_dir (S fuel)) postfix) s = Some (s', res) ->
  at_split s (p ++ w) r -> Forall unit_text (map write (p ++ w)) ->
  between_words (s2l """'") white (s2l "&|><;") (map write p) fs -> in_word (s2l """'") white (s2l "&|><;") (map write w) ->
  let word := without (s2l """'") (written w) in
  word <> [] -> path_of word dir base -> read_dir (place dir) = Some es -> good_names es ->
  selected (wanted fold base) es hits -> (forall n, hits <> [(n, true)]) ->
  exists names pre show, selected (begins fold word) (map (full_name dir) hits) names /\
    completed (cE C) fold (s2l """'") white (s2l "&|><;") postfix word p r s names pre s' show.
Proof.
  intros up fold read_dir fuel C postfix s s' res p w r fs dir base es hits He Hs Hu Hb Hw word Hne Hp Hr Hg Hsel Hn.
  assert (Hw0 : w <> []) by (intros ->; now apply Hne).
  destruct (cmd_effect up fold C (File fold read_dir (S fuel)) postfix s s' res p w r fs He file_chars Hs Hu Hb Hw Hw0)
    as (_ & names & bases & l & pre & show & HL & Hl & _ & Hc).
  pose proof (file_list fold read_dir fuel fs word dir base es hits Hp Hne Hr Hg Hsel Hn) as HF.
  change (Enclosures (File fold read_dir (S fuel))) with (s2l """'") in HL. fold word in HL.
  unfold File in HL. cbn [List_] in HL. rewrite HF in HL. injection HL as <- <-.
  exists l, pre, show. exact (conj Hl Hc).
Qed.
Definition file_buf : buf := match run_comp (File fold0 tree 2) (keys "ls;cat 'ma") with Some x => buf_of x | None => mkBuf [] None 0 0 0 0 0 [] [] [] None [] end.
Lemma C34_command_facts : exists s s', run_comp (File fold0 tree 2) (keys "ls;cat 'ma") = Some (Running MNormal s) /\
  exec (cfg_of E_off) (CmdCompletion up0 fold0 (cfg_of E_off) (File fold0 tree 2) [32]) s = Some (s', CONTINUE) /\
  at_split s (raws "ls;cat " ++ raws "'ma") [] /\ Forall unit_text (map write (raws "ls;cat " ++ raws "'ma")) /\
  between_words (s2l """'") white (s2l "&|><;") (map write (raws "ls;cat ")) [s2l "ls"; s2l ";"; s2l "cat"] /\
  in_word (s2l """'") white (s2l "&|><;") (map write (raws "'ma")) /\
  without (s2l """'") (written (raws "'ma")) = s2l "ma" /\ path_of (s2l "ma") [] (s2l "ma").
Proof.
  eexists file_buf, _. split; [vm_compute; reflexivity|]. split; [vm_compute; reflexivity|]. split; [split; vm_compute; reflexivity|].
  split; [apply (units_raws "ls;cat 'ma")|]. split.
  - apply (B_word (s2l """'") white (s2l "&|><;") (map write (raws "ls;")) [s2l "ls"; s2l ";"] (map write (raws "cat")) 32).
    + apply (B_delim (s2l """'") white (s2l "&|><;") [] [] (map write (raws "ls")) 59).
      * constructor.
      * apply in_word_plain. vm_compute. reflexivity.
      * intros q Hq. destruct Hq as [<-|[<-|[]]]; vm_compute; reflexivity.
      * cbn. tauto.
      * vm_compute. intuition discriminate.
    + discriminate.
    + apply in_word_plain. vm_compute. reflexivity.
    + intros q Hq. destruct Hq as [<-|[<-|[]]]; vm_compute; reflexivity.
    + now left.
  - split; [apply in_word_plain; vm_compute; reflexivity|].
    split; [vm_compute; reflexivity|].
    split; [reflexivity|]. split; [now left|]. vm_compute. intuition discriminate.
Qed.
