(** C04: exactly when the editor crashes. *)
From Verif Require Import Base Utf8 Moji Color Prompt Buffer Commands KeyMap Session Spec SpecEditor SpecExact Sample.
From Verif Require ExactFacts PEditor.

(** On a wide enough terminal, with simple text and no predictions, ReadLine crashes if and only if UNDO
    is pressed for a change that does not fit: its new code points would lie beyond the end of the text.
    Missing for the full claim: tabs (next theorem), joined characters, predictions; and the crash itself. *)
Theorem C04_exact_partial : forall S default cur w cl es,
  simple_editor S -> pcolor0 (base S) = [] -> simple_text (cE (base S)) default -> simple_clip (cE (base S)) cl ->
  Forall (simple_input S) es -> 0 <= cur -> prompt_width (base S) + 11 < w ->
  (readline S default cur w cl es = None <->
   exists es1 e es2, es = es1 ++ e :: es2 /\ undo_breaks S (paper_of S default cur cl es1) e).
Proof. exact (fun S d cur w cl es HS HP H1 H2 H3 H4 H5 => ExactFacts.simple_iff S HS d cur w cl es HP H1 H2 H3 H4 H5). Qed.
Print Assumptions C04_exact_partial.

(** The same with tabs and characters of any width, as long as what stands on the paper has room on the terminal,
    in each of the widths of the session. *)
Theorem C04_exact_room_partial : forall S default cur w cl es,
  only_builtin S -> sane_widths (cE (base S)) -> pcolor0 (base S) = [] ->
  joins (cE (base S)) 65533 = false -> joins (cE (base S)) 34 = false -> Forall (unjoined (cE (base S))) (hist (base S)) -> 0 <= cur ->
  unjoined (cE (base S)) default -> (forall t, cl = Some t -> unjoined (cE (base S)) t) -> Forall (unjoined_event S) es ->
  (forall es1 es2 n, es = es1 ++ es2 -> n = w \/ In (EResize n) es -> room S n (paper_of S default cur cl es1)) ->
  (readline S default cur w cl es = None <->
   exists es1 e es2, es = es1 ++ e :: es2 /\ undo_breaks S (paper_of S default cur cl es1) e).
Proof. exact ExactFacts.exact_room. Qed.
Print Assumptions C04_exact_room_partial.

(** Such a change comes from SWAPCHAR at the end of the text alone: without that, nothing crashes. *)
Theorem C04_swap_inside_partial : forall S default cur w cl es,
  simple_editor S -> pcolor0 (base S) = [] -> simple_text (cE (base S)) default -> simple_clip (cE (base S)) cl ->
  Forall (simple_input S) es -> 0 <= cur -> prompt_width (base S) + 11 < w ->
  (forall es1 e es2, es = es1 ++ e :: es2 -> ~ swap_at_end S (paper_of S default cur cl es1) e) ->
  exists x, readline S default cur w cl es = Some x /\ in_bounds (buf_of x).
Proof. exact ExactFacts.simple_inside. Qed.
Print Assumptions C04_swap_inside_partial.

(** Sessions. *)
Definition simple_inputb (S : scfg) (e : event) : bool :=
  match e with
  | EKey k => simple_textb (cE (base S)) k &&
      match LookupCommand (kmap S) (gmap S) k with CSelfInsert k' => simple_textb (cE (base S)) k' | _ => true end
  | EKeyErr => true
  | EResize w => prompt_width (base S) + 11 <? w
  | EClip (Some t) => simple_textb (cE (base S)) t
  | EClip None => true
  end.
Lemma simple_inputb_ok S es : forallb (simple_inputb S) es = true -> Forall (simple_input S) es.
Proof.
  intros H. apply Forall_forall. intros e He. rewrite forallb_forall in H. specialize (H e He). destruct e as [k| |w|[t|]]; cbn in *; auto.
  - apply andb_true_iff in H as [H1 H2]. split; [now apply simple_textb_ok|]. intros k' Hk. rewrite Hk in H2. now apply simple_textb_ok.
  - lia.
  - intros t' [= <-]. now apply simple_textb_ok.
  - intros t' [=].
Qed.
(** Something at every prefix of the events. *)
Fixpoint at_prefixes (f : list event -> option event -> bool) (es : list event) : bool :=
  match es with
  | [] => f [] None
  | e :: es' => f [] (Some e) && at_prefixes (fun l o => f (e :: l) o) es'
  end.
Lemma at_prefixes_ok es : forall f, at_prefixes f es = true ->
  (forall es1 e es2, es = es1 ++ e :: es2 -> f es1 (Some e) = true) /\ f es None = true.
Proof.
  induction es as [|e es IH]; intros f H; cbn [at_prefixes] in H.
  - split; [intros [|? ?] ? ? K; discriminate|exact H].
  - apply andb_true_iff in H as [H1 H2]. apply IH in H2 as [H2 H3]. split; [|exact H3].
    intros [|e0 es1] e' es2 K; injection K as -> ->; [exact H1|now apply (H2 es1 e' es2)].
Qed.
Definition swapb (S : scfg) (d : desk) (e : option event) : bool :=
  match d, e with
  | Editing p, Some (EKey k) => match LookupCommand (kmap S) (gmap S) k with CSwapChar => true | _ => false end &&
      match after p with [] => 2 <=? zlen (before p) | _ => false end
  | _, _ => false
  end.
Lemma swapb_ok S d e : swapb S d (Some e) = false -> ~ swap_at_end S d e.
Proof.
  destruct d as [p|p|l f i p|t r]; cbn; try (intros _ H; exact H). destruct e as [k| |n|c]; try (intros _ H; exact H).
  intros H (H1 & H2 & H3). rewrite H1, H2 in H. cbn in H. lia.
Qed.
(** SWAPCHAR inside the text and at the end of a text of one, with UNDO after it. *)
Definition inside_keys : list event :=
  keys "a" ++ [key 20] ++ keys "bcd" ++ [key 2; key 20; EResize 33; key 26; key 2; key 20; key 26; key 26; key 26] ++ keys "xy" ++ [key 1; key 20; key 6; key 20; key 13].
Example C04_swap_inside_case : simple_editor S_off /\ pcolor0 (base S_off) = [] /\ Forall (simple_input S_off) inside_keys /\
  (forall es1 e es2, inside_keys = es1 ++ e :: es2 -> ~ swap_at_end S_off (paper_of S_off [] 0 (Some []) es1) e) /\
  text_of (readline S_off [] 0 40 (Some []) inside_keys) = Some (s2l "baxy").
Proof.
  split; [exact simple_off|]. split; [reflexivity|]. split; [apply simple_inputb_ok; vm_compute; reflexivity|]. split; [|vm_compute; reflexivity].
  intros es1 e es2 H. apply swapb_ok. apply negb_true_iff. revert es1 e es2 H.
  apply (proj1 (at_prefixes_ok inside_keys (fun l o => negb (swapb S_off (paper_of S_off [] 0 (Some []) l) o)) ltac:(vm_compute; reflexivity))).
Qed.
Definition breaksb (S : scfg) (d : desk) (e : event) : bool :=
  match d, e with
  | Editing p, EKey k => match LookupCommand (kmap S) (gmap S) k with CUndo => true | _ => false end &&
      match changes p with c :: _ => (0 <? c_new c) && (zlen (whole p) <? c_place c + c_new c) | [] => false end
  | _, _ => false
  end.
Lemma breaksb_ok S d e : breaksb S d e = true <-> undo_breaks S d e.
Proof.
  destruct d as [p|p|l f i p|t r]; cbn; try (split; [discriminate|intros []]). destruct e as [k| |n|c]; try (split; [discriminate|intros []]).
  rewrite andb_true_iff. assert (G : match LookupCommand (kmap S) (gmap S) k with CUndo => true | _ => false end = true <-> LookupCommand (kmap S) (gmap S) k = CUndo)
    by (destruct (LookupCommand (kmap S) (gmap S) k); split; intros; try discriminate; reflexivity).
  rewrite G. destruct (changes p) as [|c cs]; [split; [intros [_ K]; discriminate|intros [_ []]]|]. rewrite andb_true_iff, !Z.ltb_lt. reflexivity.
Qed.
(** At the end, with typing in between: the first UNDO takes the typing back, the second crashes. *)
Definition end_keys : list event := keys "abc" ++ [key 20] ++ keys "d" ++ [key 26].
Example C04_exact_case : simple_editor S_off /\ pcolor0 (base S_off) = [] /\ Forall (simple_input S_off) (end_keys ++ [key 26; key 13]) /\
  undo_breaks S_off (paper_of S_off [] 0 (Some []) end_keys) (key 26) /\
  readline S_off [] 0 40 (Some []) (end_keys ++ [key 26; key 13]) = None /\
  text_of (readline S_off [] 0 40 (Some []) (end_keys ++ [key 13])) = Some (s2l "acb").
Proof.
  split; [exact simple_off|]. split; [reflexivity|]. split; [apply simple_inputb_ok; vm_compute; reflexivity|]. split; [apply breaksb_ok; vm_compute; reflexivity|].
  split; vm_compute; reflexivity.
Qed.
(** Tabs. *)
Definition room_forb (S : scfg) (w : Z) (p : paper) : bool :=
  let E := cE (base S) in
  forallb (fun m => width E m <? w - prompt_width (base S) - 3) (alone E (whole p)) && (total_width E (alone E (whole p)) <=? 32767).
Definition roomb (S : scfg) (w : Z) (d : desk) : bool :=
  let E := cE (base S) in
  (prompt_width (base S) + 3 <? w) &&
  match d with
  | Editing p | Quoting p => room_forb S w p
  | Searching text found _ p => room_forb S w p && (total_width E (split E (search_row text found)) <=? 32767)
  | Returned _ _ => true
  end.
Lemma roomb_ok S w d : roomb S w d = true -> room S w d.
Proof.
  unfold roomb, room. intros H. apply andb_true_iff in H as [H0 H].
  assert (G : forall p, room_forb S w p = true -> room_for S w p).
  { intros p K. apply andb_true_iff in K as [K1 K2]. split; [|intros _; now apply Z.leb_le].
    apply Forall_forall. intros m Hm. rewrite forallb_forall in K1. specialize (K1 m Hm). lia. }
  split; [lia|]. destruct d as [p|p|l f i p|t r]; auto. apply andb_true_iff in H as [H1 H2]. split; [auto|]. intros _. now apply Z.leb_le.
Qed.
Definition tab_keys : list event :=
  keys "a" ++ [EKey [9]] ++ keys "b" ++ [key 20; EResize 20; key 18] ++ keys "c" ++ [key 13; key 26; EKey [17]; EKey [9]; key 26].
Example C04_exact_room_case : only_builtin S_on /\ sane_widths E_on /\ pcolor0 (base S_on) = [] /\
  unjoined E_on (9 :: s2l "ls") /\ Forall (unjoined_event S_on) tab_keys /\
  (forall es1 es2 n, tab_keys = es1 ++ es2 -> n = 40 \/ In (EResize n) tab_keys -> room S_on n (paper_of S_on (9 :: s2l "ls") 2 (Some []) es1)) /\
  text_of (readline S_on (9 :: s2l "ls") 2 40 (Some []) (tab_keys ++ [key 13])) = Some (9 :: s2l "la" ++ 9 :: s2l "sb") /\
  ~ undo_breaks S_on (paper_of S_on (9 :: s2l "ls") 2 (Some []) tab_keys) (key 26).
Proof.
  split; [exact builtin_on|]. split; [exact sane_on|]. split; [reflexivity|]. split; [now apply PEditor.unjoinedb_ok|].
  split; [apply PEditor.unjoined_eventb_ok; vm_compute; reflexivity|]. split; [|split].
  - intros es1 es2 n H Hn. assert (K : n = 40 \/ n = 20) by (destruct Hn as [Hn|Hn]; [auto|right]; cbn in Hn; repeat destruct Hn as [Hn|Hn]; try discriminate; try (now injection Hn as <-); destruct Hn).
    pose proof (at_prefixes_ok tab_keys (fun l o => roomb S_on 40 (paper_of S_on (9 :: s2l "ls") 2 (Some []) l) && roomb S_on 20 (paper_of S_on (9 :: s2l "ls") 2 (Some []) l)) ltac:(vm_compute; reflexivity)) as [G1 G2].
    assert (G : roomb S_on 40 (paper_of S_on (9 :: s2l "ls") 2 (Some []) es1) && roomb S_on 20 (paper_of S_on (9 :: s2l "ls") 2 (Some []) es1) = true).
    { destruct es2 as [|e es2]; [rewrite app_nil_r in H; rewrite <- H; exact G2|exact (G1 es1 e es2 H)]. }
    apply andb_true_iff in G as [Ga Gb]. apply roomb_ok. now destruct K as [->| ->].
  - vm_compute. reflexivity.
  - rewrite <- breaksb_ok. vm_compute. discriminate.
Qed.
