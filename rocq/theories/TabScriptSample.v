(** Checking the conditions of SpecTabScript.v for the example of PScript.v. *)
From Verif Require Import Base Utf8 Moji Color Prompt Buffer Commands KeyMap Session Spec Sample SpecTabs TabsSample Script SpecScript SpecTabScript ScriptSample.
Ltac lia := unfold rune in *; Lia.lia.

Section Check.
Variable C : cfg.
Notation E := (cE C).
Definition shortb (s : buf) : bool := zlen (cells s) <=? 800.
Definition insideb (shown : bool) (s : buf) : bool := shown || ((0 <=? cursor s) && (cursor s <=? zlen (cells s))).
Definition tab_call_okb (shown : bool) (c : call) (s : buf) : bool :=
  match c with
  | KInsert pos t => shortb s && (0 <=? pos) && (pos <=? zlen (cells s)) && ordinary_textb E t
  | KDelete pos n => shortb s && (0 <=? pos)
  | KReplace pos t => shortb s && (0 <=? pos) && (pos <=? cursor s) && insideb shown s && ordinary_textb E t
  | KPut t => shortb s && insideb shown s && ordinary_textb E t
  | KAfterPrompt | KResetView => insideb shown s
  | KDraw | KAll | KLastLine => shown
  | KGotoHead | KCursor _ | KWrite _ => true
  | KKeep n => false
  | KRun c => shortb s && shown &&
      match c with
      | CSwapChar => negb (cursor s =? zlen (cells s)) || (cursor s <? 2)
      | CQuotedInsert | CISearchBackward | CUser _ => false
      | CSelfInsert k => ordinary_textb E k
      | _ => true
      end
  end.
Fixpoint tab_carefulb (shown : bool) (p : script) (s : buf) : bool :=
  match p with
  | SReturn _ => shown
  | SPanic => false
  | SLook k => tab_carefulb shown (k s) s
  | SDo c p' => tab_call_okb shown c s && match do_call C c s with Some s' => tab_carefulb (shown_after c shown) p' s' | None => true end
  end.
Lemma insideb_ok shown s : insideb shown s = true -> shown = true \/ cursor_inside s.
Proof. unfold insideb, cursor_inside. destruct shown; [now left|]. cbn. right. lia. Qed.
Lemma tab_call_okb_ok shown c s : tab_call_okb shown c s = true -> tab_call_ok C shown c s.
Proof.
  unfold tab_call_okb, tab_call_ok, shortb, short. destruct c as [pos t|pos n|pos t|t| | | | | | |n|n|ts|c]; intros H; rewrite ?andb_true_iff in H;
    try exact I; try discriminate; try exact H; try now apply insideb_ok.
  - destruct H as (((H1 & H2) & H3) & H4). split; [lia|]. split; [lia|now apply ordinary_textb_ok].
  - lia.
  - destruct H as ((((H1 & H2) & H3) & H4) & H5). split; [lia|]. split; [lia|]. split; [now apply insideb_ok|now apply ordinary_textb_ok].
  - destruct H as ((H1 & H2) & H3). split; [lia|]. split; [now apply insideb_ok|now apply ordinary_textb_ok].
  - destruct H as ((H1 & H2) & H3). split; [lia|]. split; [exact H2|].
    split; [intros -> Hc; cbn in H3; lia|]. split; [now intros ->|]. split; [now intros ->|]. split; [now intros f ->|]. intros k' ->. exact (ordinary_textb_ok E _ H3).
Qed.
Lemma tab_carefulb_ok p : forall shown s, tab_carefulb shown p s = true -> tab_careful C shown p s.
Proof.
  induction p as [r| |k IH|c p IH]; intros shown s H; cbn [tab_careful tab_carefulb] in *; [exact H|discriminate|now apply IH|].
  apply andb_true_iff in H as [H1 H2]. split; [now apply tab_call_okb_ok|]. intros s' Hs. rewrite Hs in H2. now apply IH.
Qed.
End Check.

Section Sample.
Variable p : script.
Notation S := (S_script p).
Definition carefulb (e : event) (x : sess) : bool :=
  match e, x with
  | EKey k, Running MNormal s => match LookupCommand (kmap S) (gmap S) k with CUser _ => tab_carefulb (cfg_of E_off) true p (emit s [TCursorOff]) | _ => true end
  | _, _ => true
  end.
Lemma carefulb_ok e x : carefulb e x = true -> careful_there S e x.
Proof.
  intros H k s f -> -> Hf. unfold carefulb in H. rewrite Hf in H. exists p. apply script_lookup in Hf as ->. split; [reflexivity|now apply tab_carefulb_ok].
Qed.
Fixpoint along_careful (x : sess) (es : list event) : bool :=
  match es with
  | [] => true
  | e :: es' => carefulb e x && match step S e x with Some x' => along_careful x' es' | None => true end
  end.
Lemma along_careful_ok es : forall x, along_careful x es = true ->
  forall es1 e es2 y, es = es1 ++ e :: es2 -> run S es1 x = Some y -> careful_there S e y.
Proof.
  induction es as [|e0 es IH]; intros x H es1 e es2 y He Hy; [destruct es1; discriminate|].
  cbn [along_careful] in H. apply andb_true_iff in H as [H1 H2]. destruct es1 as [|e1 es1].
  - injection He as -> ->. cbn in Hy. injection Hy as <-. now apply carefulb_ok.
  - injection He as -> ->. cbn [run] in Hy. destruct (step S e1 x) as [x'|]; [|discriminate]. exact (IH x' H2 es1 e es2 y eq_refl Hy).
Qed.
Lemma tab_script_ok default cur w cl es :
  along_read S default cur w cl es && match start S default cur w cl with Some x => along_careful x es | None => true end = true ->
  forall es1 e es2 x, es = es1 ++ e :: es2 -> readline S default cur w cl es1 = Some x ->
    short_line x /\ no_swap_at_end S e x /\ careful_there S e x.
Proof.
  intros H es1 e es2 x He Hx. apply andb_true_iff in H as [H1 H2]. destruct (along_read_ok _ _ _ _ _ _ H1 es1 e es2 x He Hx) as [K1 K2].
  split; [exact K1|]. split; [exact K2|]. unfold readline in Hx. destruct (start S default cur w cl) as [x0|]; [|discriminate].
  exact (along_careful_ok es x0 H2 es1 e es2 x He Hx).
Qed.
Lemma script_sources : ordinary_sources S.
Proof.
  split; [exact sane_off|]. split; [exact sample_rw8|]. split; [reflexivity|].
  split; [intros r Hr; unfold joins; cbn; reflexivity|]. split; [now left|].
  apply Forall_forall. intros t Ht. apply ordinary_textb_ok. revert t Ht. apply forallb_forall. vm_compute. reflexivity.
Qed.
End Sample.
(** Puts tabs around the line, exchanges two characters, deletes the first one and rings. *)
Definition tabbed : script :=
  SDo (KInsert 0 [9]) (SLook (fun s => SDo (KInsert (zlen (cells s)) (s2l "]" ++ [9])) (SDo (KCursor 3) (SDo KAfterPrompt
    (SDo (KRun CSwapChar) (SDo (KDelete 0 1) (SDo (KCursor 2) (SDo KAfterPrompt (SDo (KPut [9; 9]) (SDo (KWrite [TBell]) (SReturn CONTINUE))))))))))).
