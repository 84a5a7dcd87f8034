(** The editor on paper with a slip, for whole sessions: lemmas for PSlip.v. *)
From Verif Require Import Base Utf8 Moji Color Prompt Buffer Commands KeyMap Session MojiFacts Abs AbsRef AbsSess AbsSafe AbsInv Plain SafetyFacts CmdFacts EditMore Spec SpecEditor SpecExact SpecUndoOnly SpecSlip EditorFacts SlipFacts.
From Verif Require Reach ExactFacts UndoOnly SafeSess.
From Verif Require Import Session Spec SpecEditor.
Ltac lia := unfold rune in *; Lia.lia.

Definition off_s (S : scfg) : scfg := mkScfg (off (base S)) (kmap S) (gmap S).
Definition bares (x : asess) : asess := match x with ARunning m a => ARunning m (bare a) | AFinished a t e => AFinished (bare a) t e end.
Definition os (o : option asess) : option asess := match o with Some x => Some (bares x) | None => None end.

Section WithScfg.
Variable S : scfg.
Notation C := (base S).
Notation E := (cE C).
Notation S0 := (off_s S).
Hypothesis HP : pcolor0 C <> [].
Hypothesis HB : builtin_keys S.
Lemma HB0 : builtin_keys S0. Proof. exact HB. Qed.

Definition takes (e : event) (x : asess) : Prop :=
  match e, x with
  | EKey k, ARunning MNormal a => LookupCommand (kmap S) (gmap S) k = CForwardChar /\ zlen (aline a) <= acur a /\ asuf a <> []
  | _, _ => False
  end.
Lemma finish_bare rc a : afinish rc (bare a) = bares (afinish rc a). Proof. reflexivity. Qed.
Lemma after_bare o : aafter (obr o) = os (aafter o).
Proof. destruct o as [[a r]|]; [|reflexivity]. destruct r; reflexivity. Qed.
Lemma accept_bare ss a : aaccept S0 ss (bare a) = ob (aaccept S ss a).
Proof. unfold aaccept. exact (replace_bare C (aset_cur (aset_line (apush a (mkUndo 0 0 (atext a))) []) 0) 0 (ss_found ss)). Qed.
Lemma find_older f : forall i ss, search_older S0 f i ss = search_older S f i ss.
Proof. induction f as [|f IH]; intros i ss; [reflexivity|]. cbn [search_older]. change (hist (base S0)) with (hist C). destruct (i <? 0); repeat (match goal with |- context [if ?c then _ else _] => destruct c end; try reflexivity); try apply IH. all: destruct (index (hist C) _); try reflexivity; change (ci_contains S0) with (ci_contains S); destruct (_ && _); try reflexivity; apply IH. Qed.
Lemma find_newer f : forall i ss, search_newer S0 f i ss = search_newer S f i ss.
Proof. induction f as [|f IH]; intros i ss; [reflexivity|]. cbn [search_newer]. change (hist (base S0)) with (hist C). repeat (match goal with |- context [if ?c then _ else _] => destruct c end; try reflexivity); try apply IH. all: destruct (index (hist C) _); try reflexivity; change (ci_contains S0) with (ci_contains S); destruct (_ && _); try reflexivity; apply IH. Qed.
Lemma search_bare k ss : search_key S0 k ss = search_key S k ss.
Proof. unfold search_key. rewrite find_older, find_newer. reflexivity. Qed.
Lemma step_bare b e x : ~ takes e x -> astep S0 b e (bares x) = os (astep S b e x).
Proof.
  intros Hn. destruct x as [m a|a t r]; [|reflexivity]. cbn [bares astep]. destruct e as [k| |w|c]; try reflexivity.
  - destruct m as [| |ss].
    + unfold akey_normal. change (LookupCommand (kmap S0) (gmap S0) k) with (LookupCommand (kmap S) (gmap S) k). cbn in Hn. pose proof (HB k) as Hb.
      assert (G : forall c, builtin c -> (c = CForwardChar -> zlen (aline a) <= acur a -> asuf a = []) -> aafter (aexec (base S0) b c (bare a)) = os (aafter (aexec C b c a))).
      { intros c Hc Hf. change (base S0) with (off C). rewrite exec_bare by assumption. apply after_bare. }
      assert (K : LookupCommand (kmap S) (gmap S) k = CForwardChar -> zlen (aline a) <= acur a -> asuf a = []).
      { intros H1 H2. destruct (asuf a) eqn:H3; [reflexivity|]. exfalso. apply Hn. split; [exact H1|]. split; [exact H2|discriminate]. }
      destruct (LookupCommand (kmap S) (gmap S) k); try (apply G; [exact Hb|exact K]); reflexivity.
    + change (base S0) with (off C). rewrite self_bare. destruct (aselfInsert C k a); reflexivity.
    + unfold akey_search. rewrite search_bare. destruct (search_key S k ss) as [[ss'| |]|]; try reflexivity. rewrite accept_bare. destruct (aaccept S ss a); reflexivity.
  - destruct m; reflexivity.
  - destruct m; try reflexivity. change (base S0) with (off C). rewrite off_update. cbn [os bares]. now rewrite bare_update.
Qed.

Hypothesis Hre : joins E 65533 = false.
Hypothesis H34 : joins E 34 = false.
Variable Q : rune -> Prop.
Hypothesis Q34 : Q 34.
Notation unj := (unj S0 Q).
Notation unj_event := (unj_event S0 Q).
Hypothesis Hh : Forall unj (hist C).
Hypothesis Hpr : forall t c, unj (predictor C t c).
Notation R := (R S0 Q).
Notation RS := (RS S0 Q).
Notation ask_ := (ask (predictor C)).
Notation U := (map (u S0)).

Definition XS (x : asess) (slip : str) : Prop := match x with ARunning _ a => asuf a = units E slip /\ unj slip | AFinished _ _ _ => True end.
Definition XR (x : asess) (ds : desk * str) : Prop := RS (bares x) (fst ds) /\ XS x (snd ds).

Lemma units_U0 t : unj t -> units E t = U (runes t). Proof. exact (units_U S0 Q t). Qed.
Lemma ask_now a p : R (bare a) p -> now_ C a = units E (ask_ p) /\ unj (ask_ p).
Proof.
  intros H. pose proof (R_whole _ _ _ _ H) as W. pose proof (r_cur _ _ _ _ H) as K. change (aline (bare a)) with (aline a) in W. change (acur (bare a)) with (acur a) in K.
  unfold now_, ask, atext. rewrite K. destruct (whole p) as [|r l] eqn:Hw.
  - rewrite W. cbn. split; [reflexivity|]. intros r [].
  - rewrite W, text_U. split; [reflexivity|apply Hpr].
Qed.
Lemma units_nil slip : unj slip -> (units E slip = [] <-> slip = []).
Proof.
  intros H. rewrite (units_U0 slip H). split; [|now intros ->]. intros K. apply map_eq_nil in K. destruct slip as [|b t]; [reflexivity|]. rewrite runes_step in K. discriminate.
Qed.
Lemma asks_same b c a p slip : R (bare a) p -> asuf a = units E slip -> unj slip -> aasks b c a = asks b c slip p.
Proof.
  intros H Hs Hu. pose proof (r_cur _ _ _ _ H) as K. change (acur (bare a)) with (acur a) in K.
  assert (B : (0 <? acur a) = match before p with [] => false | _ => true end).
  { rewrite K. destruct (before p); [reflexivity|]. rewrite zlen_cons. pose proof (zlen_nonneg l). lia. }
  destruct c; cbn [aasks asks]; auto.
  - pose proof (r_line _ _ _ _ H) as L. change (aline (bare a)) with (aline a) in L. rewrite L, K, zlen_app, !zlen_map.
    destruct (after p) as [|r l].
    + change (zlen (@nil rune)) with 0. rewrite Z.add_0_r, Z.leb_refl. cbn [andb]. rewrite Hs. pose proof (units_nil slip Hu) as [N1 N2].
      destruct slip as [|z slip]; [now rewrite N2|]. destruct (units E (z :: slip)); [now discriminate (N1 eq_refl)|reflexivity].
    + rewrite zlen_cons. pose proof (zlen_nonneg l). now replace (_ <=? _) with false by lia.
  - pose proof (r_clip _ _ _ _ H) as L. change (aclip (bare a)) with (aclip a) in L. now rewrite L.
  - pose proof (r_clip _ _ _ _ H) as L. change (aclip (bare a)) with (aclip a) in L. now rewrite L.
  - pose proof (r_chain _ _ _ _ H) as L. change (aundo (bare a)) with (aundo a) in L. destruct (aundo a), (changes p); try reflexivity; destruct L.
Qed.
Lemma paste_runes t t' p : runes t = runes t' -> paste t p = paste t' p.
Proof. unfold paste. now intros ->. Qed.

Lemma XR_press b k a p slip x' : unj_event (EKey k) -> R (bare a) p -> asuf a = units E slip -> unj slip -> akey_normal S b k a = Some x' ->
  XR x' (press_slip (hist C) (cycling C) (LookupCommand (kmap S) (gmap S)) (predictor C) b k slip p).
Proof.
  intros He H Hs Hu Hx.
  assert (Hd : (LookupCommand (kmap S) (gmap S) k = CForwardChar /\ after p = [] /\ slip <> []) \/
               ~ (LookupCommand (kmap S) (gmap S) k = CForwardChar /\ after p = [] /\ slip <> [])).
  { destruct (LookupCommand (kmap S) (gmap S) k); try (right; intros [K _]; discriminate K). destruct (after p); [|right; intros (_ & K & _); discriminate K].
    destruct slip; [right; intros (_ & _ & K); now apply K|left; auto]. split; [reflexivity|]. split; [reflexivity|discriminate]. }
  set (d := match LookupCommand (kmap S) (gmap S) k, after p, slip with
            | CForwardChar, [], _ :: _ => Editing (paste slip p)
            | _, _, _ => press (hist C) (cycling C) (LookupCommand (kmap S) (gmap S)) k p end).
  assert (HR : RS (bares x') d).
  { destruct Hd as [(D1 & D2 & D3)|Hd].
    - unfold d. rewrite D1, D2. destruct slip as [|z slip0] eqn:Hsl; [now destruct D3|]. rewrite <- Hsl in *. clear D3.
      unfold akey_normal in Hx. rewrite D1 in Hx. cbn [aexec] in Hx. unfold aForwardChar in Hx.
      pose proof (r_line _ _ _ _ H) as L. change (aline (bare a)) with (aline a) in L. rewrite D2, app_nil_r in L.
      pose proof (r_cur _ _ _ _ H) as K. change (acur (bare a)) with (acur a) in K.
      replace (zlen (aline a) <=? acur a) with true in Hx by (rewrite L, K, zlen_map; lia).
      rewrite Hs in Hx. destruct (units E slip) as [|m l] eqn:Hm; [apply units_nil in Hm; [congruence|exact Hu]|]. rewrite <- Hm in Hx, Hs. clear m l Hm.
      assert (Ht : text (units E slip) = encode (runes slip)) by (rewrite (units_U0 slip Hu); apply text_U).
      rewrite Ht in Hx. destruct (areplace C a (acur a) (encode (runes slip))) as [a'|] eqn:Ha; [|discriminate]. cbn in Hx. injection Hx as <-. cbn [bares].
      pose proof (replace_bare C a (acur a) (encode (runes slip))) as Hb. rewrite Ha in Hb. cbn [ob] in Hb.
      rewrite (paste_runes slip (encode (runes slip)) p) by (symmetry; apply runes_encode, goods_valid with (S := S0) (Q := Q), goods_runes; exact Hu).
      eapply (c_paste S0 eq_refl Q (bare a)); [exact H| |exact Hb]. apply unj_encode, goods_runes. exact Hu.
    - assert (Hn : ~ takes (EKey k) (ARunning MNormal a)).
      { cbn. intros (T1 & T2 & T3). apply Hd. split; [exact T1|]. pose proof (r_line _ _ _ _ H) as L. change (aline (bare a)) with (aline a) in L.
        pose proof (r_cur _ _ _ _ H) as K. change (acur (bare a)) with (acur a) in K. rewrite L, K, zlen_app, !zlen_map in T2. split.
        - destruct (after p) as [|r l]; [reflexivity|]. rewrite zlen_cons in T2. pose proof (zlen_nonneg l). lia.
        - intros ->. now apply T3. }
      pose proof (step_bare b (EKey k) (ARunning MNormal a) Hn) as Hb. cbn [bares astep] in Hb. rewrite Hx in Hb. cbn [os] in Hb.
      replace d with (press (hist C) (cycling C) (LookupCommand (kmap S) (gmap S)) k p).
      2:{ unfold d. destruct (LookupCommand (kmap S) (gmap S) k) eqn:Hc; try reflexivity. destruct (after p) eqn:Hq; [|reflexivity]. destruct slip; [reflexivity|].
          exfalso. apply Hd. split; [reflexivity|]. split; [reflexivity|discriminate]. }
      exact (s_press S0 eq_refl Hre H34 Q Q34 Hh b k (bare a) p (bares x') HB0 He H Hb). }
  split; [exact HR|]. unfold press_slip. fold d. cbn [snd].
  destruct x' as [m a'|a' t r]; [|exact I]. cbn [XS].
  assert (G : (exists c, LookupCommand (kmap S) (gmap S) k = c /\ m = MNormal /\ aexec C b c a = Some (a', CONTINUE)) \/ m <> MNormal /\ a' = a).
  { unfold akey_normal in Hx. destruct (LookupCommand (kmap S) (gmap S) k) eqn:Hc; try (right; injection Hx as <- <-; split; [discriminate|reflexivity]);
      (left; eexists; split; [reflexivity|]; match type of Hx with aafter ?o = _ => destruct o as [[a1 r1]|]; [|discriminate] end;
       cbn in Hx; destruct r1; try discriminate; injection Hx as <- <-; split; reflexivity). }
  destruct G as [(c & Hc & -> & Ha)|[Hm ->]].
  - cbn [bares EditorFacts.RS] in HR. destruct d as [p'|p'|l f i p'|t r]; try (now destruct HR). apply exec_suf in Ha; [|exact HP].
    rewrite Hc, <- (asks_same b c a p slip H Hs Hu). rewrite Ha. destruct (aasks b c a); [now apply ask_now|split; [exact Hs|exact Hu]].
  - destruct m as [| |ss]; [now destruct Hm| |]; cbn [bares EditorFacts.RS] in HR; destruct d; try (now destruct HR); split; assumption.
Qed.

Definition happens_ := happens_slip (hist C) (cycling C) (upper C) (LookupCommand (kmap S) (gmap S)) (predictor C).
Lemma XR_step b e x ds x' : unj_event e -> XR x ds -> astep S b e x = Some x' -> XR x' (happens_ (b, e) ds).
Proof.
  destruct ds as [d slip]. intros He [H Hs] Hx. cbn [fst snd] in *.
  assert (G : ~ takes e x -> RS (bares x') (happens (hist C) (cycling C) (upper C) (LookupCommand (kmap S) (gmap S)) e d)).
  { intros Hn. pose proof (step_bare b e x Hn) as Hb. rewrite Hx in Hb. exact (s_step S0 eq_refl Hre H34 Q Q34 Hh b e (bares x) d (bares x') HB0 He H Hb). }
  destruct x as [m a|a t r].
  2:{ cbn [astep] in Hx. injection Hx as <-. cbn [bares EditorFacts.RS] in H. destruct d as [p|p|l f i p|t' r']; try contradiction. destruct e; (split; [exact H|exact I]). }
  cbn [XS] in Hs. destruct Hs as [Hs Hu].
  destruct m as [| |ss]; cbn [bares EditorFacts.RS] in H; destruct d as [p|p|l f i p|t' r']; try contradiction.
  - (* a normal wait *)
    destruct e as [k| |w|c].
    + cbn [astep] in Hx. unfold happens_, happens_slip. now apply XR_press with (a := a).
    + cbn [astep] in Hx. injection Hx as <-. split; [now apply G|exact I].
    + cbn [astep] in Hx. injection Hx as <-. pose proof (G (fun K => K)) as G1. split; [exact G1|]. cbn [XS snd happens_slip happens_ happens].
      rewrite suf_update by exact HP. cbn [bares EditorFacts.RS happens] in G1. rewrite bare_update in G1. now apply ask_now.
    + cbn [astep] in Hx. injection Hx as <-. split; [now apply G|]. split; [exact Hs|exact Hu].
  - (* after QUOTED_INSERT *)
    destruct e as [k| |w|c]; cbn [astep] in Hx.
    + destruct (aselfInsert C k a) as [a'|] eqn:Ha; [|discriminate]. injection Hx as <-. pose proof (G (fun K => K)) as G1. split; [exact G1|].
      cbn [XS snd happens_slip happens_ happens]. apply self_suf in Ha; [|exact HP]. rewrite Ha. apply ask_now. exact G1.
    + injection Hx as <-. split; [now apply G|]. split; [exact Hs|exact Hu].
    + injection Hx as <-. split; [now apply G|]. split; [exact Hs|exact Hu].
    + injection Hx as <-. split; [now apply G|]. split; [exact Hs|exact Hu].
  - (* the search *)
    destruct e as [k| |w|c]; cbn [astep] in Hx.
    + pose proof (G (fun K => K)) as G1. split; [exact G1|]. cbn [XS snd happens_slip happens_]. unfold akey_search in Hx.
      assert (Hk : forall act, search_key S k ss = Some act -> (act = SAccept <-> str_eqb k [13] = true)).
      { intros act Hact. unfold search_key in Hact. destruct (str_eqb k [8] || str_eqb k [127]) eqn:K1.
        - injection Hact as <-. split; [discriminate|]. intros K. apply str_eqb_eq in K. subst k. discriminate K1.
        - destruct (str_eqb k [13]); [injection Hact as <-; now split|]. split; [|discriminate]. intros ->.
          destruct (str_eqb k [3] || str_eqb k [7] || str_eqb k [27]); [discriminate|].
          destruct (str_eqb k [18]); [destruct (search_older S _ _ _); discriminate|]. destruct (str_eqb k [19]); [destruct (search_newer S _ _ _); discriminate|].
          destruct (decode_rune k) as [r n]. destruct (is_control r); discriminate. }
      destruct (search_key S k ss) as [act|]; [|discriminate]. specialize (Hk act eq_refl). destruct act as [ss'| |].
      * injection Hx as <-. destruct (str_eqb k [13]); [discriminate (proj2 Hk eq_refl)|]. split; [exact Hs|exact Hu].
      * rewrite (proj1 Hk eq_refl). destruct (aaccept S ss a) as [a'|] eqn:Ha; [|discriminate]. injection Hx as <-. cbn [bares EditorFacts.RS] in G1.
        destruct (happens _ _ _ _ _ _) as [p'|p'|l' f' i' p'|t' r']; try (now destruct G1). unfold aaccept in Ha. apply replace_suf in Ha; [|exact HP]. cbn [XS]. rewrite Ha. now apply ask_now.
      * injection Hx as <-. destruct (str_eqb k [13]); [discriminate (proj2 Hk eq_refl)|]. split; [exact Hs|exact Hu].
    + injection Hx as <-. split; [now apply G|]. split; [exact Hs|exact Hu].
    + injection Hx as <-. split; [now apply G|]. split; [exact Hs|exact Hu].
    + injection Hx as <-. split; [now apply G|]. split; [exact Hs|exact Hu].
Qed.

Lemma XR_start default cur cl : 0 <= cur -> unj default -> (forall t, cl = Some t -> unj t) ->
  let p := fresh (hist C) default cur cl in XR (ARunning MNormal (astart S default cur cl)) (Editing p, ask_ p).
Proof.
  intros Hc Hd Hcl p. pose proof (s_start S0 eq_refl Q default cur cl Hc Hd Hcl) as H. unfold astart in *. change (base S0) with (off C) in H. rewrite off_update in H.
  split; cbn [fst snd bares EditorFacts.RS XS]; rewrite ?bare_update; [exact H|]. rewrite suf_update by exact HP. apply ask_now. exact H.
Qed.

(** Which answer a step of the session gives. *)
Lemma columns_range l : range_width C l = columns E l.
Proof. induction l as [|c l IH]; [reflexivity|]. cbn. now rewrite IH. Qed.
Lemma exec_told b b' c a : c <> CForwardWord -> aexec C b c a = aexec C b' c a.
Proof. intros H. destruct c; try reflexivity. now destruct H. Qed.
Lemma step_told b b' e x : (forall k m a, e = EKey k -> x = ARunning m a -> m = MNormal -> LookupCommand (kmap S) (gmap S) k <> CForwardWord) -> astep S b e x = astep S b' e x.
Proof.
  intros H. destruct x as [m a|a t r]; [|reflexivity]. destruct e as [k| |w|c]; try reflexivity. destruct m as [| |ss]; try reflexivity.
  cbn [astep]. unfold akey_normal. specialize (H k MNormal a eq_refl eq_refl eq_refl).
  pose proof (exec_told b b' (LookupCommand (kmap S) (gmap S) k) a H) as G. destruct (LookupCommand (kmap S) (gmap S) k); try reflexivity; now rewrite G.
Qed.
Lemma word_told s s' : cmdForwardWord C s = Some s' ->
  aForwardWord C (ViewWidth s <=? columns E (firstn (Z.to_nat (cursor s' - view s)) (skipn (Z.to_nat (view s)) (cells s)))) (abs s) = Some (abs s').
Proof.
  unfold cmdForwardWord, aForwardWord. intros H. opt H. cbn [aline acur abs].
  rewrite zlen_emojis, slice_emojis, Ev. cbn [option_map]. rewrite count_nospace, skipn_emojis, count_space. fold (abs s).
  set (n := cursor s + _ + _) in *. unfold GetWidthBetween in Ev0. opt Ev0. injection Ev0 as Hz. unfold slice in Ev1. destruct (_ && _) in Ev1; [|discriminate]. injection Ev1 as Hl.
  assert (K : cursor s' = n -> (ViewWidth s <=? columns E (firstn (Z.to_nat (cursor s' - view s)) (skipn (Z.to_nat (view s)) (cells s)))) = negb (z <? ViewWidth s)).
  { intros ->. rewrite Hl, <- columns_range, Hz. rewrite Z.leb_antisym. reflexivity. }
  destruct (z <? ViewWidth s).
  - opt H. injection H as <-. rewrite K by reflexivity. cbn [negb]. apply puts_paints, paints_abs in Ev0. rewrite abs_set_cursor, Ev0. reflexivity.
  - apply repaint_ref in H. assert (Hc : cursor s' = n).
    { change (cursor s') with (acur (abs s')). rewrite H. unfold aupdate. destruct (pcolor0 C); [reflexivity|]. cbn [aline abs]. destruct (emojis _); reflexivity. }
    rewrite (K Hc). cbn [negb]. now rewrite H.
Qed.
Lemma step_answer e x x' : step S e x = Some x' -> astep S (overflows E x x') e (abss x) = Some (abss x').
Proof.
  intros H. destruct (step_ref S e x x' HB H) as [b Hb].
  assert (D : (exists k s, e = EKey k /\ x = Running MNormal s /\ LookupCommand (kmap S) (gmap S) k = CForwardWord) \/
              ~ (exists k s, e = EKey k /\ x = Running MNormal s /\ LookupCommand (kmap S) (gmap S) k = CForwardWord)).
  { destruct e as [k| |w|c]; try (right; intros (k' & s' & K & _); discriminate K). destruct x as [[| |ss] s|s t r]; try (right; intros (k' & s' & _ & K & _); discriminate K).
    destruct (LookupCommand (kmap S) (gmap S) k) eqn:Hc; try (right; intros (k' & s' & K & _ & K'); injection K as <-; congruence). left. eauto. }
  destruct D as [(k & s & -> & -> & Hc)|D].
  - cbn [step] in H. unfold key_normal in H. rewrite Hc in H. cbn [exec] in H. unfold continue_ in H.
    destruct (cmdForwardWord C (emit s [TCursorOff])) as [s1|] eqn:Hw; [|discriminate]. cbn in H. injection H as <-.
    apply word_told in Hw. cbn [abss astep]. unfold akey_normal. rewrite Hc. cbn [aexec overflows].
    change (abs (emit s [TCursorOff])) with (abs s) in Hw. 
    match goal with |- context [aForwardWord C ?b0 (abs s)] => match type of Hw with aForwardWord _ ?b1 _ = _ => change b0 with b1 end end.
    now rewrite Hw.
  - rewrite (step_told _ b); [exact Hb|]. intros k m a -> Hx -> K. apply D. destruct x as [m' s|s t r]; [|discriminate Hx]. cbn in Hx. injection Hx as -> _. exists k, s. auto.
Qed.

(** Sessions. *)
Lemma XR_run es : Forall unj_event es -> forall x ds x', XR (abss x) ds -> run S es x = Some x' ->
  List.length (overflowed S es x) = List.length es /\ XR (abss x') (fold_left (fun ds be => happens_ be ds) (combine (overflowed S es x) es) ds).
Proof.
  induction 1 as [|e es He _ IH]; intros x ds x' H Hr; cbn [run] in Hr.
  - injection Hr as <-. split; [reflexivity|exact H].
  - cbn [overflowed]. destruct (step S e x) as [x1|] eqn:Hs; [|discriminate]. apply step_answer in Hs.
    destruct (IH x1 _ x' (XR_step _ e _ _ _ He H Hs) Hr) as (Hl & Hx). split; [cbn; now rewrite Hl|exact Hx].
Qed.
Lemma XR_same x ds : XR (abss x) ds -> same_desk E x (fst ds) /\ same_slip E x (snd ds).
Proof.
  destruct ds as [d slip]. intros [H Hs]. cbn [fst snd] in *. split.
  - set (x0 := match x with Running m s => Running m (set_suffix s None) | Finished s t e => Finished (set_suffix s None) t e end).
    assert (Hx : abss x0 = bares (abss x)) by now destruct x. rewrite <- Hx in H. apply (RS_same S0 Q) in H.
    destruct x as [m s|s t e]; exact H.
  - destruct x as [m s|s t e]; [|exact I]. cbn in Hs. exact (eq_trans (proj1 Hs) (eq_sym (StringToMoji_units E slip))).
Qed.
(** Without FORWARD_WORD the answers do not matter. *)
Lemma happens_any b b' e ds : (forall k, e = EKey k -> LookupCommand (kmap S) (gmap S) k <> CForwardWord) -> happens_ (b, e) ds = happens_ (b', e) ds.
Proof.
  intros H. destruct ds as [d slip]. destruct e as [k| |w|c]; try reflexivity. specialize (H k eq_refl). destruct d as [p|p|l f i p|t r]; try reflexivity.
  unfold happens_, happens_slip, press_slip. cbn zeta. replace (asks b (LookupCommand (kmap S) (gmap S) k) slip p) with (asks b' (LookupCommand (kmap S) (gmap S) k) slip p); [reflexivity|].
  destruct (LookupCommand (kmap S) (gmap S) k); try reflexivity. now destruct H.
Qed.
Lemma fold_any es : (forall k, In (EKey k) es -> LookupCommand (kmap S) (gmap S) k <> CForwardWord) ->
  forall again again' ds, List.length again = List.length es -> List.length again' = List.length es ->
  fold_left (fun ds be => happens_ be ds) (combine again es) ds = fold_left (fun ds be => happens_ be ds) (combine again' es) ds.
Proof.
  induction es as [|e es IH]; intros H again again' ds L L'; [destruct again, again'; reflexivity|].
  destruct again as [|b again], again' as [|b' again']; try discriminate. cbn [combine fold_left]. rewrite (happens_any b b' e ds) by (intros k ->; apply H; now left).
  apply IH; [intros k Hk; apply H; now right|now injection L|now injection L'].
Qed.

Section Readline.
Variables (default : str) (cur w : Z) (cl : option str).
Hypothesis Hcur : 0 <= cur.
Hypothesis Hd : unj default.
Hypothesis Hcl : forall t, cl = Some t -> unj t.
Lemma XR_readline es x : Forall unj_event es -> readline S default cur w cl es = Some x ->
  List.length (scrolled S default cur w cl es) = List.length es /\ XR (abss x) (slip_of S default cur cl (scrolled S default cur w cl es) es).
Proof.
  intros Hes Hx. unfold readline in Hx. unfold scrolled. destruct (start S default cur w cl) as [x0|] eqn:Hs; [|discriminate]. apply start_ref in Hs.
  apply (XR_run es Hes x0 _ x); [|exact Hx]. rewrite Hs. now apply XR_start.
Qed.
Lemma XR_readline_any es x again : Forall unj_event es -> (forall k, In (EKey k) es -> LookupCommand (kmap S) (gmap S) k <> CForwardWord) ->
  List.length again = List.length es -> readline S default cur w cl es = Some x -> XR (abss x) (slip_of S default cur cl again es).
Proof.
  intros Hes Hn Hl Hx. destruct (XR_readline es x Hes Hx) as (Hl' & H). unfold slip_of, on_paper_slip in *. rewrite (fold_any es Hn again (scrolled S default cur w cl es)) by assumption. exact H.
Qed.
End Readline.
End WithScfg.
