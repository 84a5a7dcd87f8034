(** Facts about lines that come from a terminal. *)
From Verif Require Import Base Utf8 Moji Color Prompt Buffer Commands KeyMap Session MojiFacts
  Abs AbsRef AbsSess AbsSafe AbsInv Safe SafeSess Plain Spec TextFacts Reach SafetyFacts CmdFacts WordFacts EditFacts EditProps LineInv EditMore SessFacts HistFacts SearchFacts PredictFacts SessProps
  KeyInput KeyFacts Repl SpecRepl Terminal SpecTty.

Section Generic.
Variable T : Type.
Variable next : T -> option (read * T).

(** GetKey returns these keys one after the other. *)
Inductive delivers : T -> list str -> T -> Prop :=
| D_nil t : delivers t [] t
| D_cons t k t1 ks t2 : next t = Some (RKey k, t1) -> delivers t1 ks t2 -> delivers t (k :: ks) t2.
Lemma delivers_app t ks1 : forall ks2 t2, delivers t (ks1 ++ ks2) t2 -> exists t1, delivers t ks1 t1 /\ delivers t1 ks2 t2.
Proof.
  revert t. induction ks1 as [|k ks1 IH]; intros t ks2 t2 H; cbn [app] in H.
  - exists t. split; [constructor|exact H].
  - inversion H as [|? ? t1 ? ? Hn Hd]; subst. apply IH in Hd as (t3 & H1 & H2). exists t3. split; [|exact H2]. econstructor; eauto.
Qed.

(** A session that goes on while the keys come in. *)
Lemma listen_running S ks : forall n x t t' x', (forall ks1 ks2 y, ks = ks1 ++ ks2 -> ks2 <> [] -> run S (map EKey ks1) x = Some y -> exists m s, y = Running m s) ->
  delivers t ks t' -> run S (map EKey ks) x = Some x' ->
  listen next S (List.length ks + n) x t = listen next S n x' t'.
Proof.
  induction ks as [|k ks IH]; intros n x t t' x' Hr Hd H; cbn [map run] in H.
  - injection H as <-. inversion Hd; subst. reflexivity.
  - inversion Hd as [|? ? t1 ? ? Hn Hd']; subst. opt H. destruct (Hr [] (k :: ks) x eq_refl ltac:(discriminate) eq_refl) as (m & s0 & ->).
    cbn [List.length Nat.add listen]. rewrite Hn, Ev. apply IH; [|exact Hd'|exact H].
    intros ks1 ks2 y -> H2 Hy. apply (Hr (k :: ks1) ks2 y eq_refl H2). cbn [map run]. now rewrite Ev.
Qed.
Lemma listen_finished S n s t e tt : listen next S n (Finished s t e) tt = Some (Finished s t e, tt).
Proof. destruct n; reflexivity. Qed.
End Generic.

(** Keys of single typed characters. *)
Section Chars.
Variable S : container -> scfg.
Variable E : env.
Hypothesis HS : simple_over S E.

Lemma simple_char r : typed_char S E r -> simple_text E (encode_rune r).
Proof.
  intros (Hv & _ & _ & H9 & Hj & _) x Hx. rewrite <- (app_nil_r (encode_rune r)), runes_encode_rune in Hx by exact Hv.
  destruct Hx as [<-|[]]. auto.
Qed.
Lemma encode_first r : valid_rune r = true -> exists b t, encode_rune r = b :: t /\ (b = r \/ 192 <= b).
Proof.
  intros Hv. unfold encode_rune. rewrite Hv. apply valid_rune_spec in Hv.
  destruct (r <? 128) eqn:?; [eauto|]. destruct (r <? 2048) eqn:?; [|destruct (r <? 65536) eqn:?]; do 2 eexists; (split; [reflexivity|right]).
  - pose proof (Z.div_pos r 64). lia.
  - pose proof (Z.div_pos r 4096). lia.
  - pose proof (Z.div_pos r 262144). lia.
Qed.
Lemma altgr_char r : valid_rune r = true -> r <> 27 -> altgr (encode_rune r) = encode_rune r.
Proof.
  intros Hv H. destruct (encode_first r Hv) as (b & t & -> & Hb). unfold altgr. destruct t as [|c [|d t]]; try reflexivity.
  replace (b =? 27) with false by lia. reflexivity.
Qed.
Lemma first_rune_char r : valid_rune r = true -> first_rune (encode_rune r) = r.
Proof. intros Hv. unfold first_rune. pose proof (runes_encode_rune r [] Hv) as G. rewrite app_nil_r in G. rewrite G. reflexivity. Qed.
Lemma typable_char h r : typed_char S E r -> typable (S h) (encode_rune r).
Proof.
  intros (Hv & H0 & H27 & H9 & Hj & Hu). split; [apply Hu|]. split; [now apply altgr_char|].
  rewrite (so_env _ _ HS). split.
  - rewrite first_rune_char by exact Hv. exact Hj.
  - split; [apply valid_utf8_encode_rune|]. destruct (zwj_ok E) eqn:Hz; [right|now left].
    rewrite <- (app_nil_r (encode_rune r)), runes_encode_rune by exact Hv. unfold joins in Hj. rewrite Hz in Hj.
    apply orb_false_iff in Hj as [Hj _]. apply orb_false_iff in Hj as [Hj _]. cbn [andb] in Hj. apply orb_false_iff in Hj as [Ha Hb]. split.
    + intros [Hi|[]]. lia.
    + intros rs Hrs. destruct rs as [|a rs]; [cbn in Hrs; injection Hrs as ->; lia|].
      apply (f_equal (@List.length _)) in Hrs. cbn in Hrs. rewrite app_length in Hrs. cbn in Hrs. lia.
Qed.
Lemma enter_simple : simple_text E [13].
Proof. intros r [<-|[]]. split; [lia|]. apply (so_cr _ _ HS). Qed.
Lemma simple_line l : Forall (typed_char S E) l -> simple_text E (encode l).
Proof.
  intros Hl x Hx. rewrite runes_encode in Hx by (eapply Forall_impl; [|exact Hl]; now intros a [Ha _]).
  rewrite Forall_forall in Hl. destruct (Hl x Hx) as (_ & _ & _ & H9 & Hj & _). auto.
Qed.

(** One call of ReadLine that is given the keys of one line. *)
Lemma one_line (T : Type) (next : T -> option (read * T)) p h cur l t t' n : Forall (typed_char S E) l -> fit_place S E p -> Forall (simple_text E) h -> 0 <= cur ->
  delivers T next t (map encode_rune l ++ [[13]]) t' -> (List.length l < n)%nat ->
  exists x0 s, start (S h) (p_default p) cur (p_width p) (p_clip p) = Some x0 /\
    listen next (S h) n x0 t = Some (Finished s (encode l) RNil, t') /\ 0 <= cursor s.
Proof.
  intros Hl (Hd & Hw & Hc) Hh H0 Hdel Hn.
  assert (Hty : Forall (typable (S h)) (map encode_rune l)) by (apply Forall_map; eapply Forall_impl; [|exact Hl]; intros a; apply typable_char).
  assert (Hst : Forall (simple_text (cE (base (S h)))) (map encode_rune l)).
  { rewrite (so_env _ _ HS). apply Forall_map. eapply Forall_impl; [|exact Hl]. intros a. apply simple_char. }
  destruct (simple_safe (S h) [] cur (p_width p) (p_clip p) (map EKey (map encode_rune l ++ [[13]]))) as (x & Hx & Hib).
  { now apply (so_simple _ _ HS). } { intros r []. } { now rewrite (so_env _ _ HS). }
  { rewrite map_app. apply Forall_app. split.
    - apply Forall_map. rewrite Forall_forall in *. intros k Hin. specialize (Hty k Hin) as (Hu & _). specialize (Hst k Hin). cbn.
      unfold unbound, bound in Hu. split; [exact Hst|]. rewrite Hu. split; [discriminate|]. intros k' [= <-]. exact Hst.
    - constructor; [|constructor]. cbn. pose proof (so_enter _ _ HS h) as Hb. unfold bound in Hb. rewrite Hb.
      split; [rewrite (so_env _ _ HS); exact enter_simple|]. split; discriminate. }
  { exact H0. } { apply Hw. }
  pose proof Hx as Hx'. rewrite map_app in Hx'. cbn [map] in Hx'.
  destruct (typed_empty (S h) cur (p_width p) (p_clip p) _ _ _ H0 Hty (so_enter _ _ HS h) Hx') as (s & ->).
  rewrite Hd. unfold readline in Hx. destruct (start (S h) [] cur (p_width p) (p_clip p)) as [x0|] eqn:Hs0; [|discriminate].
  exists x0, s. split; [reflexivity|]. split.
  - replace n with (List.length (map encode_rune l ++ [[13%Z]]) + (n - List.length l - 1))%nat
      by (rewrite app_length, map_length; cbn; lia).
    rewrite (listen_running T next (S h) _ _ x0 t t' (Finished s (List.concat (map encode_rune l)) RNil)); [|intros ks1 ks2 y Hk Hne Hy|exact Hdel|exact Hx].
    + rewrite listen_finished. f_equal. f_equal. f_equal. unfold encode. now rewrite flat_map_concat_map.
    + assert (Hk1 : Forall (typable (S h)) ks1).
      { assert (G : exists ks3, map encode_rune l = ks1 ++ ks3).
        { destruct (exists_last Hne) as (ks3 & e & ->). rewrite app_assoc in Hk. apply app_inj_tail in Hk as [Hk _]. now exists ks3. }
        destruct G as [ks3 G]. rewrite G in Hty. now apply Forall_app in Hty as [Hty _]. }
      assert (Hr : readline (S h) [] cur (p_width p) (p_clip p) (map EKey ks1) = Some y) by (unfold readline; rewrite Hs0; exact Hy).
      apply typed_line in Hr as (s1 & n1 & -> & _); [eauto|exact H0|exact Hk1].
  - unfold in_bounds in Hib. cbn [buf_of] in Hib. lia.
Qed.
Lemma lines_served (T : Type) (next : T -> option (read * T)) n ls : forall ps h cur t t', Forall (Forall (typed_char S E)) ls ->
  Forall (fit_place S E) ps -> List.length ps = List.length ls -> Forall (simple_text E) h -> 0 <= cur ->
  delivers T next t (flat_map (fun l => map encode_rune l ++ [[13]]) ls) t' -> Forall (fun l => (List.length l < n)%nat) ls ->
  exists cur', serve next S n ps h cur t = Some (h ++ map encode ls, cur', t') /\ 0 <= cur'.
Proof.
  induction ls as [|l ls IH]; intros ps h cur t t' Hl Hp Hlen Hh H0 Hd Hn; destruct ps as [|p ps]; try discriminate Hlen.
  - inversion Hd; subst. exists cur. cbn. now rewrite app_nil_r.
  - cbn [flat_map] in Hd. apply delivers_app in Hd as (t1 & Hd1 & Hd2).
    apply Forall_cons_iff in Hl as [Hl1 Hl]. apply Forall_cons_iff in Hp as [Hp1 Hp]. apply Forall_cons_iff in Hn as [Hn1 Hn].
    destruct (one_line T next p h cur l t t1 n Hl1 Hp1 Hh H0 Hd1 Hn1) as (x0 & s & Hs & Hli & Hc).
    cbn [serve]. rewrite Hs, Hli. destruct (IH ps (container_add h (encode l)) (cursor s) t1 t' Hl Hp) as (cur' & G & Gc); auto.
    + apply Forall_app. split; [exact Hh|]. constructor; [|constructor]. now apply simple_line.
    + exists cur'. rewrite G. unfold container_add. now rewrite <- app_assoc.
Qed.
End Chars.

(** tty8: what is read ahead and what is still to be read. *)
Definition plain_char (r : rune) : Prop := valid_rune r = true /\ r <> 0 /\ r <> 27.
Lemma raw_one r rs bs : plain_char r -> GetRawKey true (mkXtty (Some r :: rs) bs) = Got (encode_rune r) (mkXtty rs bs).
Proof.
  intros (Hv & H0 & H27). unfold GetRawKey. cbn [input buffered raw_loop]. replace (r =? 0) with false by lia.
  assert (is_surrogate r = false) as ->. { apply valid_rune_spec in Hv. destruct (is_surrogate r) eqn:Hs; [|reflexivity]. apply surrogate_iff in Hs. lia. }
  cbn [Z.ltb Z.compare negb andb]. replace (r =? 27) with false by lia. reflexivity.
Qed.
Lemma keys_ahead b : forall f bs ks0, Forall plain_char b -> b <> [] -> (List.length b < f)%nat ->
  exists b1 b2 bs', b = b1 ++ b2 /\ b1 <> [] /\
    keys_loop true f (mkXtty (map Some b) bs) ks0 = Some (Got (ks0 ++ map encode_rune b1) (mkXtty (map Some b2) bs')).
Proof.
  induction b as [|r b IH]; intros f bs ks0 Hb Hne Hf; [contradiction|]. destruct f as [|f]; [cbn in Hf; lia|].
  apply Forall_cons_iff in Hb as [Hr Hb]. cbn [map keys_loop]. rewrite raw_one by exact Hr.
  unfold Buffered. cbn [buffered input]. destruct bs as [|c bs].
  - exists [r], b, []. split; [reflexivity|]. split; [discriminate|]. reflexivity.
  - destruct (c && match map Some b with [] => negb true | _ :: _ => true end) eqn:Hc.
    + destruct b as [|r2 b]; [cbn in Hc; now rewrite andb_false_r in Hc|].
      destruct (IH f bs (ks0 ++ [encode_rune r]) Hb ltac:(discriminate)) as (b1 & b2 & bs' & Hbb & Hb1 & G); [cbn in Hf |- *; lia|].
      exists (r :: b1), b2, bs'. split; [cbn; congruence|]. split; [discriminate|]. rewrite G. cbn [map]. now rewrite <- app_assoc.
    + exists [r], b, bs. split; [reflexivity|]. split; [discriminate|]. reflexivity.
Qed.
Definition holds8 (m : tty8) (cs : list rune) : Prop :=
  exists a b, buf8 m = map encode_rune a /\ input (xt m) = map Some b /\ cs = a ++ b.
Lemma next8_char m c cs : holds8 m (c :: cs) -> Forall plain_char (c :: cs) ->
  exists m', next8 m = Some (RKey (encode_rune c), m') /\ holds8 m' cs.
Proof.
  intros (a & b & Ha & Hb & Hc) Hp. destruct m as [[inp bs] bf]. cbn [xt input buf8] in *. subst inp bf. unfold next8, tty8_GetKey. cbn [buf8 xt].
  destruct a as [|x a].
  - cbn [map app] in *. subst b. unfold GetKeys. cbn [input].
    destruct (keys_ahead (c :: cs) (Datatypes.S (List.length (map Some (c :: cs)))) bs [] Hp ltac:(discriminate)) as (b1 & b2 & bs' & Hbb & Hb1 & G);
      [rewrite map_length; lia|]. rewrite G. destruct b1 as [|x b1]; [contradiction|]. injection Hbb as <- ->.
    cbn [map app]. eexists. split; [reflexivity|]. exists b1, b2. repeat split.
  - cbn [map app] in *. injection Hc as -> ->. eexists. split; [reflexivity|]. exists a, b. repeat split.
Qed.
Lemma delivers8 cs : forall m, holds8 m cs -> Forall plain_char cs ->
  exists m', delivers tty8 next8 m (map encode_rune cs) m' /\ holds8 m' [].
Proof.
  induction cs as [|c cs IH]; intros m Hm Hp; [exists m; split; [constructor|exact Hm]|].
  destruct (next8_char m c cs Hm Hp) as (m1 & H1 & Hm1). apply Forall_cons_iff in Hp as [_ Hp].
  destruct (IH m1 Hm1 Hp) as (m' & H2 & H3). exists m'. split; [econstructor; eauto|exact H3].
Qed.

(** tty10: a buffer and reads of whole characters. *)
Definition holds10 (rest : list (option str)) (m : tty10) (cs : list rune) : Prop :=
  exists a bs, buf10 m = encode a /\ reads m = map (fun b => Some (encode b)) bs ++ rest /\ Forall (fun b => b <> []) bs /\ cs = a ++ List.concat bs.
Lemma cut_char c a rs : plain_char c -> tty10_cut (encode (c :: a)) rs = (Key10 (encode_rune c), mkTty10 (encode a) rs).
Proof.
  intros (Hv & _ & H27). unfold tty10_cut. rewrite encode_cons, decode_encode by exact Hv. replace (c =? 27) with false by lia.
  now rewrite firstn_app, firstn_all, Nat.sub_diag, firstn_O, app_nil_r, skipn_app, skipn_all, Nat.sub_diag, skipn_O.
Qed.
Lemma encode_nonempty c a : exists b t, encode (c :: a) = b :: t.
Proof. rewrite encode_cons. pose proof (encode_rune_len c) as H. destruct (encode_rune c); cbn in *; [lia|eauto]. Qed.
Lemma next10_char rest m c cs : holds10 rest m (c :: cs) -> Forall plain_char (c :: cs) ->
  exists m', next10 m = Some (RKey (encode_rune c), m') /\ holds10 rest m' cs.
Proof.
  intros (a & bs & Ha & Hb & Hne & Hc) Hp. apply Forall_cons_iff in Hp as [Hpc _]. destruct m as [bf rs]. cbn [buf10 reads] in *. subst bf rs.
  unfold next10, tty10_GetKey. cbn [buf10 reads]. destruct a as [|x a].
  - cbn [app] in Hc. destruct bs as [|b bs]; [discriminate|]. apply Forall_cons_iff in Hne as [Hb Hne]. destruct b as [|x b]; [contradiction|].
    cbn [List.concat app] in Hc. injection Hc as <- ->. cbn [map app]. change (encode []) with (@nil Z). cbv iota.
    destruct (encode_nonempty c b) as (z & t & Hz). rewrite Hz, <- Hz, cut_char by exact Hpc.
    eexists. split; [reflexivity|]. exists b, bs. repeat split. exact Hne.
  - cbn [app] in Hc. injection Hc as <- ->. destruct (encode_nonempty c a) as (z & t & Hz). rewrite Hz, <- Hz, cut_char by exact Hpc.
    eexists. split; [reflexivity|]. exists a, bs. repeat split. exact Hne.
Qed.
Lemma delivers10 rest cs : forall m, holds10 rest m cs -> Forall plain_char cs ->
  exists m', delivers tty10 next10 m (map encode_rune cs) m' /\ holds10 rest m' [].
Proof.
  induction cs as [|c cs IH]; intros m Hm Hp; [exists m; split; [constructor|exact Hm]|].
  destruct (next10_char rest m c cs Hm Hp) as (m1 & H1 & Hm1). apply Forall_cons_iff in Hp as [_ Hp].
  destruct (IH m1 Hm1 Hp) as (m' & H2 & H3). exists m'. split; [econstructor; eauto|exact H3].
Qed.

Lemma typed_plain S E ls : Forall (Forall (typed_char S E)) ls -> Forall plain_char (typed_lines ls).
Proof.
  induction 1 as [|l ls Hl Hls IH]; [constructor|]. unfold typed_lines. cbn [flat_map]. rewrite !Forall_app. repeat split.
  - eapply Forall_impl; [|exact Hl]. intros r (H1 & H2 & H3 & _). repeat split; assumption.
  - repeat constructor; lia.
  - exact IH.
Qed.
Lemma typed_keys ls : map encode_rune (typed_lines ls) = flat_map (fun l => map encode_rune l ++ [[13]]) ls.
Proof. induction ls as [|l ls IH]; [reflexivity|]. unfold typed_lines in *. cbn [flat_map]. rewrite !map_app. f_equal. exact IH. Qed.

Lemma paste8 S E ls bs ps h cur n : simple_over S E -> Forall (Forall (typed_char S E)) ls ->
  Forall (fit_place S E) ps -> List.length ps = List.length ls -> Forall (simple_text E) h -> 0 <= cur ->
  Forall (fun l => (List.length l < n)%nat) ls ->
  exists cur' m', serve next8 S n ps h cur (mkTty8 (mkXtty (map Some (typed_lines ls)) bs) []) = Some (h ++ map encode ls, cur', m') /\
    buf8 m' = [] /\ input (xt m') = [].
Proof.
  intros HS Hl Hp Hlen Hh H0 Hn.
  destruct (delivers8 (typed_lines ls) (mkTty8 (mkXtty (map Some (typed_lines ls)) bs) [])) as (m' & Hd & a & b & Ha & Hb & Hab).
  { exists [], (typed_lines ls). repeat split. } { eapply typed_plain; eauto. }
  rewrite typed_keys in Hd. destruct (lines_served S E HS _ _ n ls ps h cur _ _ Hl Hp Hlen Hh H0 Hd Hn) as (cur' & G & _).
  exists cur', m'. split; [exact G|]. destruct a; [|discriminate]. destruct b; [|discriminate]. auto.
Qed.
Lemma paste10 S E ls bs ps h cur n : simple_over S E -> Forall (Forall (typed_char S E)) ls ->
  Forall (fit_place S E) ps -> List.length ps = List.length ls -> Forall (simple_text E) h -> 0 <= cur ->
  Forall (fun l => (List.length l < n)%nat) ls -> Forall (fun b => b <> []) bs -> List.concat bs = typed_lines ls ->
  exists cur', serve next10 S n ps h cur (mkTty10 [] (map (fun b => Some (encode b)) bs)) = Some (h ++ map encode ls, cur', mkTty10 [] []).
Proof.
  intros HS Hl Hp Hlen Hh H0 Hn Hne Hbs.
  destruct (delivers10 [] (typed_lines ls) (mkTty10 [] (map (fun b => Some (encode b)) bs))) as (m' & Hd & a & b & Ha & Hb & Hbn & Hab).
  { exists [], bs. rewrite app_nil_r. repeat split; auto. } { eapply typed_plain; eauto. }
  rewrite typed_keys in Hd. destruct (lines_served S E HS _ _ n ls ps h cur _ _ Hl Hp Hlen Hh H0 Hd Hn) as (cur' & G & _).
  exists cur'. rewrite G. do 2 f_equal. destruct m' as [b10 rs]. cbn [buf10 reads] in *. destruct a; [|discriminate]. destruct b as [|y b]; [now subst|].
  exfalso. apply Forall_cons_iff in Hbn as [Hy _]. destruct y; [contradiction|discriminate Hab].
Qed.
(** The pilot needs no Enter at the end of its script. *)
Lemma delivers_pilot ks : forall rest, delivers (list str) next_pilot (ks ++ rest) ks rest.
Proof. induction ks as [|k ks IH]; intros rest; [constructor|]. cbn [app]. econstructor; [reflexivity|apply IH]. Qed.
Lemma pilot_served S E l p h cur n : simple_over S E -> Forall (typed_char S E) l -> fit_place S E p -> Forall (simple_text E) h -> 0 <= cur ->
  (List.length l < n)%nat ->
  exists cur', serve next_pilot S n [p] h cur (map encode_rune l) = Some (h ++ [encode l], cur', []).
Proof.
  intros HS Hl Hp Hh H0 Hn. cut (exists cur', serve next_pilot S n [p] h cur (map encode_rune l) = Some (h ++ map encode [l], cur', []) /\ 0 <= cur').
  { intros (cur' & G & _). now exists cur'. }
  apply (lines_served S E HS _ _ n [l] [p] h cur); auto.
  cbn [flat_map]. rewrite app_nil_r. clear. induction l as [|r l IH]; cbn [map app].
  - econstructor; [reflexivity|constructor].
  - econstructor; [reflexivity|exact IH].
Qed.
Lemma control_unbound km k b t : control_keys km -> k = b :: t -> 32 <= b -> b <> 127 -> Lookup km k = None.
Proof.
  intros Hk -> Hb H7. unfold Lookup. destruct (aget str_eqb km (b :: t)) as [c|] eqn:Ha; [|reflexivity]. apply aget_in in Ha.
  unfold control_keys in Hk. rewrite Forall_forall in Hk. destruct (Hk _ Ha) as (b' & t' & Hf & H). cbn in Hf. injection Hf as <- <-. lia.
Qed.
Lemma printable S E r : (forall h, control_keys (kmap (S h)) /\ control_keys (gmap (S h))) ->
  valid_rune r = true -> 32 <= r -> r <> 127 -> joins E r = false -> typed_char S E r.
Proof.
  intros Hk Hv H32 H127 Hj. split; [exact Hv|]. split; [lia|]. split; [lia|]. split; [lia|]. split; [exact Hj|].
  intros h. destruct (Hk h) as [K1 K2]. unfold unbound, bound, LookupCommand. destruct (encode_first r Hv) as (b & t & He & Hb).
  rewrite (control_unbound _ _ _ _ K1 He), (control_unbound _ _ _ _ K2 He); [reflexivity|lia..].
Qed.
Lemma global_control : control_keys GlobalKeyMap.
Proof.
  assert (G : forallb (fun p => match fst p with b :: _ => ((0 <=? b) && (b <? 32)) || (b =? 127) | [] => false end) GlobalKeyMap = true) by reflexivity.
  unfold control_keys. apply Forall_forall. intros [k c] Hin. rewrite forallb_forall in G. specialize (G _ Hin). cbn [fst] in *.
  destruct k as [|b t]; [discriminate|]. exists b, t. split; [reflexivity|]. lia.
Qed.
