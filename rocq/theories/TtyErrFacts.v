(** Facts about a terminal whose reading fails. *)
From Verif Require Import Base Utf8 Moji Color Prompt Buffer Commands KeyMap Session MojiFacts
  Abs AbsRef AbsSess AbsSafe AbsInv Safe SafeSess Plain Spec TextFacts Reach SafetyFacts CmdFacts WordFacts EditFacts EditProps LineInv EditMore SessFacts HistFacts SearchFacts PredictFacts SessProps
  KeyInput KeyFacts Repl SpecRepl Terminal SpecTty TtyFacts.

Section Chars.
Variable S : container -> scfg.
Variable E : env.
Hypothesis HS : simple_over S E.
Variable T : Type.
Variable next : T -> option (read * T).

(** A call of ReadLine that is given part of a line and then an error. *)
Lemma one_error p h cur l t t' t'' n : Forall (typed_char S E) l -> fit_place S E p -> Forall (simple_text E) h -> 0 <= cur ->
  delivers T next t (map encode_rune l) t' -> next t' = Some (RErr, t'') -> (List.length l < n)%nat ->
  exists x0 s, start (S h) (p_default p) cur (p_width p) (p_clip p) = Some x0 /\
    listen next (S h) n x0 t = Some (Finished s [] RKeyError, t'').
Proof.
  intros Hl (Hd & Hw & Hc) Hh H0 Hdel Hnx Hn.
  assert (Hty : Forall (typable (S h)) (map encode_rune l)) by (apply Forall_map; eapply Forall_impl; [|exact Hl]; intros a; eapply typable_char; eauto).
  assert (Hst : Forall (simple_text (cE (base (S h)))) (map encode_rune l)).
  { rewrite (so_env _ _ HS). apply Forall_map. eapply Forall_impl; [|exact Hl]. intros a. eapply simple_char; eauto. }
  destruct (simple_safe (S h) [] cur (p_width p) (p_clip p) (map EKey (map encode_rune l))) as (x & Hx & _).
  { now apply (so_simple _ _ HS). } { intros r []. } { now rewrite (so_env _ _ HS). }
  { apply Forall_map. rewrite Forall_forall in *. intros k Hin. specialize (Hty k Hin) as (Hu & _). specialize (Hst k Hin). cbn.
    unfold unbound, bound in Hu. split; [exact Hst|]. rewrite Hu. split; [discriminate|]. intros k' [= <-]. exact Hst. }
  { exact H0. } { apply Hw. }
  rewrite Hd. pose proof Hx as Hx'. apply typed_line in Hx' as (s & n0 & -> & _); [|exact H0|exact Hty].
  unfold readline in Hx. destruct (start (S h) [] cur (p_width p) (p_clip p)) as [x0|] eqn:Hs0; [|discriminate].
  exists x0. eexists. split; [reflexivity|].
  replace n with (List.length (map encode_rune l) + Datatypes.S (n - List.length l - 1))%nat by (rewrite map_length; lia).
  rewrite (listen_running T next (S h) _ _ x0 t t' (Running MNormal s)); [|intros ks1 ks2 y Hk Hne Hy|exact Hdel|exact Hx].
  - cbn [listen]. rewrite Hnx, read_error. now rewrite listen_finished.
  - assert (Hk1 : Forall (typable (S h)) ks1) by (rewrite Hk in Hty; now apply Forall_app in Hty as [Hty _]).
    assert (Hr : readline (S h) [] cur (p_width p) (p_clip p) (map EKey ks1) = Some y) by (unfold readline; rewrite Hs0; exact Hy).
    apply typed_line in Hr as (s1 & n1 & -> & _); [eauto|exact H0|exact Hk1].
Qed.
Lemma lines_error n ls l ps h cur t t' t'' : Forall (Forall (typed_char S E)) ls -> Forall (typed_char S E) l ->
  Forall (fit_place S E) ps -> List.length ps = List.length ls -> Forall (simple_text E) h -> 0 <= cur ->
  delivers T next t (map encode_rune (typed_lines ls ++ l)) t' -> next t' = Some (RErr, t'') ->
  Forall (fun l => (List.length l < n)%nat) ls -> (List.length l < n)%nat ->
  exists cur' t1, serve next S n ps h cur t = Some (h ++ map encode ls, cur', t1) /\
    forall p, fit_place S E p -> exists x0 s, start (S (h ++ map encode ls)) (p_default p) cur' (p_width p) (p_clip p) = Some x0 /\
      listen next (S (h ++ map encode ls)) n x0 t1 = Some (Finished s [] RKeyError, t'').
Proof.
  intros Hls Hl Hp Hlen Hh H0 Hd Hnx Hn Hn'. rewrite map_app, typed_keys in Hd. apply delivers_app in Hd as (t1 & Hd1 & Hd2).
  destruct (lines_served S E HS T next n ls ps h cur t t1 Hls Hp Hlen Hh H0 Hd1 Hn) as (cur' & G & Gc).
  exists cur', t1. split; [exact G|]. intros p Hfp. apply (one_error p _ cur' l t1 t' t''); auto.
  apply Forall_app. split; [exact Hh|]. apply Forall_map. eapply Forall_impl; [|exact Hls]. intros a Ha. eapply simple_line; eauto.
Qed.
End Chars.

Lemma error10 S E ls l bs rest ps h cur n : simple_over S E -> Forall (Forall (typed_char S E)) ls -> Forall (typed_char S E) l ->
  Forall (fit_place S E) ps -> List.length ps = List.length ls -> Forall (simple_text E) h -> 0 <= cur ->
  Forall (fun l => (List.length l < n)%nat) ls -> (List.length l < n)%nat ->
  Forall (fun b => b <> []) bs -> List.concat bs = typed_lines ls ++ l ->
  exists cur' t1, serve next10 S n ps h cur (mkTty10 [] (map (fun b => Some (encode b)) bs ++ None :: rest)) = Some (h ++ map encode ls, cur', t1) /\
    next_call_fails next10 S E n (h ++ map encode ls) cur' t1 (eq (mkTty10 [] rest)).
Proof.
  intros HS Hls Hl Hp Hlen Hh H0 Hn Hn' Hne Hbs.
  assert (Hpl : Forall plain_char (typed_lines ls ++ l)).
  { apply Forall_app. split; [eapply typed_plain; eauto|]. eapply Forall_impl; [|exact Hl]. intros r (H1 & H2 & H3 & _). repeat split; assumption. }
  destruct (delivers10 (None :: rest) (typed_lines ls ++ l) (mkTty10 [] (map (fun b => Some (encode b)) bs ++ None :: rest))) as (m' & Hd & a & b & Ha & Hb & Hbn & Hab).
  { exists [], bs. repeat split; auto. } { exact Hpl. }
  destruct (lines_error S E HS tty10 next10 n ls l ps h cur _ m' (mkTty10 [] rest) Hls Hl Hp Hlen Hh H0 Hd) as (cur' & t1 & G1 & G2); auto.
  2:{ exists cur', t1. split; [exact G1|]. intros p Hfp. destruct (G2 p Hfp) as (x0 & s & G3 & G4). exists x0, s. eauto. }
  destruct m' as [b10 rs]. cbn [buf10 reads] in *. destruct a; [|discriminate]. destruct b as [|y b]; [now subst|].
  exfalso. apply Forall_cons_iff in Hbn as [Hy _]. destruct y; [contradiction|discriminate Hab].
Qed.

(** tty8: a burst may run into the error. *)
Lemma raw_err rest bs : GetRawKey true (mkXtty (None :: rest) bs) = Failed (mkXtty rest bs).
Proof. reflexivity. Qed.
Lemma keys_err b rest : forall f bs ks0, Forall plain_char b -> (List.length b < f)%nat ->
  (exists bs', keys_loop true f (mkXtty (map Some b ++ None :: rest) bs) ks0 = Some (Failed (mkXtty rest bs')) /\ (bs = [] -> b = [] )) \/
  exists b1 b2 bs', b = b1 ++ b2 /\ b1 <> [] /\ (bs = [] -> bs' = []) /\
    keys_loop true f (mkXtty (map Some b ++ None :: rest) bs) ks0 = Some (Got (ks0 ++ map encode_rune b1) (mkXtty (map Some b2 ++ None :: rest) bs')).
Proof.
  induction b as [|r b IH]; intros f bs ks0 Hb Hf; (destruct f as [|f]; [cbn in Hf; lia|]).
  - left. exists bs. split; reflexivity.
  - apply Forall_cons_iff in Hb as [Hr Hb]. cbn [map app keys_loop]. rewrite raw_one by exact Hr.
    unfold Buffered. cbn [buffered input]. destruct bs as [|c bs].
    + right. exists [r], b, []. repeat split; discriminate.
    + destruct (c && _) eqn:Hc.
      * destruct (IH f bs (ks0 ++ [encode_rune r]) Hb ltac:(cbn in Hf |- *; lia)) as [(bs' & G & _)|(b1 & b2 & bs' & Hbb & Hb1 & _ & G)].
        -- left. exists bs'. split; [exact G|discriminate].
        -- right. exists (r :: b1), b2, bs'. split; [cbn; congruence|]. split; [discriminate|]. split; [discriminate|]. rewrite G. cbn [map]. now rewrite <- app_assoc.
      * right. exists [r], b, bs. repeat split; discriminate.
Qed.
(** What is read ahead, and what comes before the error. *)
Definition holds_err (rest : list (option rune)) (m : tty8) (cs : list rune) : Prop :=
  exists a b, buf8 m = map encode_rune a /\ input (xt m) = map Some b ++ None :: rest /\ cs = a ++ b.
Lemma next8_err rest m cs : holds_err rest m cs -> Forall plain_char cs ->
  (exists m', next8 m = Some (RErr, m') /\ buf8 m' = [] /\ input (xt m') = rest /\ (buffered (xt m) = [] -> cs = [])) \/
  exists c cs' m', cs = c :: cs' /\ next8 m = Some (RKey (encode_rune c), m') /\ holds_err rest m' cs' /\ (buffered (xt m) = [] -> buffered (xt m') = []).
Proof.
  intros (a & b & Ha & Hb & Hc) Hp. destruct m as [[inp bs] bf]. cbn [xt input buf8 buffered] in *. subst inp bf. unfold next8, tty8_GetKey. cbn [buf8 xt].
  destruct a as [|x a].
  - cbn [map app] in *. subst b. unfold GetKeys. cbn [input].
    destruct (keys_err cs rest (Datatypes.S (List.length (map Some cs ++ None :: rest))) bs [] Hp) as [(bs' & G & Gb)|(b1 & b2 & bs' & Hbb & Hb1 & Gb & G)];
      [rewrite app_length, map_length; lia|rewrite G..].
    + left. eexists. split; [reflexivity|]. cbn. auto.
    + right. destruct b1 as [|x b1]; [contradiction|]. subst cs. exists x, (b1 ++ b2). eexists. split; [reflexivity|]. cbn [map app].
      split; [reflexivity|]. split; [exists b1, b2; repeat split|exact Gb].
  - right. cbn [map app] in *. subst cs. exists x, (a ++ b). eexists. split; [reflexivity|]. split; [reflexivity|]. split; [exists a, b; repeat split|auto].
Qed.
Lemma delivers_err rest cs : forall m, holds_err rest m cs -> Forall plain_char cs ->
  exists cs1 cs2 m' m'', cs = cs1 ++ cs2 /\ delivers tty8 next8 m (map encode_rune cs1) m' /\ next8 m' = Some (RErr, m'') /\
    buf8 m'' = [] /\ input (xt m'') = rest /\ (buffered (xt m) = [] -> cs2 = []).
Proof.
  induction cs as [|c cs IH]; intros m Hm Hp; destruct (next8_err rest m _ Hm Hp) as [(m' & H1 & H2 & H3 & H4)|(c' & cs' & m' & Hc & H1 & H2 & H3)]; try discriminate.
  - exists [], [], m, m'. repeat split; auto. constructor.
  - exists [], (c :: cs), m, m'. repeat split; auto. constructor.
  - injection Hc as <- <-. apply Forall_cons_iff in Hp as [_ Hp]. destruct (IH m' H2 Hp) as (cs1 & cs2 & m1 & m2 & -> & Hd & Hn & Hb & Hi & Hx).
    exists (c :: cs1), cs2, m1, m2. split; [reflexivity|]. split; [econstructor; eauto|]. auto 6.
Qed.
(** A beginning of the lines is some of the lines and the beginning of another. *)
Lemma lines_prefix ls : forall l cs1 cs2, typed_lines ls ++ l = cs1 ++ cs2 ->
  exists k l1, (k <= List.length ls)%nat /\ cs1 = typed_lines (firstn k ls) ++ l1 /\ (cs2 = [] -> k = List.length ls) /\
    ((exists l', In l' ls /\ exists l2, l' = l1 ++ l2) \/ exists l2, l = l1 ++ l2).
Proof.
  induction ls as [|l0 ls IH]; intros l cs1 cs2 H.
  - exists O, cs1. split; [cbn; lia|]. split; [reflexivity|]. split; [reflexivity|]. right. now exists cs2.
  - unfold typed_lines in H. cbn [flat_map] in H. fold (typed_lines ls) in H. rewrite <- !app_assoc in H.
    destruct (Nat.le_gt_cases (List.length cs1) (List.length l0)) as [Hle|Hgt].
    + exists O, cs1. split; [lia|]. split; [reflexivity|]. split.
      * intros ->. apply (f_equal (@List.length _)) in H. rewrite !app_length in H. cbn in H. lia.
      * left. exists l0. split; [now left|]. exists (skipn (List.length cs1) l0).
        apply (f_equal (firstn (List.length cs1))) in H. rewrite (firstn_app _ l0) in H. replace (List.length cs1 - List.length l0)%nat with O in H by lia.
        cbn [firstn] in H. rewrite app_nil_r, firstn_app, firstn_all, Nat.sub_diag in H. cbn [firstn] in H. rewrite app_nil_r in H. rewrite <- H at 1. symmetry. apply firstn_skipn.
    + assert (Hc : exists cs1', cs1 = l0 ++ 13 :: cs1').
      { exists (skipn (List.length l0 + 1) cs1). pose proof H as G. apply (f_equal (firstn (List.length l0 + 1))) in G.
        rewrite (app_assoc l0 [13]), (firstn_app _ (l0 ++ [13])) in G. rewrite app_length in G. cbn [List.length] in G. rewrite Nat.sub_diag in G. cbn [firstn] in G. rewrite app_nil_r in G.
        rewrite firstn_all2 in G by (rewrite app_length; cbn; lia). rewrite firstn_app in G. replace (List.length l0 + 1 - List.length cs1)%nat with O in G by lia.
        cbn [firstn] in G. rewrite app_nil_r in G. rewrite <- (firstn_skipn (List.length l0 + 1) cs1) at 1. rewrite <- G. now rewrite <- app_assoc. }
      destruct Hc as [cs1' ->]. rewrite <- !app_assoc in H. apply app_inv_head in H. cbn [app] in H. injection H as H.
      destruct (IH l cs1' cs2 H) as (k & l1 & Hk & -> & Hx & Hl). exists (Datatypes.S k), l1. split; [cbn; lia|]. split.
      * unfold typed_lines. cbn [firstn flat_map]. now rewrite <- !app_assoc.
      * split; [intros G; cbn; now rewrite (Hx G)|]. destruct Hl as [(l' & Hi & Hl)|Hl]; [left; exists l'; split; [now right|exact Hl]|now right].
Qed.
Lemma error8 S E ls l bs rest ps h cur n : simple_over S E -> Forall (Forall (typed_char S E)) ls -> Forall (typed_char S E) l ->
  Forall (fit_place S E) ps -> List.length ps = List.length ls -> Forall (simple_text E) h -> 0 <= cur ->
  Forall (fun l => (List.length l < n)%nat) ls -> (List.length l < n)%nat ->
  exists k cur' t1, (k <= List.length ls)%nat /\ (bs = [] -> k = List.length ls) /\
    serve next8 S n (firstn k ps) h cur (mkTty8 (mkXtty (map Some (typed_lines ls ++ l) ++ None :: rest) bs) []) = Some (h ++ map encode (firstn k ls), cur', t1) /\
    next_call_fails next8 S E n (h ++ map encode (firstn k ls)) cur' t1 (fun t' => buf8 t' = [] /\ input (xt t') = rest).
Proof.
  intros HS Hls Hl Hp Hlen Hh H0 Hn Hn'.
  assert (Hpl : Forall plain_char (typed_lines ls ++ l)).
  { apply Forall_app. split; [eapply typed_plain; eauto|]. eapply Forall_impl; [|exact Hl]. intros r (H1 & H2 & H3 & _). repeat split; assumption. }
  destruct (delivers_err rest (typed_lines ls ++ l) (mkTty8 (mkXtty (map Some (typed_lines ls ++ l) ++ None :: rest) bs) []))
    as (cs1 & cs2 & m' & m'' & Hcs & Hd & Hnx & Hb & Hi & Hx).
  { exists [], (typed_lines ls ++ l). repeat split. } { exact Hpl. }
  destruct (lines_prefix ls l cs1 cs2 Hcs) as (k & l1 & Hk & -> & Hk2 & Hl1).
  assert (Hl1t : Forall (typed_char S E) l1 /\ (List.length l1 < n)%nat).
  { destruct Hl1 as [(l' & Hin & l2 & ->)|(l2 & ->)].
    - rewrite Forall_forall in Hls, Hn. specialize (Hls _ Hin). specialize (Hn _ Hin). apply Forall_app in Hls as [Hls _]. rewrite app_length in Hn. split; [exact Hls|lia].
    - apply Forall_app in Hl as [Hl _]. rewrite app_length in Hn'. split; [exact Hl|lia]. }
  destruct Hl1t as [Hl1t Hl1n].
  assert (Hf : forall A (P : A -> Prop) (xs : list A), Forall P xs -> Forall P (firstn k xs)).
  { intros A P xs HP. rewrite <- (firstn_skipn k xs) in HP. now apply Forall_app in HP as [HP _]. }
  destruct (lines_error S E HS tty8 next8 n (firstn k ls) l1 (firstn k ps) h cur (mkTty8 (mkXtty (map Some (typed_lines ls ++ l) ++ None :: rest) bs) []) m' m'' (Hf _ _ _ Hls) Hl1t (Hf _ _ _ Hp)) as (cur' & t1 & G1 & G2);
    [now rewrite !firstn_length, Hlen|exact Hh|exact H0|exact Hd|exact Hnx|now apply Hf|exact Hl1n|].
  exists k, cur', t1. split; [exact Hk|]. split; [intros ->; apply Hk2, Hx; reflexivity|]. split; [exact G1|].
  intros p Hfp. destruct (G2 p Hfp) as (x0 & s & G3 & G4). exists x0, s, m''. auto.
Qed.
