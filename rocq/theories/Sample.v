(** Concrete configurations used to show that the hypotheses of the theorems can be met,
    and as witnesses against claims that are false. *)
From Verif Require Import Base Utf8 Moji Color Prompt Buffer Commands KeyMap Session Spec.

(** ASCII is one column wide, U+0300..U+036F no column, the rest two. *)
Definition sample_rw (r : rune) : Z :=
  if r <? 128 then 1 else if in_range r 768 879 then 0 else 2.
Definition sample_vsme (r : rune) : bool := in_range r 65024 65039.

(** All sequences switched off. *)
Definition E_off : env := mkEnv false false false true false sample_rw (fun a b => a + 1 + b) sample_vsme.
(** All sequences switched on. *)
Definition E_on : env := mkEnv true true true true false sample_rw (fun a b => a + 1 + b) sample_vsme.

(** ASCII case folding stands for strings.ToUpper. *)
Definition ascii_upper (s : str) : str :=
  map (fun b => if in_range b 97 122 then b - 32 else b) s.

Definition sample_hist : list str := [s2l "ls -l"; s2l "cat readme"; s2l "make install"].

Definition cfg_of (E : env) : cfg :=
  mkCfg E sample_hist false [] [] (predictByHistory sample_hist) (Some (s2l "$ ")) VimBatch ascii_upper.
(** The same with prediction switched on (PredictColor set). *)
Definition cfg_pred (E : env) : cfg :=
  mkCfg E sample_hist false (s2l "<") (s2l ">") (predictByHistory sample_hist) (Some (s2l "$ ")) VimBatch ascii_upper.
Definition S_off : scfg := mkScfg (cfg_of E_off) [] GlobalKeyMap.
Definition S_on : scfg := mkScfg (cfg_of E_on) [] GlobalKeyMap.
Definition S_pred : scfg := mkScfg (cfg_pred E_off) [] GlobalKeyMap.

(** One key per character. *)
Definition keys (s : string) : list event := map (fun b => EKey [b]) (s2l s).
Definition key (n : Z) : event := EKey [n].

Definition text_of (x : option sess) : option str :=
  match x with
  | Some (Running _ s) => Some (buf_string s)
  | Some (Finished _ t _) => Some t
  | None => None
  end.

Lemma sane_off : sane_widths E_off.
Proof.
  repeat split; cbn; intros; try lia. unfold sample_rw. destruct (r <? 128); [lia|]. destruct (in_range r 768 879); lia.
Qed.
Lemma sane_on : sane_widths E_on.
Proof. exact sane_off. Qed.

Lemma global_builtin km : (forall k c f, aget str_eqb km k = Some c -> c <> CUser f) -> forall C k f,
  LookupCommand (kmap (mkScfg C km GlobalKeyMap)) (gmap (mkScfg C km GlobalKeyMap)) k <> CUser f.
Proof.
  intros Hk C k f. cbn [kmap gmap]. unfold LookupCommand, Lookup. destruct (aget str_eqb km k) eqn:Ha; [exact (Hk _ _ f Ha)|].
  destruct (aget str_eqb GlobalKeyMap k) as [c|] eqn:Hg; [|discriminate].
  assert (G : forallb (fun p => match snd p with CUser _ => false | _ => true end) GlobalKeyMap = true) by reflexivity.
  revert Hg G. generalize GlobalKeyMap as m. induction m as [|[k0 c0] m IH]; cbn [aget forallb snd]; [discriminate|].
  intros Hg G. apply andb_true_iff in G as [G1 G2]. destruct (str_eqb k k0).
  - injection Hg as ->. intros ->. discriminate.
  - now apply IH.
Qed.
Lemma builtin_off : only_builtin S_off. Proof. intros k f. apply global_builtin. discriminate. Qed.
Lemma builtin_on : only_builtin S_on. Proof. intros k f. apply global_builtin. discriminate. Qed.
Lemma builtin_pred : only_builtin S_pred. Proof. intros k f. apply global_builtin. discriminate. Qed.

(** Checkers for the conditions. *)
Definition simple_textb (E : env) (s : str) : bool := forallb (fun r => negb (r =? 9) && negb (joins E r)) (runes s).
Lemma simple_textb_ok E s : simple_textb E s = true -> simple_text E s.
Proof.
  unfold simple_textb. intros H r Hr. rewrite forallb_forall in H. specialize (H r Hr).
  apply andb_true_iff in H as [H1 H2]. split; [lia|]. now apply negb_true_iff.
Qed.
Definition simple_eventb (S : scfg) (e : event) : bool :=
  match e with
  | EKey k => simple_textb (cE (base S)) k &&
      match LookupCommand (kmap S) (gmap S) k with
      | CSwapChar => false | CSelfInsert k' => simple_textb (cE (base S)) k' | _ => true end
  | EKeyErr => true
  | EResize w => prompt_width (base S) + 11 <? w
  | EClip (Some t) => simple_textb (cE (base S)) t
  | EClip None => true
  end.
Lemma simple_eventb_ok S es : forallb (simple_eventb S) es = true -> Forall (simple_event S) es.
Proof.
  intros H. apply Forall_forall. intros e He. rewrite forallb_forall in H. specialize (H e He). destruct e as [k| |w|[t|]]; cbn in *; auto.
  - apply andb_true_iff in H as [H1 H2]. split; [now apply simple_textb_ok|].
    split; [intros Hx; rewrite Hx in H2; discriminate|]. intros k' Hk. rewrite Hk in H2. now apply simple_textb_ok.
  - lia.
  - intros t' [= <-]. now apply simple_textb_ok.
  - intros t' [=].
Qed.
Lemma sample_rw8 r : sample_rw r <= 8.
Proof. unfold sample_rw. destruct (r <? 128); [lia|]. destruct (in_range r 768 879); lia. Qed.
Lemma sample_hist_ok E : forallb (simple_textb E) sample_hist = true -> Forall (simple_text E) sample_hist.
Proof. intros H. apply Forall_forall. intros s Hs. rewrite forallb_forall in H. apply simple_textb_ok, H, Hs. Qed.
Lemma simple_off : simple_editor S_off.
Proof.
  split; [apply builtin_off|]. split; [apply sane_off|]. split; [apply sample_rw8|]. split; [reflexivity|]. split; [reflexivity|].
  split; [now left|]. now apply sample_hist_ok.
Qed.
Lemma simple_on : simple_editor S_on.
Proof.
  split; [apply builtin_on|]. split; [apply sane_on|]. split; [apply sample_rw8|]. split; [reflexivity|]. split; [reflexivity|].
  split; [now left|]. now apply sample_hist_ok.
Qed.

(** The buffer after some events on an 80-column terminal, starting from an empty line. *)
Definition after_keys (S : scfg) (es : list event) : option buf :=
  match readline S [] 0 80 (Some []) es with
  | Some (Running _ s) => Some s
  | _ => None
  end.
Definition raws (t : string) : list moji := map MRaw (s2l t).

Definition typableb (S : scfg) (k : str) : bool :=
  match LookupCommand (kmap S) (gmap S) k with CSelfInsert k' => str_eqb k' k | _ => false end
  && str_eqb (altgr k) k && negb (joins (cE (base S)) (first_rune k))
  && str_eqb (encode (runes k)) k && forallb valid_rune (runes k) && negb (zwj_ok (cE (base S))).
Lemma typableb_ok S ks : forallb (typableb S) ks = true -> Forall (typable S) ks.
Proof.
  intros H. apply Forall_forall. intros k Hk. rewrite forallb_forall in H. specialize (H k Hk). unfold typableb in H.
  repeat (apply andb_true_iff in H as [H ?]). unfold typable, unbound, bound.
  destruct (LookupCommand (kmap S) (gmap S) k); try discriminate. apply str_eqb_eq in H. subst.
  repeat match goal with X : str_eqb _ _ = true |- _ => apply str_eqb_eq in X end.
  split; [reflexivity|]. split; [assumption|]. split; [now apply negb_true_iff|]. split; [|left; now apply negb_true_iff].
  match goal with X : encode (runes k) = k |- _ => rewrite <- X end. apply valid_utf8_encode. now apply Forall_forall, forallb_forall.
Qed.
Definition S_cyc : scfg :=
  mkScfg (mkCfg E_off sample_hist true [] [] (predictByHistory sample_hist) (Some (s2l "$ ")) VimBatch ascii_upper) [] GlobalKeyMap.
