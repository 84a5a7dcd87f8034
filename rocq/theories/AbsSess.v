(** The session over the display-free editor, and the refinement of [step] to it.
    Intermediate step of the proofs. *)
From Verif Require Import Base Utf8 Moji Color Prompt Buffer Commands KeyMap Session MojiFacts Abs AbsRef.

Inductive asess :=
| ARunning (m : mode) (a : astate)
| AFinished (a : astate) (t : str) (e : rerr).

Definition abss (x : sess) : asess :=
  match x with
  | Running m s => ARunning m (abs s)
  | Finished s t e => AFinished (abs s) t e
  end.

Section WithCfg.
Variable S : scfg.
Notation C := (base S).
Notation E := (cE C).

Definition afinish (rc : result) (a : astate) : asess :=
  let a1 := aset_suf a [] in AFinished a1 (atext a1) (result_err rc).

Definition aafter (o : option (astate * result)) : option asess :=
  let* (a, rc) := o in
  match rc with
  | CONTINUE => Some (ARunning MNormal a)
  | _ => Some (afinish rc a)
  end.

Definition akey_normal (scroll : bool) (k : str) (a : astate) : option asess :=
  match LookupCommand (kmap S) (gmap S) k with
  | CQuotedInsert => Some (ARunning MQuoted a)
  | CISearchBackward => Some (ARunning (MSearch (mkSearch [] [] (zlen (hist C) - 1))) a)
  | c => aafter (aexec C scroll c a)
  end.

Definition aaccept (ss : search) (a : astate) : option astate :=
  areplace C (aset_cur (aset_line (apush a (mkUndo 0 0 (atext a))) []) 0) 0 (ss_found ss).

Definition akey_search (ss : search) (k : str) (a : astate) : option asess :=
  let* act := search_key S k ss in
  match act with
  | SContinue ss' => Some (ARunning (MSearch ss') a)
  | SAccept => let* a' := aaccept ss a in Some (ARunning MNormal a')
  | SCancel => Some (ARunning MNormal a)
  end.

Definition astep (scroll : bool) (e : event) (x : asess) : option asess :=
  match x with
  | AFinished _ _ _ => Some x
  | ARunning m a =>
    match e with
    | EClip c => Some (ARunning m (aset_clip a c))
    | EResize w => match m with MNormal => Some (ARunning MNormal (aupdate C a)) | _ => Some x end
    | EKey k =>
      match m with
      | MNormal => akey_normal scroll k a
      | MQuoted => let* a' := aselfInsert C k a in Some (ARunning MNormal a')
      | MSearch ss => akey_search ss k a
      end
    | EKeyErr =>
      match m with
      | MNormal => Some (AFinished a [] RKeyError)
      | _ => Some (ARunning MNormal a)
      end
    end
  end.

(** Every key the session can see is bound to a built-in command. *)
Definition builtin_keys : Prop := forall k, builtin (LookupCommand (kmap S) (gmap S) k).

Lemma finish_ref rc s x : finish S rc s = Some x -> abss x = afinish rc (abs s).
Proof.
  unfold finish, afinish. intros H. opt H. injection H as <-. cbn [abss].
  rewrite abs_emit.
  assert (P : abs b = aset_suf (abs s) []).
  { destruct (suffix s) eqn:Hs.
    - apply repaintW_paints, paints_abs in Ev. rewrite Ev. reflexivity.
    - injection Ev as <-. unfold abs, aset_suf. rewrite Hs. reflexivity. }
  rewrite P. f_equal. unfold buf_string. rewrite cell2string_text.
  change (emojis (cells b)) with (aline (abs b)). rewrite P. reflexivity.
Qed.

Lemma after_ref o x (oa : option (astate * result)) :
  (forall s r, o = Some (s, r) -> oa = Some (abs s, r)) ->
  after_command S o = Some x -> aafter oa = Some (abss x).
Proof.
  intros Ho H. unfold after_command in H. opt H. subst.
  rewrite (Ho _ _ eq_refl). cbn [aafter].
  destruct r; try (apply finish_ref in H; rewrite H; reflexivity).
  injection H as <-. reflexivity.
Qed.

Lemma search_wait_ref ss s x : search_wait S ss s = Some x -> abss x = ARunning (MSearch ss) (abs s).
Proof. unfold search_wait. intros H. opt H. injection H as <-. reflexivity. Qed.

Lemma search_accept_ref ss s s' : search_accept S ss s = Some s' -> aaccept ss (abs s) = Some (abs s').
Proof.
  unfold search_accept, aaccept. intros H. apply ReplaceAndRepaint_ref in H.
  rewrite <- H. unfold atext. cbn [aline abs]. rewrite cell2string_text. reflexivity.
Qed.

Lemma search_cancel_ref s s' : search_cancel S s = Some s' -> abs s' = abs s.
Proof.
  unfold search_cancel. intros H. opt H. apply puts_paints, paints_abs in Ev0, H.
  rewrite H. exact Ev0.
Qed.

Lemma on_resize_ref w s s' : on_resize S w s = Some s' -> abs s' = aupdate C (abs s).
Proof.
  unfold on_resize, RepaintLastLine. intros H. apply repaint_ref in H. rewrite H. reflexivity.
Qed.

Lemma step_ref e x x' : builtin_keys -> step S e x = Some x' ->
  exists b, astep b e (abss x) = Some (abss x').
Proof.
  intros HB H. destruct x as [m s|s t r]; cbn [step] in H; cbn [abss astep].
  2:{ exists true. injection H as <-. reflexivity. }
  destruct e as [k| |w|c].
  - destruct m as [| |ss].
    + unfold key_normal in H. unfold akey_normal. specialize (HB k).
      remember (LookupCommand (kmap S) (gmap S) k) as c eqn:Hc. clear Hc.
      assert (G : forall c, builtin c ->
                 after_command S (exec C c (emit s [TCursorOff])) = Some x' ->
                 exists b, aafter (aexec C b c (abs s)) = Some (abss x')).
      { intros c0 Hb0 H0. destruct (exec C c0 (emit s [TCursorOff])) as [[s1 r1]|] eqn:He; [|discriminate].
        pose proof (exec_ref C c0 _ _ _ Hb0 He) as [b Hb]. exists b.
        eapply after_ref; [|exact H0]. intros s2 r2 Hs. injection Hs as <- <-. exact Hb. }
      destruct c; try (apply G; [exact HB|exact H]).
      * exists true. injection H as <-. reflexivity.
      * exists true. apply search_wait_ref in H. rewrite H. reflexivity.
    + exists true. unfold key_quoted in H.
      eapply (after_ref _ _ (let* a := aselfInsert C k (abs s) in Some (a, CONTINUE))) in H.
      * destruct (aselfInsert C k (abs s)); [exact H|discriminate].
      * intros s1 r1 H1. opt H1. injection H1 as <- <-. apply selfInsert_ref in Ev. now rewrite Ev.
    + exists true. unfold key_search in H. unfold akey_search. opt H. destruct s0.
      * apply search_wait_ref in H. rewrite H. reflexivity.
      * eapply (after_ref _ _ (let* a := aaccept ss (abs s) in Some (a, CONTINUE))) in H.
        -- destruct (aaccept ss (abs s)); [exact H|discriminate].
        -- intros s1 r1 H1. unfold continue_ in H1. opt H1. injection H1 as <- <-.
           apply search_accept_ref in Ev0.
           change (abs (GotoHead (emit s [TCursorOff]))) with (abs s) in Ev0. now rewrite Ev0.
      * eapply (after_ref _ _ (Some (abs s, CONTINUE))) in H; [exact H|].
        intros s1 r1 H1. unfold continue_ in H1. opt H1. injection H1 as <- <-.
        apply search_cancel_ref in Ev0. now rewrite Ev0.
  - exists true. destruct m.
    + injection H as <-. reflexivity.
    + eapply (after_ref _ _ (Some (abs s, CONTINUE))) in H; [exact H|].
      intros s1 r1 H1. injection H1 as <- <-. reflexivity.
    + eapply (after_ref _ _ (Some (abs s, CONTINUE))) in H; [exact H|].
      intros s1 r1 H1. injection H1 as <- <-. reflexivity.
  - exists true. destruct m; try (injection H as <-; reflexivity).
    opt H. injection H as <-. apply on_resize_ref in Ev. rewrite <- Ev. reflexivity.
  - exists true. injection H as <-. reflexivity.
Qed.

(** Invariants of the display-free session are invariants of the session. *)
Lemma run_inv (I : asess -> Prop) : builtin_keys ->
  (forall b e x x', I x -> astep b e x = Some x' -> I x') ->
  forall es x x', I (abss x) -> run S es x = Some x' -> I (abss x').
Proof.
  intros HB HS. induction es as [|e es IH]; intros x x' Hi H; cbn [run] in H.
  - injection H as <-. exact Hi.
  - opt H. eapply IH; [|exact H]. apply step_ref in Ev as [b Hb]; [|exact HB]. eapply HS; eauto.
Qed.

Definition astart (default : str) (cur : Z) (cl : option str) : astate :=
  let n := zlen (units E default) in
  aupdate C (mkA (units E default) (if n <? cur then n else cur)
                 [mkUndo 0 n []] [] (zlen (hist C)) [] cl []).

Lemma start_ref default cur w cl x : start S default cur w cl = Some x ->
  abss x = ARunning MNormal (astart default cur cl).
Proof.
  unfold start, astart. intros H. destruct (callPromptWriter E (prompt C)) as [t pw]. opt H.
  injection H as <-. cbn [abss]. rewrite abs_emit. f_equal.
  unfold RepaintAfterPrompt in Ev0. apply repaint_ref in Ev0. rewrite Ev0. f_equal.
  rewrite abs_ResetViewStart.
  apply InsertString_ref in Ev as [Ei _].
  match type of Ei with ains (abs ?y) _ _ = _ => assert (Ha : abs y = mkA [] cur [] [] (zlen (hist C)) [] cl []) by (destruct (_ <=? _); reflexivity) end.
  rewrite Ha in Ei. unfold ains in Ei. cbn [aline] in Ei.
  assert (Hi : forall l : list moji, sliceInsert [] 0 l = Some l).
  { intros l. rewrite sliceInsert_firstn by (unfold zlen; cbn; lia). cbn. now rewrite app_nil_r. }
  rewrite Hi in Ei. apply (f_equal (fun o => match o with Some y => y | None => abs b end)) in Ei.
  assert (Hz : zlen (cells b) = zlen (units E default)).
  { rewrite <- zlen_emojis. change (emojis (cells b)) with (aline (abs b)). rewrite <- Ei. reflexivity. }
  assert (Hcu : cursor b = cur) by (change (cursor b) with (acur (abs b)); rewrite <- Ei; reflexivity).
  rewrite Hz, Hcu. destruct (zlen (units E default) <? cur).
  - rewrite abs_set_cursor, <- Ei. reflexivity.
  - rewrite <- Ei. reflexivity.
Qed.

End WithCfg.
