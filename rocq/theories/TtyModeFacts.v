(** Proofs for C62. *)
From Verif Require Import Base Utf8 KeyInput TtyMode SpecTtyMode.

Section Facts.
Variable cook : Z -> str.

Definition MI (r0 : bool) (s : state10) : Prop :=
  match at10 s with
  | Outside _ => raw (drv s) = r0
  | Reading old | Leaving old _ => raw (drv s) = true /\ old = r0
  end.
Lemma mi_go r0 n ok s : MI r0 s -> MI r0 (go n ok s).
Proof.
  unfold MI, go. destruct s as [d a g]. cbn [at10 drv got]. destruct a as [[|b t]|old|old r].
  - cbn. intros H. now split.
  - unfold tty10_cut. destruct (decode_rune (b :: t)) as [r size]. destruct (r =? 27); cbn; intros H; exact H.
  - destruct ok; cbn [negb]; [|now cbn]. destruct (queue d); cbn; intros H; exact H.
  - cbn. intros [_ H]. exact H.
Qed.
Lemma mi_acts r0 l s : MI r0 s -> MI r0 (acts10 cook l s).
Proof.
  revert s. induction l as [|a l IH]; intros s H; [exact H|]. cbn [acts10 fold_left]. apply IH. destruct a as [b|n ok]; [exact H|]. now apply mi_go.
Qed.
Lemma mode_kept r0 l : let s := acts10 cook l (start10 r0) in
  (forall b, at10 s = Outside b -> raw (drv s) = r0) /\ ((forall b, at10 s <> Outside b) -> raw (drv s) = true).
Proof.
  pose proof (mi_acts r0 l (start10 r0) eq_refl) as H. cbv zeta. unfold MI in H.
  destruct (at10 (acts10 cook l (start10 r0))) as [b|old|old r]; split; try discriminate; intros; try tauto; try exact H. destruct (H0 b eq_refl).
Qed.

Lemma cut_bytes b k m : tty10_cut b [] = (Key10 k, m) -> k ++ buf10 m = b.
Proof.
  unfold tty10_cut. destruct (decode_rune b) as [r size]. destruct (r =? 27); intros H; injection H as <- <-; cbn [buf10]; [apply app_nil_r|apply firstn_skipn].
Qed.
Lemma go_bytes n ok s : List.concat (got (go n ok s)) ++ rest10 (go n ok s) = List.concat (got s) ++ rest10 s.
Proof.
  unfold go. destruct s as [d a g]. cbn [at10 drv got]. destruct a as [[|b t]|old|old r].
  - reflexivity.
  - destruct (tty10_cut (b :: t) []) as [[k| |] m] eqn:E; try reflexivity. apply cut_bytes in E. unfold rest10. cbn [at10 drv got].
    rewrite concat_app. cbn [List.concat]. rewrite app_nil_r, <- !app_assoc. f_equal. rewrite app_assoc. now rewrite E.
  - destruct ok; cbn [negb]; [|reflexivity]. destruct (queue d) as [|c q] eqn:Eq; [reflexivity|]. unfold rest10. cbn [at10 drv got queue app].
    rewrite Eq. f_equal. apply firstn_skipn.
  - unfold rest10. cbn. destruct r; reflexivity.
Qed.
Lemma typed_arrives l : forall s, (forall l1 b l2, l = l1 ++ Typed b :: l2 -> raw (drv (acts10 cook l1 s)) = true) ->
  List.concat (got (acts10 cook l s)) ++ rest10 (acts10 cook l s) = List.concat (got s) ++ rest10 s ++ typed_of l.
Proof.
  induction l as [|a l IH]; intros s H; [cbn; now rewrite app_nil_r|]. cbn [acts10 fold_left]. fold (acts10 cook l (act1 cook s a)). rewrite IH.
  - destruct a as [b|n ok]; cbn [act1 typed_of flat_map app]; fold (typed_of l).
    + pose proof (H [] b l eq_refl) as Hr. cbn in Hr. unfold rest10, press. cbn [at10 drv got queue]. rewrite Hr, <- !app_assoc. reflexivity.
    + rewrite app_assoc, go_bytes, <- app_assoc. reflexivity.
  - intros l1 b l2 ->. exact (H (a :: l1) b l2 eq_refl).
Qed.
Lemma raw_arrives l : let s := acts10 cook l (start10 true) in List.concat (got s) ++ rest10 s = typed_of l.
Proof.
  cbv zeta. rewrite typed_arrives; [reflexivity|]. intros l1 b l2 _. destruct (mode_kept true l1) as [H1 H2].
  destruct (at10 (acts10 cook l1 (start10 true))) as [x|x|x y] eqn:E; [exact (H1 x eq_refl)|apply H2; discriminate|apply H2; discriminate].
Qed.
End Facts.

(** A check for examples. *)
Fixpoint typed_rawb (cook : Z -> str) (l : list act) (s : state10) : bool :=
  match l with
  | [] => true
  | a :: l' => match a with Typed _ => raw (drv s) | Go _ _ => true end && typed_rawb cook l' (act1 cook s a)
  end.
Lemma typed_rawb_ok cook l : forall s, typed_rawb cook l s = true -> typed_raw cook l s.
Proof.
  induction l as [|a l IH]; intros s H l1 b l2 E; [now destruct l1|]. cbn in H. apply andb_true_iff in H as [H1 H2].
  destruct l1 as [|a' l1]; injection E as -> E; [exact H1|]. exact (IH _ H2 l1 b l2 E).
Qed.
