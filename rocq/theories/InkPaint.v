(** What the painting functions write, with colours. *)
From Coq Require Import Sorting.Permutation.
From Verif Require Import Base Utf8 Moji Color Prompt Buffer Commands KeyMap Session MojiFacts Abs AbsRef AbsSess
  AbsSafe AbsInv Safe Spec SpecScreen ScreenFacts ScreenPaint SpecPaint PaintFacts SpecInk InkFacts.
Ltac lia := unfold rune in *; Lia.lia.

(** ** Parts *)
Lemma ipart_skip l a b : 0 <= a <= b -> ipart l a b = skipn (Z.to_nat a) (firstn (Z.to_nat b) l).
Proof. intros H. unfold ipart. rewrite firstn_skipn_comm. do 2 f_equal. lia. Qed.
Lemma ipart_same l l' a b : 0 <= a <= b -> firstn (Z.to_nat b) l = firstn (Z.to_nat b) l' -> ipart l a b = ipart l' a b.
Proof. intros H He. now rewrite !ipart_skip, He. Qed.
Lemma ipart_split l a b c : 0 <= a <= b -> b <= c -> ipart l a c = ipart l a b ++ ipart l b c.
Proof.
  intros H1 H2. unfold ipart. replace (Z.to_nat (c - a)) with (Z.to_nat (b - a) + Z.to_nat (c - b))%nat by lia.
  rewrite <- (firstn_skipn (Z.to_nat (b - a)) (skipn (Z.to_nat a) l)) at 1.
  destruct (Nat.le_gt_cases (Z.to_nat (b - a)) (List.length (skipn (Z.to_nat a) l))) as [Hl|Hl].
  - rewrite firstn_app. rewrite firstn_length_le by exact Hl. rewrite (firstn_all2 (firstn _ _)) by (rewrite firstn_length_le by exact Hl; lia).
    f_equal. rewrite skipn_skipn'. do 2 f_equal; lia.
  - assert (Hs : skipn (Z.to_nat (b - a)) (skipn (Z.to_nat a) l) = []) by (apply skipn_all2; lia).
    rewrite Hs, app_nil_r. rewrite skipn_skipn' in Hs. replace (Z.to_nat a + Z.to_nat (b - a))%nat with (Z.to_nat b) in Hs by lia.
    rewrite Hs, firstn_nil, app_nil_r. rewrite firstn_firstn. f_equal. lia.
Qed.
Lemma ipart_nil l a : ipart l a a = [].
Proof. unfold ipart. now rewrite Z.sub_diag. Qed.
Lemma ipart_fst l a b : map fst (ipart l a b) = part (map fst l) a b.
Proof. unfold ipart, part. now rewrite <- firstn_map, <- skipn_map. Qed.

(** ** The colours of a line, without the marker *)
Fixpoint binked_from (K : coloring) (before l : list moji) : list painted :=
  match l with
  | [] => []
  | m :: l' => (m, Colour (answer K (runes (written (before ++ [m]))))) :: binked_from K (before ++ [m]) l'
  end.
Definition binked (K : coloring) (l : list moji) : list painted := binked_from K [] l.
Definition bshows (C : cfg) (s : buf) := ishows C (binked (ccol C) (line s)) s.
Definition bshown (C : cfg) (s : buf) (sc : iscreen) : Prop := exists k pred, bshows C s sc k pred.
Definition binks_right (C : cfg) (x : sess) (sc : iscreen) : Prop :=
  match x with
  | Running (MSearch _) _ => True
  | Running _ s => bshown C s sc
  | Finished _ _ _ => True
  end.
Section Inked.
Variable K : coloring.
Lemma binked_from_fst l : forall p, map fst (binked_from K p l) = l.
Proof. induction l as [|m l IH]; intros p; [reflexivity|]. cbn [binked_from map fst]. now rewrite IH. Qed.
Lemma binked_fst l : map fst (binked K l) = l.
Proof. apply binked_from_fst. Qed.
Lemma binked_from_firstn n : forall l p, firstn n (binked_from K p l) = binked_from K p (firstn n l).
Proof. induction n as [|n IH]; intros [|m l] p; try reflexivity. cbn [firstn binked_from]. now rewrite IH. Qed.
Lemma binked_firstn n l : firstn n (binked K l) = binked K (firstn n l).
Proof. apply binked_from_firstn. Qed.
Lemma binked_part_fst l a b : map fst (ipart (binked K l) a b) = part l a b.
Proof. now rewrite ipart_fst, binked_fst. Qed.
Lemma binked_part_same l l' a b : 0 <= a <= b -> firstn (Z.to_nat b) l = firstn (Z.to_nat b) l' -> ipart (binked K l) a b = ipart (binked K l') a b.
Proof. intros H He. apply ipart_same; [exact H|]. now rewrite !binked_firstn, He. Qed.
Lemma binked_from_nth l : forall p j m, nth_error l j = Some m ->
  nth_error (binked_from K p l) j = Some (m, Colour (answer K (runes (written (p ++ firstn (Datatypes.S j) l))))).
Proof.
  induction l as [|m0 l IH]; intros p [|j] m H; try discriminate; cbn [nth_error binked_from] in *.
  - injection H as ->. reflexivity.
  - rewrite (IH _ _ _ H). change (firstn (Datatypes.S (Datatypes.S j)) (m0 :: l)) with (m0 :: firstn (Datatypes.S j) l). now rewrite <- app_assoc.
Qed.
Lemma binked_length l : List.length (binked K l) = List.length l.
Proof. rewrite <- (map_length fst), binked_fst. reflexivity. Qed.

(** Nor does the order of what came before to an orderless one. *)
Lemma binked_from_app a : forall p b, binked_from K p (a ++ b) = binked_from K p a ++ binked_from K (p ++ a) b.
Proof.
  induction a as [|m a IH]; intros p b; [cbn [app binked_from]; now rewrite app_nil_r|]. cbn [app binked_from]. rewrite IH. now rewrite <- app_assoc.
Qed.
Lemma binked_from_order q : orderless K -> forall p p', Permutation p p' -> Forall moji_valid (p ++ q) -> binked_from K p q = binked_from K p' q.
Proof.
  intros HO. induction q as [|m q IH]; intros p p' HP HV; [reflexivity|]. cbn [binked_from].
  assert (HV1 : Forall moji_valid (p ++ [m])) by (apply Forall_app in HV as [V1 V2]; apply Forall_app; split; [exact V1|]; inversion_clear V2; now repeat constructor).
  assert (HP1 : Permutation (p ++ [m]) (p' ++ [m])) by (now apply Permutation_app_tail).
  assert (HV1' : Forall moji_valid (p' ++ [m])) by (rewrite Forall_forall in *; intros x Hx; apply HV1; eapply Permutation_in; [apply Permutation_sym, HP1|exact Hx]).
  rewrite !runes_written, !flat_map_app by assumption. cbn [flat_map]. rewrite app_nil_r.
  rewrite !answer_app by (apply mrunes_nonempty). f_equal.
  - f_equal. f_equal. apply HO. apply Permutation_app_head. rewrite <- !Permutation_rev. now apply Permutation_flat_map.
  - apply IH; [exact HP1|]. now rewrite <- app_assoc.
Qed.
Lemma binked_swap p a b q k : orderless K -> Forall moji_valid (p ++ [a; b] ++ q) ->
  ipart (binked K (p ++ [b; a] ++ q)) (zlen p + 2) k = ipart (binked K (p ++ [a; b] ++ q)) (zlen p + 2) k.
Proof.
  intros HO HV. unfold binked. rewrite !app_assoc. rewrite !(binked_from_app _ [] q). cbn [app].
  assert (L : forall x y, List.length (binked_from K [] (p ++ [x; y])) = Z.to_nat (zlen p + 2)).
  { intros x y. rewrite <- (map_length fst), binked_from_fst, app_length. cbn. unfold zlen. lia. }
  unfold ipart. rewrite !skipn_app, !L, Nat.sub_diag, (skipn_all2 (binked_from K [] (p ++ [b; a]))), (skipn_all2 (binked_from K [] (p ++ [a; b]))) by (rewrite L; lia). cbn [app skipn]. f_equal.
  apply binked_from_order; [exact HO| |].
  - apply Permutation_app_head. constructor.
  - apply Forall_app in HV as [V1 V2]. apply Forall_app in V2 as [V2 V3]. rewrite <- app_assoc. apply Forall_app. split; [exact V1|]. apply Forall_app. split; [|exact V3].
    inversion_clear V2 as [|? ? X1 X2]. inversion_clear X2. now repeat constructor.
Qed.

(** The marker does not matter to a colouring that does not use it. *)
Hypothesis HB : blind K.
Lemma marked_blind cur l : Forall moji_valid l -> answer K (marked cur l) = answer K (runes (written l)).
Proof.
  intros Hv. unfold marked. destruct ((0 <=? cur) && (cur <? zlen l)) eqn:Hc; [|reflexivity].
  assert (F : Forall moji_valid (firstn (Z.to_nat cur) l) /\ Forall moji_valid (skipn (Z.to_nat cur) l)) by (apply Forall_app; now rewrite firstn_skipn).
  destruct F as [F1 F2]. rewrite <- (firstn_skipn (Z.to_nat cur) l) at 3. rewrite !runes_written by (rewrite ?firstn_skipn; assumption). rewrite flat_map_app.
  set (a := flat_map mrunes (firstn (Z.to_nat cur) l)). set (b := flat_map mrunes (skipn (Z.to_nat cur) l)).
  assert (Hb : b <> []).
  { unfold b. destruct (skipn (Z.to_nat cur) l) as [|m q] eqn:Hs.
    - apply (f_equal (@List.length _)) in Hs. rewrite skipn_length in Hs. cbn in Hs. unfold zlen in Hc. lia.
    - cbn [flat_map]. pose proof (mrunes_nonempty m). destruct (mrunes m); [congruence|discriminate]. }
  change ([marker] ++ b) with (marker :: b). replace (a ++ marker :: b) with ((a ++ [marker]) ++ b) by (now rewrite <- app_assoc).
  rewrite !answer_app by exact Hb. rewrite rev_app_distr. cbn [rev app]. apply HB.
Qed.
Lemma inked_from_blind cur l : forall p, Forall moji_valid (p ++ l) -> inked_from K cur p l = binked_from K p l.
Proof.
  induction l as [|m l IH]; intros p Hv; [reflexivity|]. cbn [inked_from binked_from].
  assert (Hv1 : Forall moji_valid (p ++ [m])) by (apply Forall_app in Hv as [V1 V2]; apply Forall_app; split; [exact V1|]; inversion_clear V2; now repeat constructor).
  rewrite marked_blind by exact Hv1. f_equal. apply IH. now rewrite <- app_assoc.
Qed.
Lemma inked_blind cur l : Forall moji_valid l -> inked K cur l = binked K l.
Proof. intros H. now apply inked_from_blind. Qed.
End Inked.

(** ** Writing *)
Lemma inkify_app a : forall k b, exists k', inkify k (a ++ b) = inkify k a ++ inkify k' b.
Proof.
  induction a as [|t a IH]; intros k b; [now exists k|].
  destruct t; cbn [app inkify]; match goal with |- context [inkify ?k0 (a ++ b)] => destruct (IH k0 b) as [k' ->] end; exists k'; reflexivity.
Qed.
(** The state [s'] comes from [s] by writing [vs], whatever ink was set before. *)
Definition iemits (s s' : buf) (vs : list op) : Prop := exists ts, out s' = out s ++ ts /\ forall k, inkify k ts = vs.
Lemma iemits_trans s s1 s2 a b : iemits s s1 a -> iemits s1 s2 b -> iemits s s2 (a ++ b).
Proof.
  intros (t1 & H1 & K1) (t2 & H2 & K2). exists (t1 ++ t2). rewrite H2, H1, app_assoc. split; [reflexivity|].
  intros k. destruct (inkify_app t1 k t2) as [k' ->]. now rewrite K1, K2.
Qed.
Lemma iemits_same s s' : out s' = out s -> iemits s s' [].
Proof. intros H. exists []. rewrite app_nil_r. auto. Qed.
Definition wordless (ts : list tok) : Prop := forall m, ~ In (TMoji m) ts.
Lemma wordless_ink ts : wordless ts -> forall k k', inkify k ts = inkify k' ts.
Proof.
  induction ts as [|t ts IH]; intros H k k'; [reflexivity|]. assert (Ht : wordless ts) by (intros m Hm; apply (H m); now right). specialize (IH Ht).
  destruct t; cbn [inkify]; try (f_equal; now apply IH); try (now apply IH); exfalso; eapply H; left; reflexivity.
Qed.
Lemma iemits_wordless s s' ts : out s' = out s ++ ts -> wordless ts -> exists vs, iemits s s' vs.
Proof. intros H Hw. exists (inkify Before ts). exists ts. split; [exact H|]. intros k. now apply wordless_ink. Qed.

Section Screen.
Variable C : cfg.
Notation E := (cE C).
Notation K := (ccol C).
Hypothesis HB : blind K.
Hypothesis HT : true_colours K.

(** Lines without tabs whose units reach the colouring as they are written. *)
Definition ni (l : list moji) : Prop := nt l /\ Forall moji_valid l /\ Forall (fun m => heard_as_is m = true) l.
Lemma ni_nt l : ni l -> nt l. Proof. intros H. apply H. Qed.

Lemma paint_ink l : forall color ts col k0, paint C color l = Some (ts, col) -> (color = -1 \/ k0 = Colour color) -> Forall (fun c => c_color c <> -1) l ->
  inkify k0 ts = map (fun c => OUnit (c_moji c, Colour (c_color c))) l.
Proof.
  induction l as [|c l IH]; intros color ts col k0 H Hc Hn; cbn [paint] in H; [injection H as <- _; reflexivity|].
  inversion Hn as [|? ? Hn1 Hn2]; subst. destruct (print E (c_moji c)); [|discriminate]. destruct (paint C (c_color c) l) as [[ts1 col1]|] eqn:Hp; [|discriminate].
  injection H as <- _. cbn [map]. rewrite <- (IH _ _ _ (Colour (c_color c)) Hp (or_intror eq_refl) Hn2).
  destruct (c_color c =? color) eqn:Hq; cbn [app inkify]; [|reflexivity].
  assert (k0 = Colour (c_color c)) by (destruct Hc; [lia|subst; f_equal; lia]). now subst.
Qed.
Lemma nth_error_ext {A} (l l' : list A) : (forall i, nth_error l i = nth_error l' i) -> l = l'.
Proof.
  revert l'. induction l as [|a l IH]; intros [|b l'] H; try reflexivity; try (specialize (H 0%nat); discriminate).
  f_equal; [specialize (H 0%nat); now injection H|]. apply IH. intros i. exact (H (Datatypes.S i)).
Qed.
Lemma puts_ink s a b s' : ni (line s) -> puts C s a b = Some s' -> iemits s s' (om (ipart (binked K (line s)) a b)).
Proof.
  intros (Hn & Hv & Hh) H. pose proof (puts_colours C s a b s' H Hv Hh) as Hcol. pose proof (paints_fields _ _ (puts_paints C s a b s' H)) as (HL & _).
  unfold puts in H. destruct (refreshColor C s) as [s1|] eqn:Hr; [|discriminate].
  destruct (slice (cells s1) a b) as [seg|] eqn:Hs; [|discriminate]. destruct (paint C (-1) seg) as [[ts k]|] eqn:Hpt; [|discriminate]. injection H as <-.
  assert (Ho : out s1 = out s). { unfold refreshColor in Hr. destruct (refresh_loop C (cursor s) 0 0 [] (cells s)) as [[l p]|]; [|discriminate]. injection Hr as <-. reflexivity. }
  cbn [cells emit] in Hcol. change (map emoji (cells s1) = line s) in HL.
  assert (Hall : map (fun c => (c_moji c, Colour (c_color c))) (cells s1) = binked K (line s)).
  { apply nth_error_ext. intros i. rewrite nth_error_map. destruct (nth_error (cells s1) i) as [c|] eqn:Hi; cbn [option_map].
    - specialize (Hcol i c Hi). assert (Hm : nth_error (line s) i = Some (c_moji c)).
      { rewrite <- HL, nth_error_map, Hi. cbn [option_map]. f_equal.
        assert (Hc : In (emoji c) (line s)) by (rewrite <- HL; apply in_map, nth_error_In with (n := i); exact Hi).
        unfold nt in Hn. rewrite Forall_forall in Hn. specialize (Hn _ Hc). unfold emoji in *. rewrite has_tab_erase in Hn. now apply erase_nt. }
      unfold binked. rewrite (binked_from_nth K _ _ _ _ Hm). cbn [app]. do 3 f_equal. rewrite Hcol. apply marked_blind; [exact HB|].
      rewrite <- (firstn_skipn (Datatypes.S i) (line s)) in Hv. now apply Forall_app in Hv.
    - symmetry. apply nth_error_None. rewrite binked_length. apply nth_error_None in Hi. rewrite <- HL. now rewrite map_length. }
  assert (Hn1 : Forall (fun c => c_color c <> -1) seg).
  { apply slice_split in Hs as (p & q & Hs & _). apply Forall_forall. intros c Hc. assert (Hi : In c (cells s1)) by (rewrite Hs; apply in_or_app; right; apply in_or_app; now left).
    apply In_nth_error in Hi as [i Hi]. rewrite (Hcol i c Hi). apply HT. }
  exists (ts ++ (if k =? c_init K then [] else [TColor (c_init K)])). cbn [out emit]. rewrite Ho. split; [reflexivity|]. intros k0.
  destruct (inkify_app ts k0 (if k =? c_init K then [] else [TColor (c_init K)])) as [k' ->].
  replace (inkify k' _) with (@nil op) by (destruct (k =? c_init K); reflexivity). rewrite app_nil_r. rewrite (paint_ink _ _ _ _ _ Hpt (or_introl eq_refl) Hn1).
  unfold om. rewrite <- Hall. rewrite <- (map_map (fun c => (c_moji c, Colour (c_color c))) OUnit). f_equal.
  apply slice_some in Hs as (_ & _ & ->). unfold ipart. now rewrite <- firstn_map, <- skipn_map.
Qed.
End Screen.
