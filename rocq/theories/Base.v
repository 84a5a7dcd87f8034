(** Basic vocabulary: Go strings, slices and run-time panics.

    - a Go [string] or [[]byte] is a list of bytes, each byte a [Z] in 0..255;
    - a Go [rune] is a [Z];
    - a run-time panic (index or slice bounds out of range) is [None];
    - a Go slice is a list.  Go allows re-slicing up to the capacity; the model
      allows it only up to the length, so [None] stands for "panic, or cells beyond
      the length of the slice are exposed". *)
From Coq Require Export ZArith List Bool Lia ZifyBool String Ascii.
Export ListNotations.
Open Scope Z_scope.
Open Scope list_scope.

Definition str := list Z.
Definition rune := Z.

Notation "'let*' x ':=' a 'in' b" :=
  (match a with Some x => b | None => None end)
  (at level 200, x pattern, a at level 100, b at level 200, right associativity).

(** Literals: the bytes of a Coq string. *)
Fixpoint s2l (s : string) : str :=
  match s with
  | EmptyString => []
  | String a r => Z.of_N (N_of_ascii a) :: s2l r
  end.

(** Go [len]. *)
Definition zlen {A} (l : list A) : Z := Z.of_nat (List.length l).

(** Go [l[a:b]]. *)
Definition slice {A} (l : list A) (a b : Z) : option (list A) :=
  if (0 <=? a) && (a <=? b) && (b <=? zlen l)
  then Some (firstn (Z.to_nat (b - a)) (skipn (Z.to_nat a) l))
  else None.

(** Go [l[i]]. *)
Definition index {A} (l : list A) (i : Z) : option A :=
  if (0 <=? i) then nth_error l (Z.to_nat i) else None.

(** Go [l[i] = x]. *)
Definition set_index {A} (l : list A) (i : Z) (x : A) : option (list A) :=
  if (0 <=? i) && (i <? zlen l)
  then Some (firstn (Z.to_nat i) l ++ x :: skipn (S (Z.to_nat i)) l)
  else None.

(** Go [copy(l[d:e], src)] with the bounds check of [l[d:e]]; [src] is the value of
    the source before the copy, which is what Go's overlap-safe [copy] guarantees. *)
Definition gocopy {A} (l : list A) (d e : Z) (src : list A) : option (list A) :=
  if (0 <=? d) && (d <=? e) && (e <=? zlen l)
  then let n := Nat.min (Z.to_nat (e - d)) (List.length src) in
       Some (firstn (Z.to_nat d) l ++ firstn n src ++ skipn (Z.to_nat d + n) l)
  else None.

(** slice.go:3-14 *)
Definition sliceInsert {A} (l : list A) (at_ : Z) (els : list A) : option (list A) :=
  let s1 := l ++ els in
  let* src := slice s1 at_ (zlen s1) in
  let* s2 := gocopy s1 (at_ + zlen els) (zlen s1) src in
  gocopy s2 at_ (at_ + zlen els) els.

(** slice.go:16-19 *)
Definition sliceDelete {A} (l : list A) (at_ n : Z) : option (list A) :=
  let* src := slice l (at_ + n) (zlen l) in
  let* s1 := gocopy l at_ (zlen l) src in
  slice s1 0 (zlen s1 - n).

(** Equality of byte strings. *)
Fixpoint str_eqb (a b : str) : bool :=
  match a, b with
  | [], [] => true
  | x :: a', y :: b' => (x =? y) && str_eqb a' b'
  | _, _ => false
  end.

(** strings.HasPrefix (standard library). *)
Fixpoint has_prefix (s p : str) : bool :=
  match p, s with
  | [], _ => true
  | y :: p', x :: s' => (x =? y) && has_prefix s' p'
  | _ :: _, [] => false
  end.

(** strings.Index (standard library): position of the first occurrence, -1 if none. *)
Fixpoint str_index (s p : str) : Z :=
  if has_prefix s p then 0
  else match s with
       | [] => -1
       | _ :: s' => let i := str_index s' p in if i <? 0 then -1 else i + 1
       end.

(** strings.Contains (standard library). *)
Definition str_contains (s p : str) : bool := 0 <=? str_index s p.

(** strings.HasSuffix (standard library). *)
Definition has_suffix (s p : str) : bool := has_prefix (rev s) (rev p).

(** int16 conversion. *)
Definition wrap16 (z : Z) : Z := (z + 32768) mod 65536 - 32768.

(** Association lists used for Go maps. *)
Section Assoc.
  Context {K V : Type} (eqb : K -> K -> bool).
  Fixpoint aget (m : list (K * V)) (k : K) : option V :=
    match m with
    | [] => None
    | (k', v) :: m' => if eqb k k' then Some v else aget m' k
    end.
  Definition adel (m : list (K * V)) (k : K) : list (K * V) :=
    filter (fun p => negb (eqb k (fst p))) m.
  Definition aset (m : list (K * V)) (k : K) (v : V) : list (K * V) :=
    (k, v) :: adel m k.
End Assoc.

(** * Lemmas *)

Lemma zlen_nil {A} : zlen (@nil A) = 0. Proof. reflexivity. Qed.
Lemma zlen_cons {A} (x : A) l : zlen (x :: l) = zlen l + 1.
Proof. unfold zlen; cbn [List.length]; lia. Qed.
Lemma zlen_app {A} (l l' : list A) : zlen (l ++ l') = zlen l + zlen l'.
Proof. unfold zlen; rewrite app_length; lia. Qed.
Lemma zlen_nonneg {A} (l : list A) : 0 <= zlen l.
Proof. unfold zlen; lia. Qed.
Lemma zlen_map {A B} (f : A -> B) l : zlen (map f l) = zlen l.
Proof. unfold zlen; now rewrite map_length. Qed.
Lemma zlen_0 {A} (l : list A) : zlen l = 0 -> l = [].
Proof. destruct l; [easy|rewrite zlen_cons; pose proof (zlen_nonneg l); lia]. Qed.
Lemma to_nat_zlen {A} (l : list A) : Z.to_nat (zlen l) = List.length l.
Proof. unfold zlen; lia. Qed.
Lemma zlen_firstn {A} (l : list A) n : zlen (firstn n l) = Z.min (Z.of_nat n) (zlen l).
Proof. unfold zlen; rewrite firstn_length; lia. Qed.
Lemma zlen_skipn {A} (l : list A) n : zlen (skipn n l) = Z.max 0 (zlen l - Z.of_nat n).
Proof. unfold zlen; rewrite skipn_length; lia. Qed.

Lemma str_eqb_refl a : str_eqb a a = true.
Proof. induction a; cbn; [reflexivity|]. now rewrite Z.eqb_refl. Qed.
Lemma str_eqb_eq a b : str_eqb a b = true <-> a = b.
Proof.
  split; [|intros ->; apply str_eqb_refl].
  revert b; induction a as [|x a IH]; intros [|y b]; cbn; try easy.
  intros H; apply andb_true_iff in H as [H1 H2].
  apply Z.eqb_eq in H1; subst. now rewrite (IH _ H2).
Qed.
Lemma str_eqb_neq a b : str_eqb a b = false <-> a <> b.
Proof.
  destruct (str_eqb a b) eqn:E; split; intros H; try easy.
  - apply str_eqb_eq in E. contradiction.
  - intros ->. now rewrite str_eqb_refl in E.
Qed.

Lemma has_prefix_spec s p : has_prefix s p = true <-> exists t, s = p ++ t.
Proof.
  revert s; induction p as [|y p IH]; intros s; cbn.
  - destruct s; (split; [intros _; eexists; reflexivity|intros _; reflexivity]).
  - destruct s as [|x s]; cbn.
    + split; [easy|intros [t Ht]; discriminate].
    + rewrite andb_true_iff, Z.eqb_eq, IH. split.
      * intros [-> [t ->]]. now exists t.
      * intros [t Ht]. injection Ht as -> ->. split; [easy|now exists t].
Qed.

Lemma slice_some {A} (l : list A) a b r :
  slice l a b = Some r <->
  0 <= a <= b /\ b <= zlen l /\ r = firstn (Z.to_nat (b - a)) (skipn (Z.to_nat a) l).
Proof.
  unfold slice. destruct ((0 <=? a) && (a <=? b) && (b <=? zlen l)) eqn:E; split; intros H.
  - injection H as <-. repeat split; lia.
  - destruct H as (H1 & H2 & ->). reflexivity.
  - discriminate.
  - lia.
Qed.

Lemma slice_none {A} (l : list A) a b :
  slice l a b = None <-> ~ (0 <= a <= b /\ b <= zlen l).
Proof.
  unfold slice. destruct ((0 <=? a) && (a <=? b) && (b <=? zlen l)) eqn:E; split; intros H;
    try discriminate; try lia; reflexivity.
Qed.

Lemma slice_ok {A} (l : list A) a b :
  0 <= a <= b -> b <= zlen l ->
  slice l a b = Some (firstn (Z.to_nat (b - a)) (skipn (Z.to_nat a) l)).
Proof. intros; apply slice_some; auto. Qed.

Lemma slice_app_mid {A} (p q r : list A) :
  slice (p ++ q ++ r) (zlen p) (zlen p + zlen q) = Some q.
Proof.
  rewrite slice_ok.
  - f_equal. replace (zlen p + zlen q - zlen p) with (zlen q) by lia.
    rewrite !to_nat_zlen, skipn_app, skipn_all, Nat.sub_diag. cbn [skipn app].
    now rewrite firstn_app, firstn_all, Nat.sub_diag, app_nil_r.
  - pose proof (zlen_nonneg p); pose proof (zlen_nonneg q); lia.
  - rewrite !zlen_app; pose proof (zlen_nonneg r); lia.
Qed.

Lemma slice_from {A} (l : list A) a :
  0 <= a <= zlen l -> slice l a (zlen l) = Some (skipn (Z.to_nat a) l).
Proof.
  intros H. rewrite slice_ok by lia. f_equal. apply firstn_all2.
  rewrite skipn_length. unfold zlen in *. lia.
Qed.

Lemma slice_to {A} (l : list A) b :
  0 <= b <= zlen l -> slice l 0 b = Some (firstn (Z.to_nat b) l).
Proof. intros H. rewrite slice_ok by lia. cbn [Z.to_nat skipn]. now rewrite Z.sub_0_r. Qed.

(** [sliceInsert] puts the elements at the given position and keeps everything else in
    order; it panics exactly if the position is outside the slice. *)
Lemma sliceInsert_spec {A} (p q els : list A) :
  sliceInsert (p ++ q) (zlen p) els = Some (p ++ els ++ q).
Proof.
  unfold sliceInsert.
  pose proof (zlen_nonneg p) as Hp; pose proof (zlen_nonneg q) as Hq; pose proof (zlen_nonneg els) as He.
  rewrite slice_from by (rewrite !zlen_app; lia).
  rewrite to_nat_zlen, <- app_assoc, skipn_app, skipn_all, Nat.sub_diag. cbn [skipn app].
  assert (HL : List.length (p ++ q ++ els) = (List.length p + List.length q + List.length els)%nat)
    by (rewrite !app_length; lia).
  assert (E2 : gocopy (p ++ q ++ els) (zlen p + zlen els) (zlen (p ++ q ++ els)) (q ++ els)
          = Some (firstn (List.length p + List.length els) (p ++ q ++ els) ++ q)).
  { unfold gocopy.
    replace (_ && _ && _) with true by (rewrite !zlen_app; lia). f_equal.
    replace (Z.to_nat (zlen p + zlen els)) with (List.length p + List.length els)%nat by (unfold zlen; lia).
    f_equal.
    replace (Z.to_nat (zlen (p ++ q ++ els) - (zlen p + zlen els))) with (List.length q)
      by (rewrite !zlen_app; unfold zlen; lia).
    rewrite app_length.
    replace (Nat.min (List.length q) (List.length q + List.length els)) with (List.length q) by lia.
    rewrite firstn_app, firstn_all, Nat.sub_diag. cbn [firstn]. rewrite app_nil_r.
    rewrite skipn_all2 by lia. now rewrite app_nil_r. }
  rewrite E2. unfold gocopy.
  assert (HF : List.length (firstn (List.length p + List.length els) (p ++ q ++ els) ++ q)
               = (List.length p + List.length els + List.length q)%nat).
  { rewrite app_length, firstn_length. lia. }
  replace (_ && _ && _) with true by (unfold zlen; rewrite HF; lia).
  f_equal.
  replace (Z.to_nat (zlen p + zlen els - zlen p)) with (List.length els) by (unfold zlen; lia).
  rewrite Nat.min_id, to_nat_zlen, firstn_all.
  f_equal; [|f_equal].
  - rewrite firstn_app, firstn_length.
    replace (List.length p - _)%nat with 0%nat by lia. cbn [firstn]. rewrite app_nil_r.
    rewrite firstn_firstn. replace (Nat.min _ _) with (List.length p) by lia.
    now rewrite firstn_app, firstn_all, Nat.sub_diag, app_nil_r.
  - rewrite skipn_app. rewrite skipn_all2 by (rewrite firstn_length; lia). cbn [app].
    rewrite firstn_length. replace (_ - _)%nat with 0%nat by lia. reflexivity.
Qed.

Lemma split_at {A} (l : list A) n : 0 <= n <= zlen l ->
  exists p q, l = p ++ q /\ zlen p = n.
Proof.
  intros H. exists (firstn (Z.to_nat n) l), (skipn (Z.to_nat n) l).
  split; [now rewrite firstn_skipn|]. rewrite zlen_firstn. lia.
Qed.

Lemma sliceInsert_firstn {A} (l : list A) n els : 0 <= n <= zlen l ->
  sliceInsert l n els = Some (firstn (Z.to_nat n) l ++ els ++ skipn (Z.to_nat n) l).
Proof.
  intros H. destruct (split_at l n H) as (p & q & -> & <-).
  rewrite sliceInsert_spec. rewrite to_nat_zlen, firstn_app, skipn_app, firstn_all, skipn_all,
    Nat.sub_diag. cbn [firstn skipn app]. now rewrite app_nil_r.
Qed.

Lemma sliceInsert_none {A} (l : list A) n els :
  ~ (0 <= n <= zlen l) -> sliceInsert l n els = None.
Proof.
  intros H. unfold sliceInsert.
  destruct (slice (l ++ els) n (zlen (l ++ els))) eqn:E; [|reflexivity].
  apply slice_some in E as (H1 & H2 & _). rewrite zlen_app in H1.
  unfold gocopy at 1. replace (_ && _ && _) with false; [reflexivity|].
  rewrite zlen_app. symmetry. apply not_true_is_false. intros H3. lia.
Qed.

(** [sliceDelete] removes exactly the given range; it panics exactly if the range is
    not inside the slice (for a non-negative count). *)
Lemma sliceDelete_spec {A} (p d q : list A) :
  sliceDelete (p ++ d ++ q) (zlen p) (zlen d) = Some (p ++ q).
Proof.
  unfold sliceDelete.
  pose proof (zlen_nonneg p) as Hp; pose proof (zlen_nonneg q) as Hq; pose proof (zlen_nonneg d) as Hd.
  rewrite slice_from by (rewrite !zlen_app; lia).
  replace (Z.to_nat (zlen p + zlen d)) with (List.length p + List.length d)%nat by (unfold zlen; lia).
  assert (ES : skipn (List.length p + List.length d) (p ++ d ++ q) = q).
  { rewrite app_assoc, <- app_length, skipn_app, skipn_all, Nat.sub_diag. reflexivity. }
  rewrite ES.
  unfold gocopy. replace (_ && _ && _) with true by (rewrite !zlen_app; lia).
  replace (Z.to_nat (zlen (p ++ d ++ q) - zlen p)) with (List.length d + List.length q)%nat
    by (rewrite !zlen_app; unfold zlen; lia).
  replace (Nat.min _ _) with (List.length q) by lia.
  rewrite to_nat_zlen, firstn_app, firstn_all, Nat.sub_diag. cbn [firstn]. rewrite app_nil_r, firstn_all.
  set (junk := skipn _ _).
  assert (HJ : List.length junk = List.length d).
  { unfold junk. rewrite skipn_length, !app_length. lia. }
  rewrite app_assoc. rewrite slice_to by (rewrite !zlen_app; unfold zlen; lia).
  f_equal. replace (Z.to_nat _) with (List.length (p ++ q)) by (rewrite !zlen_app; unfold zlen; rewrite app_length; lia).
  now rewrite firstn_app, firstn_all, Nat.sub_diag, app_nil_r.
Qed.

Lemma sliceDelete_firstn {A} (l : list A) a n : 0 <= a -> 0 <= n -> a + n <= zlen l ->
  sliceDelete l a n = Some (firstn (Z.to_nat a) l ++ skipn (Z.to_nat (a + n)) l).
Proof.
  intros Ha Hn Hl.
  destruct (split_at l a ltac:(lia)) as (p & t & -> & <-).
  rewrite zlen_app in Hl. destruct (split_at t n ltac:(lia)) as (d & q & -> & <-).
  rewrite sliceDelete_spec. f_equal.
  replace (Z.to_nat (zlen p + zlen d)) with (List.length (p ++ d)) by (unfold zlen; rewrite app_length; lia).
  rewrite to_nat_zlen, firstn_app, firstn_all, Nat.sub_diag. cbn [firstn]. rewrite app_nil_r.
  f_equal. rewrite app_assoc, skipn_app, skipn_all, Nat.sub_diag. reflexivity.
Qed.

Lemma sliceDelete_none {A} (l : list A) a n :
  0 <= n -> ~ (0 <= a /\ a + n <= zlen l) -> sliceDelete l a n = None.
Proof.
  intros Hn H. unfold sliceDelete.
  destruct (slice l (a + n) (zlen l)) eqn:E; [|reflexivity].
  apply slice_some in E as (H1 & H2 & _).
  unfold gocopy. replace (_ && _ && _) with false; [reflexivity|].
  symmetry. apply not_true_is_false. intros H3. lia.
Qed.

Lemma index_some {A} (l : list A) i x : index l i = Some x -> 0 <= i < zlen l.
Proof.
  unfold index. destruct (0 <=? i) eqn:E; [|discriminate]. intros H.
  assert (Z.to_nat i < List.length l)%nat by (apply nth_error_Some; congruence).
  unfold zlen. lia.
Qed.

Lemma index_lt {A} (l : list A) i : 0 <= i < zlen l -> exists x, index l i = Some x.
Proof.
  unfold index, zlen. intros H. replace (0 <=? i) with true by lia.
  destruct (nth_error l (Z.to_nat i)) eqn:E; [eauto|].
  apply nth_error_None in E. lia.
Qed.

Lemma index_none {A} (l : list A) i : index l i = None <-> ~ (0 <= i < zlen l).
Proof.
  split.
  - intros H H2. destruct (index_lt l i H2) as [x E]. congruence.
  - intros H. destruct (index l i) eqn:E; [|reflexivity]. apply index_some in E. contradiction.
Qed.

Lemma index_app_mid {A} (p : list A) x q : index (p ++ x :: q) (zlen p) = Some x.
Proof.
  unfold index. pose proof (zlen_nonneg p). replace (0 <=? zlen p) with true by lia.
  rewrite to_nat_zlen, nth_error_app2, Nat.sub_diag by lia. reflexivity.
Qed.

Lemma index_map {A B} (f : A -> B) l i : index (map f l) i = option_map f (index l i).
Proof. unfold index. destruct (0 <=? i); [apply nth_error_map|reflexivity]. Qed.

Lemma slice_map {A B} (f : A -> B) l a b : slice (map f l) a b = option_map (map f) (slice l a b).
Proof.
  unfold slice. rewrite zlen_map. destruct (_ && _ && _); [|reflexivity].
  cbn [option_map]. now rewrite <- firstn_map, <- skipn_map.
Qed.

Lemma index_split {A} (l : list A) i x : index l i = Some x ->
  l = firstn (Z.to_nat i) l ++ x :: skipn (S (Z.to_nat i)) l.
Proof.
  unfold index. destruct (0 <=? i) eqn:Ei; [|discriminate]. generalize (Z.to_nat i). clear.
  induction l as [|y l IH]; intros [|n] H; cbn in *; try discriminate.
  - now injection H as ->.
  - f_equal. now apply IH.
Qed.

Lemma wrap16_id z : -32768 <= z < 32768 -> wrap16 z = z.
Proof. unfold wrap16. intros H. rewrite Z.mod_small; lia. Qed.
Lemma wrap16_range z : -32768 <= wrap16 z < 32768.
Proof. unfold wrap16. pose proof (Z.mod_pos_bound (z + 32768) 65536 ltac:(lia)). lia. Qed.

Section AssocLemmas.
  Context {K V : Type} (eqb : K -> K -> bool) (Heqb : forall a b, eqb a b = true <-> a = b).
  Lemma aget_adel_same (m : list (K * V)) k : aget eqb (adel eqb m k) k = None.
  Proof.
    induction m as [|[k' v] m IH]; cbn; [reflexivity|].
    destruct (eqb k k') eqn:E; cbn; [exact IH|]. now rewrite E.
  Qed.
  Lemma aget_adel_other (m : list (K * V)) k k' : k <> k' -> aget eqb (adel eqb m k) k' = aget eqb m k'.
  Proof.
    intros N. induction m as [|[k2 v] m IH]; cbn; [reflexivity|].
    destruct (eqb k k2) eqn:E; cbn.
    - destruct (eqb k' k2) eqn:E2; [|exact IH].
      apply Heqb in E, E2. congruence.
    - destruct (eqb k' k2); [reflexivity|exact IH].
  Qed.
  Lemma aget_aset_same (m : list (K * V)) k v : aget eqb (aset eqb m k v) k = Some v.
  Proof. cbn. assert (eqb k k = true) as -> by now apply Heqb. reflexivity. Qed.
  Lemma aget_aset_other (m : list (K * V)) k k' v :
    k <> k' -> aget eqb (aset eqb m k v) k' = aget eqb m k'.
  Proof.
    intros N. cbn. destruct (eqb k' k) eqn:E.
    - apply Heqb in E. congruence.
    - now apply aget_adel_other.
  Qed.
End AssocLemmas.

Lemma slice_split {A} (l : list A) a b d : slice l a b = Some d ->
  exists p q, l = p ++ d ++ q /\ zlen p = a /\ zlen d = b - a.
Proof.
  intros H. apply slice_some in H as (H1 & H2 & ->).
  exists (firstn (Z.to_nat a) l), (skipn (Z.to_nat (b - a)) (skipn (Z.to_nat a) l)).
  rewrite firstn_skipn, firstn_skipn. split; [reflexivity|].
  rewrite !zlen_firstn, zlen_skipn. lia.
Qed.

Lemma slice_ex {A} (l : list A) a b : 0 <= a <= b -> b <= zlen l ->
  exists d p q, slice l a b = Some d /\ l = p ++ d ++ q /\ zlen p = a /\ zlen d = b - a.
Proof.
  intros H1 H2. destruct (slice l a b) as [d|] eqn:E.
  - exists d. pose proof (slice_split _ _ _ _ E) as (p & q & H). exists p, q. tauto.
  - apply slice_none in E. lia.
Qed.

Lemma firstn_zlen_app {A} (p q : list A) : firstn (Z.to_nat (zlen p)) (p ++ q) = p.
Proof. rewrite to_nat_zlen, firstn_app, firstn_all, Nat.sub_diag, firstn_O. apply app_nil_r. Qed.
Lemma skipn_zlen_app {A} (p q : list A) : skipn (Z.to_nat (zlen p)) (p ++ q) = q.
Proof. rewrite to_nat_zlen, skipn_app, skipn_all, Nat.sub_diag. reflexivity. Qed.
Lemma sliceInsert_nil {A} (l : list A) : sliceInsert [] 0 l = Some l.
Proof. pose proof (sliceInsert_spec [] [] l) as H. cbn [app] in H. rewrite app_nil_r in H. exact H. Qed.
