(** The iscreen with colours: writing units, overwriting and erasing.  ScreenFacts.v again, with the ink of each unit. *)
From Verif Require Import Base Utf8 Moji Color Prompt Buffer Commands KeyMap Session MojiFacts Abs AbsRef AbsSess
  AbsSafe AbsInv Safe Spec SpecScreen SpecPaint ScreenFacts SpecInk.
Ltac lia := unfold rune in *; Lia.lia.

Section Screen.
Variable E : env.
Variable other : iterminal.
Notation D := (idisplay E other).
Definition itotal (l : list painted) : Z := total_width E (map fst l).
Notation W := itotal.
Notation ok := (Forall (fun m => 0 <= iwidth E m)).

Lemma iW_app a b : W (a ++ b) = W a + W b.
Proof. unfold itotal. rewrite map_app. apply ScreenFacts.W_app. Qed.
Lemma iW_cons m l : W (m :: l) = iwidth E m + W l. Proof. reflexivity. Qed.
Lemma iW_nil : W [] = 0. Proof. reflexivity. Qed.
Lemma iW_nonneg l : ok l -> 0 <= W l.
Proof. induction 1; [reflexivity|]. rewrite iW_cons. lia. Qed.
Lemma iD_app a b sc : D (a ++ b) sc = D b (D a sc).
Proof. apply fold_left_app. Qed.

(** ** Images *)
Lemma iimage_old l : forall c x r i, iimage E c l x = IOld r i -> False.
Proof. induction l as [|m l IH]; intros c x r i H; cbn [iimage] in H; [discriminate|]. destruct (_ && _); [discriminate|]. now apply IH in H. Qed.
(** Every part of an iimage belongs to one of the units. *)
Lemma iimage_part l : forall c x m i, ok l -> iimage E c l x = IPart m i ->
  exists l1 l2, l = l1 ++ m :: l2 /\ x - i = c + W l1 /\ 0 <= i < iwidth E m.
Proof.
  induction l as [|m0 l IH]; intros c x m i Hok H; cbn [iimage] in H; [discriminate|]. inversion Hok as [|? ? H0 Hl]; subst.
  destruct ((c <=? x) && (x <? c + iwidth E m0)) eqn:Hc.
  - injection H as <- <-. exists [], l. split; [reflexivity|]. rewrite iW_nil. split; lia.
  - apply IH in H as (l1 & l2 & -> & Hx & Hi); [|exact Hl]. exists (m0 :: l1), l2. split; [reflexivity|]. rewrite iW_cons. split; lia.
Qed.
Lemma iimage_at l1 m l2 : forall c x, ok l1 -> c + W l1 <= x < c + W l1 + iwidth E m -> iimage E c (l1 ++ m :: l2) x = IPart m (x - (c + W l1)).
Proof.
  induction l1 as [|m0 l1 IH]; intros c x Hok Hx; cbn [app iimage].
  - rewrite iW_nil in *. replace ((c <=? x) && (x <? c + iwidth E m)) with true by lia. f_equal. lia.
  - inversion Hok as [|? ? H0 Hl]; subst. rewrite iW_cons in *. pose proof (iW_nonneg l1 Hl).
    replace ((c <=? x) && (x <? c + iwidth E m0)) with false by lia. rewrite IH by (auto; lia). f_equal. lia.
Qed.
Lemma iimage_after l : forall c x, ok l -> c + W l <= x -> iimage E c l x = IBlank.
Proof.
  induction l as [|m l IH]; intros c x Hok Hx; cbn [iimage]; [reflexivity|]. inversion Hok as [|? ? H0 Hl]; subst.
  rewrite iW_cons in Hx. pose proof (iW_nonneg l Hl). replace ((c <=? x) && (x <? c + iwidth E m)) with false by lia. apply IH; [exact Hl|lia].
Qed.
Lemma iimage_before l : forall c x, ok l -> x < c -> iimage E c l x = IBlank.
Proof.
  induction l as [|m l IH]; intros c x Hok Hx; cbn [iimage]; [reflexivity|]. inversion Hok as [|? ? H0 Hl]; subst.
  replace ((c <=? x) && (x <? c + iwidth E m)) with false by lia. apply IH; [exact Hl|lia].
Qed.
Lemma iimage_pre l r : forall c x, ok l -> x < c + W l -> ok r -> iimage E c (l ++ r) x = iimage E c l x.
Proof.
  induction l as [|m l IH]; intros c x Hok Hx Hr; cbn [app iimage].
  - rewrite iW_nil in Hx. apply iimage_before; [exact Hr|lia].
  - inversion Hok as [|? ? H0 Hl]; subst. rewrite iW_cons in Hx. destruct (_ && _); [reflexivity|]. apply IH; auto. lia.
Qed.
Lemma iimage_post l r : forall c x, ok l -> c + W l <= x -> iimage E c (l ++ r) x = iimage E (c + W l) r x.
Proof.
  induction l as [|m l IH]; intros c x Hok Hx; cbn [app iimage].
  - rewrite iW_nil. now rewrite Z.add_0_r.
  - inversion Hok as [|? ? H0 Hl]; subst. rewrite iW_cons in *. pose proof (iW_nonneg l Hl).
    replace ((c <=? x) && (x <? c + iwidth E m)) with false by lia. rewrite IH by (auto; lia). now rewrite Z.add_assoc.
Qed.

(** ** Writing *)
Definition om (l : list painted) : list op := map OUnit l.
Lemma iD_tm_cons m l sc : D (om (m :: l)) sc = D (om l) (iput E other m sc). Proof. reflexivity. Qed.
Lemma icol_tm l : forall sc, icol (D (om l) sc) = icol sc + W l.
Proof. induction l as [|m l IH]; intros sc; [rewrite iW_nil; cbn; lia|]. rewrite iD_tm_cons, IH, iW_cons. cbn. lia. Qed.

(** The row is right up to the cursor. *)
Definition iupto (c : Z) (l : list painted) (sc : iscreen) : Prop :=
  icol sc = c + W l /\ forall x, c <= x < c + W l -> irow sc x = iimage E c l x.
Lemma iupto_put c l m sc : ok l -> 0 <= iwidth E m -> iupto c l sc -> iupto c (l ++ [m]) (iput E other m sc).
Proof.
  intros Hl Hm [Hc Hr]. split; [cbn; rewrite iW_app, iW_cons, iW_nil; lia|]. rewrite iW_app, iW_cons, iW_nil. intros x Hx. cbn [irow iput].
  rewrite Hc. destruct ((c + W l <=? x) && (x <? c + W l + iwidth E m)) eqn:Hin.
  - rewrite iimage_at by (auto; lia). reflexivity.
  - rewrite iimage_pre by (auto; lia). rewrite Hr by lia. destruct (iimage E c l x) as [|m' i|r' i'] eqn:Hi; [reflexivity| |now apply iimage_old in Hi].
    apply iimage_part in Hi as (l1 & l2 & -> & Hx1 & Hi); [|exact Hl]. rewrite iW_app, iW_cons in *. apply Forall_app in Hl as [_ Hl]. inversion Hl as [|? ? _ Hl2]; subst.
    pose proof (iW_nonneg l2 Hl2). replace (c + (W l1 + (iwidth E m' + W l2)) <? x - i + iwidth E m') with false by lia. now rewrite andb_false_r.
Qed.
Lemma iupto_tm c b : forall a sc, ok a -> ok b -> iupto c a sc -> iupto c (a ++ b) (D (om b) sc).
Proof.
  induction b as [|m b IH]; intros a sc Ha Hb H; [rewrite app_nil_r; exact H|]. rewrite iD_tm_cons. inversion Hb; subst.
  replace (a ++ m :: b) with ((a ++ [m]) ++ b) by (rewrite <- app_assoc; reflexivity). apply IH; [|assumption|now apply iupto_put].
  apply Forall_app. split; [exact Ha|]. now repeat constructor.
Qed.

(** The row is right from [c] on. *)
Definition ifull (c : Z) (l : list painted) (sc : iscreen) : Prop := forall x, c <= x -> irow sc x = iimage E c l x.
Lemma iupto_erase c l sc : ok l -> iupto c l sc -> ifull c l (ierase E other sc) /\ icol (ierase E other sc) = c + W l.
Proof.
  intros Hl [Hc Hr]. split; [|exact Hc]. intros x Hx. cbn [irow ierase]. rewrite Hc. destruct (c + W l <=? x) eqn:Hle.
  - symmetry. apply iimage_after; [exact Hl|lia].
  - rewrite Hr by lia. destruct (iimage E c l x) as [|m' i|r' i'] eqn:Hi; [reflexivity| |now apply iimage_old in Hi].
    apply iimage_part in Hi as (l1 & l2 & -> & Hx1 & Hi); [|exact Hl]. rewrite iW_app, iW_cons in *. apply Forall_app in Hl as [_ Hl]. inversion Hl as [|? ? _ Hl2]; subst.
    pose proof (iW_nonneg l2 Hl2). replace (c + (W l1 + (iwidth E m' + W l2)) <? x - i + iwidth E m') with false by lia. reflexivity.
Qed.
Lemma ifull_upto c l r sc : ok l -> ok r -> ifull c (l ++ r) sc -> icol sc = c + W l -> iupto c l sc.
Proof. intros Hl Hr H Hc. split; [exact Hc|]. intros x Hx. rewrite H by lia. apply iimage_pre; auto. lia. Qed.

(** Two units of a list do not overlap. *)
Lemma iapart a (m : painted) d l1 m' l2 : ok (a ++ m :: d) -> a ++ m :: d = l1 ++ m' :: l2 ->
  (l1 = a /\ m' = m) \/ W l1 + iwidth E m' <= W a \/ W a + iwidth E m <= W l1.
Proof.
  revert l1. induction a as [|x a IH]; intros [|y l1] Hok H; cbn [app] in *; injection H as -> H.
  - left. auto.
  - right. right. rewrite iW_nil, iW_cons. inversion Hok as [|? ? _ Hd]; subst. apply Forall_app in Hd as [Hd _]. pose proof (iW_nonneg l1 Hd). lia.
  - right. left. rewrite iW_nil, iW_cons. inversion Hok as [|? ? _ Hd]; subst. apply Forall_app in Hd as [Hd _]. pose proof (iW_nonneg a Hd). lia.
  - inversion Hok; subst. destruct (IH l1) as [[-> ->]|[H1|H1]]; auto; rewrite !iW_cons; [right; left|right; right]; lia.
Qed.
Lemma ifull_put c a m d sc : ok (a ++ m :: d) -> ifull c (a ++ m :: d) sc -> icol sc = c + W a -> ifull c (a ++ m :: d) (iput E other m sc).
Proof.
  intros Hok H Hc x Hx. cbn [irow iput]. rewrite Hc. pose proof Hok as Hok2. apply Forall_app in Hok2 as [Ha _].
  destruct ((c + W a <=? x) && (x <? c + W a + iwidth E m)) eqn:Hin; [symmetry; apply iimage_at; [exact Ha|lia]|].
  rewrite H by lia. destruct (iimage E c (a ++ m :: d) x) as [|m' i|r' i'] eqn:Hi; [reflexivity| |now apply iimage_old in Hi].
  apply iimage_part in Hi as (l1 & l2 & Hl & Hx1 & Hi); [|exact Hok]. destruct (iapart a m d l1 m' l2 Hok Hl) as [[-> ->]|[H1|H1]].
  - lia.
  - replace (c + W a <? x - i + iwidth E m') with false by lia. now rewrite andb_false_r.
  - replace (x - i <? c + W a + iwidth E m) with false by lia. reflexivity.
Qed.
Lemma ifull_over c b : forall a d sc, ok (a ++ b ++ d) -> ifull c (a ++ b ++ d) sc -> icol sc = c + W a -> ifull c (a ++ b ++ d) (D (om b) sc).
Proof.
  induction b as [|m b IH]; intros a d sc Hok H Hc; [exact H|]. rewrite iD_tm_cons. cbn [app] in *.
  replace (a ++ m :: b ++ d) with ((a ++ [m]) ++ b ++ d) by (rewrite <- app_assoc; reflexivity). apply IH.
  - rewrite <- app_assoc. exact Hok.
  - rewrite <- app_assoc. now apply ifull_put.
  - cbn. rewrite iW_app, iW_cons, iW_nil. lia.
Qed.
(** The rest of the row stays if as many columns are overwritten by other units. *)
Lemma itail_put c c0 m d sc : ok d -> (forall x, c <= x -> irow sc x = iimage E c d x) -> (forall x m' i, c <= x -> irow sc x = IPart m' i -> c <= x - i) ->
  icol sc + iwidth E m <= c -> c0 = icol sc + iwidth E m ->
  (forall x, c <= x -> irow (iput E other m sc) x = iimage E c d x) /\ (forall x m' i, c <= x -> irow (iput E other m sc) x = IPart m' i -> c <= x - i).
Proof.
  intros Hd H Hp Hc ->. assert (G : forall x, c <= x -> irow (iput E other m sc) x = irow sc x).
  { intros x Hx. cbn [irow iput]. destruct ((icol sc <=? x) && (x <? icol sc + iwidth E m)) eqn:Hin; [lia|]. destruct (irow sc x) as [|m' i|r' i'] eqn:Hr; [reflexivity| |rewrite H in Hr by exact Hx; now apply iimage_old in Hr].
    specialize (Hp x m' i Hx Hr). replace (x - i <? icol sc + iwidth E m) with false by lia. reflexivity. }
  split; intros x; [intros Hx; rewrite G by exact Hx; now apply H|]. intros m' i Hx. rewrite G by exact Hx. now apply Hp.
Qed.
Lemma ifull_replace c old new rest sc : ok (old ++ rest) -> ok new -> W new = W old -> ifull c (old ++ rest) sc -> icol sc = c ->
  ifull c (new ++ rest) (D (om new) sc).
Proof.
  intros Hok Hn Hw H Hc. apply Forall_app in Hok as [Ho Hr].
  assert (U : iupto c new (D (om new) sc)) by (apply (iupto_tm c new [] sc (Forall_nil _) Hn); split; [rewrite iW_nil; lia|rewrite iW_nil; lia]).
  assert (T : forall l sc0, ok l -> icol sc0 + W l <= c + W old -> (forall x, c + W old <= x -> irow sc0 x = iimage E (c + W old) rest x) ->
     (forall x m' i, c + W old <= x -> irow sc0 x = IPart m' i -> c + W old <= x - i) -> forall x, c + W old <= x -> irow (D (om l) sc0) x = iimage E (c + W old) rest x).
  { induction l as [|m l IH]; intros sc0 Hl Hlim H1 H2; [exact H1|]. rewrite iD_tm_cons. inversion_clear Hl as [|? ? Hm' Hl']. rewrite iW_cons in Hlim. pose proof (iW_nonneg l Hl').
    destruct (itail_put (c + W old) _ m rest sc0 Hr H1 H2 ltac:(lia) eq_refl) as [H1' H2']. apply IH; auto. cbn. lia. }
  intros x Hx. destruct (Z_lt_dec x (c + W new)) as [Hlt|Hge].
  - rewrite (proj2 U) by lia. symmetry. apply iimage_pre; auto.
  - rewrite iimage_post by (auto; lia). rewrite Hw. apply T; auto; try lia.
    + intros y Hy. rewrite H by (pose proof (iW_nonneg old Ho); lia). apply iimage_post; auto.
    + intros y m' i Hy Hp. rewrite H in Hp by (pose proof (iW_nonneg old Ho); lia). rewrite iimage_post in Hp by auto.
      apply iimage_part in Hp as (l1 & l2 & -> & Hx1 & Hi); [|exact Hr]. apply Forall_app in Hr as [Hr _]. pose proof (iW_nonneg l1 Hr). lia.
Qed.
Lemma ifull_extend c b : forall a sc, ok a -> ok b -> ifull c a sc -> icol sc = c + W a -> ifull c (a ++ b) (D (om b) sc).
Proof.
  induction b as [|m b IH]; intros a sc Ha Hb H Hc; [rewrite app_nil_r; exact H|]. rewrite iD_tm_cons. inversion Hb as [|? ? Hm Hb']; subst.
  replace (a ++ m :: b) with ((a ++ [m]) ++ b) by (rewrite <- app_assoc; reflexivity). apply IH.
  - apply Forall_app. split; [exact Ha|]. now repeat constructor.
  - exact Hb'.
  - intros x Hx. cbn [irow iput]. rewrite Hc. destruct ((c + W a <=? x) && (x <? c + W a + iwidth E m)) eqn:Hin; [symmetry; apply iimage_at; [exact Ha|lia]|].
    rewrite H by lia. destruct (Z_lt_dec x (c + W a)) as [Hlt|Hge].
    + rewrite iimage_pre by (auto; constructor; auto). destruct (iimage E c a x) as [|m' i|r' i'] eqn:Hi; [reflexivity| |now apply iimage_old in Hi].
      apply iimage_part in Hi as (l1 & l2 & -> & Hx1 & Hi); [|exact Ha]. rewrite iW_app, iW_cons in *. apply Forall_app in Ha as [_ Hl]. inversion Hl as [|? ? _ Hl2]; subst.
      pose proof (iW_nonneg l2 Hl2). replace (c + (W l1 + (iwidth E m' + W l2)) <? x - i + iwidth E m') with false by lia. now rewrite andb_false_r.
    + rewrite iimage_after by (auto; lia). rewrite iimage_post by (auto; lia). cbn [iimage]. replace ((c + W a <=? x) && (x <? c + W a + iwidth E m)) with false by lia. reflexivity.
  - cbn. rewrite iW_app, iW_cons, iW_nil. lia.
Qed.

(** ** Painting a row: from any screen *)
Lemma iD_goto c sc : D [OGoto (c + 1)] sc = mkIscreen c (irow sc).
Proof. cbn. f_equal. lia. Qed.
Lemma iupto_nil c sc : icol sc = c -> iupto c [] sc.
Proof. intros <-. split; rewrite iW_nil; lia. Qed.
Lemma iscreen_write c l sc : ok l -> iupto c l (D ([OGoto (c + 1)] ++ om l) sc).
Proof. intros Hl. rewrite iD_app, iD_goto. apply (iupto_tm c l [] _ (Forall_nil _) Hl). now apply iupto_nil. Qed.
Lemma iscreen_row c l sc : ok l ->
  ifull c l (D ([OGoto (c + 1)] ++ om l ++ [OErase]) sc) /\ icol (D ([OGoto (c + 1)] ++ om l ++ [OErase]) sc) = c + W l.
Proof.
  intros Hl. pose proof (iscreen_write c l sc Hl) as HU. rewrite app_assoc. rewrite (iD_app (_ ++ _)).
  destruct (iupto_erase c l _ Hl HU) as [HF HC]. split; [exact HF|exact HC].
Qed.
Lemma ifull_row c l sc sc' : irow sc' = irow sc -> ifull c l sc -> ifull c l sc'.
Proof. intros H HF x Hx. rewrite H. now apply HF. Qed.
Lemma iscreen_back c a b sc : ok (a ++ b) -> ifull c (a ++ b) sc ->
  ifull c (a ++ b) (D ([OGoto (c + 1)] ++ om a) sc) /\ icol (D ([OGoto (c + 1)] ++ om a) sc) = c + W a.
Proof.
  intros Hok HF. pose proof Hok as Hok2. apply Forall_app in Hok2 as [Ha _]. rewrite iD_app, iD_goto. split.
  - apply (ifull_over c a [] b); [exact Hok| |rewrite iW_nil; cbn; lia]. eapply ifull_row; [|exact HF]. reflexivity.
  - rewrite icol_tm. reflexivity.
Qed.
Lemma iscreen_repaint c a b sc : ok (a ++ b) ->
  let ts := ([OGoto (c + 1)] ++ om (a ++ b) ++ [OErase]) ++ [OGoto (c + 1)] ++ om a in
  ifull c (a ++ b) (D ts sc) /\ icol (D ts sc) = c + W a.
Proof.
  intros Hok ts. destruct (iscreen_row c (a ++ b) sc Hok) as (H1 & H2).
  destruct (iscreen_back c a b _ Hok H1) as (H4 & H5). unfold ts. rewrite iD_app. split; [exact H4|exact H5].
Qed.
End Screen.
