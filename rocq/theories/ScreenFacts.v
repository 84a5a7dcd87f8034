(** The screen: writing units, overwriting and erasing. *)
From Verif Require Import Base Utf8 Moji Color Prompt Buffer Commands KeyMap Session MojiFacts Abs AbsRef AbsSess
  AbsSafe AbsInv Safe Spec SpecScreen.
Ltac lia := unfold rune in *; Lia.lia.

Section Screen.
Variable E : env.
Variable other : terminal.
Notation D := (display E other).
Notation W := (total_width E).
Notation ok := (Forall (fun m => 0 <= width E m)).

Lemma W_app a b : W (a ++ b) = W a + W b.
Proof. apply (sumw_app E). Qed.
Lemma W_cons m l : W (m :: l) = width E m + W l. Proof. reflexivity. Qed.
Lemma W_nil : W [] = 0. Proof. reflexivity. Qed.
Lemma W_nonneg l : ok l -> 0 <= W l.
Proof. induction 1; [reflexivity|]. rewrite W_cons. lia. Qed.
Lemma D_app a b sc : D (a ++ b) sc = D b (D a sc).
Proof. apply fold_left_app. Qed.

(** ** Images *)
Lemma image_old l : forall c x r i, image E c l x = Old r i -> False.
Proof. induction l as [|m l IH]; intros c x r i H; cbn [image] in H; [discriminate|]. destruct (_ && _); [discriminate|]. now apply IH in H. Qed.
(** Every part of an image belongs to one of the units. *)
Lemma image_part l : forall c x m i, ok l -> image E c l x = Part m i ->
  exists l1 l2, l = l1 ++ m :: l2 /\ x - i = c + W l1 /\ 0 <= i < width E m.
Proof.
  induction l as [|m0 l IH]; intros c x m i Hok H; cbn [image] in H; [discriminate|]. inversion Hok as [|? ? H0 Hl]; subst.
  destruct ((c <=? x) && (x <? c + width E m0)) eqn:Hc.
  - injection H as <- <-. exists [], l. split; [reflexivity|]. rewrite W_nil. split; lia.
  - apply IH in H as (l1 & l2 & -> & Hx & Hi); [|exact Hl]. exists (m0 :: l1), l2. split; [reflexivity|]. rewrite W_cons. split; lia.
Qed.
Lemma image_at l1 m l2 : forall c x, ok l1 -> c + W l1 <= x < c + W l1 + width E m -> image E c (l1 ++ m :: l2) x = Part m (x - (c + W l1)).
Proof.
  induction l1 as [|m0 l1 IH]; intros c x Hok Hx; cbn [app image].
  - rewrite W_nil in *. replace ((c <=? x) && (x <? c + width E m)) with true by lia. f_equal. lia.
  - inversion Hok as [|? ? H0 Hl]; subst. rewrite W_cons in *. pose proof (W_nonneg l1 Hl).
    replace ((c <=? x) && (x <? c + width E m0)) with false by lia. rewrite IH by (auto; lia). f_equal. lia.
Qed.
Lemma image_after l : forall c x, ok l -> c + W l <= x -> image E c l x = Blank.
Proof.
  induction l as [|m l IH]; intros c x Hok Hx; cbn [image]; [reflexivity|]. inversion Hok as [|? ? H0 Hl]; subst.
  rewrite W_cons in Hx. pose proof (W_nonneg l Hl). replace ((c <=? x) && (x <? c + width E m)) with false by lia. apply IH; [exact Hl|lia].
Qed.
Lemma image_before l : forall c x, ok l -> x < c -> image E c l x = Blank.
Proof.
  induction l as [|m l IH]; intros c x Hok Hx; cbn [image]; [reflexivity|]. inversion Hok as [|? ? H0 Hl]; subst.
  replace ((c <=? x) && (x <? c + width E m)) with false by lia. apply IH; [exact Hl|lia].
Qed.
Lemma image_pre l r : forall c x, ok l -> x < c + W l -> ok r -> image E c (l ++ r) x = image E c l x.
Proof.
  induction l as [|m l IH]; intros c x Hok Hx Hr; cbn [app image].
  - rewrite W_nil in Hx. apply image_before; [exact Hr|lia].
  - inversion Hok as [|? ? H0 Hl]; subst. rewrite W_cons in Hx. destruct (_ && _); [reflexivity|]. apply IH; auto. lia.
Qed.
Lemma image_post l r : forall c x, ok l -> c + W l <= x -> image E c (l ++ r) x = image E (c + W l) r x.
Proof.
  induction l as [|m l IH]; intros c x Hok Hx; cbn [app image].
  - rewrite W_nil. now rewrite Z.add_0_r.
  - inversion Hok as [|? ? H0 Hl]; subst. rewrite W_cons in *. pose proof (W_nonneg l Hl).
    replace ((c <=? x) && (x <? c + width E m)) with false by lia. rewrite IH by (auto; lia). now rewrite Z.add_assoc.
Qed.

(** ** Writing *)
Definition tm (l : list moji) : list tok := map TMoji l.
Lemma D_tm_cons m l sc : D (tm (m :: l)) sc = D (tm l) (put E other m sc). Proof. reflexivity. Qed.
Lemma col_tm l : forall sc, col (D (tm l) sc) = col sc + W l.
Proof. induction l as [|m l IH]; intros sc; [rewrite W_nil; cbn; lia|]. rewrite D_tm_cons, IH, W_cons. cbn. lia. Qed.

(** The row is right up to the cursor. *)
Definition upto (c : Z) (l : list moji) (sc : screen) : Prop :=
  col sc = c + W l /\ forall x, c <= x < c + W l -> row sc x = image E c l x.
Lemma upto_put c l m sc : ok l -> 0 <= width E m -> upto c l sc -> upto c (l ++ [m]) (put E other m sc).
Proof.
  intros Hl Hm [Hc Hr]. split; [cbn; rewrite W_app, W_cons, W_nil; lia|]. rewrite W_app, W_cons, W_nil. intros x Hx. cbn [row put].
  rewrite Hc. destruct ((c + W l <=? x) && (x <? c + W l + width E m)) eqn:Hin.
  - rewrite image_at by (auto; lia). reflexivity.
  - rewrite image_pre by (auto; lia). rewrite Hr by lia. destruct (image E c l x) as [|m' i|r' i'] eqn:Hi; [reflexivity| |now apply image_old in Hi].
    apply image_part in Hi as (l1 & l2 & -> & Hx1 & Hi); [|exact Hl]. rewrite W_app, W_cons in *. apply Forall_app in Hl as [_ Hl]. inversion Hl as [|? ? _ Hl2]; subst.
    pose proof (W_nonneg l2 Hl2). replace (c + (W l1 + (width E m' + W l2)) <? x - i + width E m') with false by lia. now rewrite andb_false_r.
Qed.
Lemma upto_tm c b : forall a sc, ok a -> ok b -> upto c a sc -> upto c (a ++ b) (D (tm b) sc).
Proof.
  induction b as [|m b IH]; intros a sc Ha Hb H; [rewrite app_nil_r; exact H|]. rewrite D_tm_cons. inversion Hb; subst.
  replace (a ++ m :: b) with ((a ++ [m]) ++ b) by (rewrite <- app_assoc; reflexivity). apply IH; [|assumption|now apply upto_put].
  apply Forall_app. split; [exact Ha|]. now repeat constructor.
Qed.

(** The row is right from [c] on. *)
Definition full (c : Z) (l : list moji) (sc : screen) : Prop := forall x, c <= x -> row sc x = image E c l x.
Lemma upto_erase c l sc : ok l -> upto c l sc -> full c l (erase_right E other sc) /\ col (erase_right E other sc) = c + W l.
Proof.
  intros Hl [Hc Hr]. split; [|exact Hc]. intros x Hx. cbn [row erase_right]. rewrite Hc. destruct (c + W l <=? x) eqn:Hle.
  - symmetry. apply image_after; [exact Hl|lia].
  - rewrite Hr by lia. destruct (image E c l x) as [|m' i|r' i'] eqn:Hi; [reflexivity| |now apply image_old in Hi].
    apply image_part in Hi as (l1 & l2 & -> & Hx1 & Hi); [|exact Hl]. rewrite W_app, W_cons in *. apply Forall_app in Hl as [_ Hl]. inversion Hl as [|? ? _ Hl2]; subst.
    pose proof (W_nonneg l2 Hl2). replace (c + (W l1 + (width E m' + W l2)) <? x - i + width E m') with false by lia. reflexivity.
Qed.
Lemma full_upto c l r sc : ok l -> ok r -> full c (l ++ r) sc -> col sc = c + W l -> upto c l sc.
Proof. intros Hl Hr H Hc. split; [exact Hc|]. intros x Hx. rewrite H by lia. apply image_pre; auto. lia. Qed.

(** Two units of a list do not overlap. *)
Lemma apart a (m : moji) d l1 m' l2 : ok (a ++ m :: d) -> a ++ m :: d = l1 ++ m' :: l2 ->
  (l1 = a /\ m' = m) \/ W l1 + width E m' <= W a \/ W a + width E m <= W l1.
Proof.
  revert l1. induction a as [|x a IH]; intros [|y l1] Hok H; cbn [app] in *; injection H as -> H.
  - left. auto.
  - right. right. rewrite W_nil, W_cons. inversion Hok as [|? ? _ Hd]; subst. apply Forall_app in Hd as [Hd _]. pose proof (W_nonneg l1 Hd). lia.
  - right. left. rewrite W_nil, W_cons. inversion Hok as [|? ? _ Hd]; subst. apply Forall_app in Hd as [Hd _]. pose proof (W_nonneg a Hd). lia.
  - inversion Hok; subst. destruct (IH l1) as [[-> ->]|[H1|H1]]; auto; rewrite !W_cons; [right; left|right; right]; lia.
Qed.
Lemma full_put c a m d sc : ok (a ++ m :: d) -> full c (a ++ m :: d) sc -> col sc = c + W a -> full c (a ++ m :: d) (put E other m sc).
Proof.
  intros Hok H Hc x Hx. cbn [row put]. rewrite Hc. pose proof Hok as Hok2. apply Forall_app in Hok2 as [Ha _].
  destruct ((c + W a <=? x) && (x <? c + W a + width E m)) eqn:Hin; [symmetry; apply image_at; [exact Ha|lia]|].
  rewrite H by lia. destruct (image E c (a ++ m :: d) x) as [|m' i|r' i'] eqn:Hi; [reflexivity| |now apply image_old in Hi].
  apply image_part in Hi as (l1 & l2 & Hl & Hx1 & Hi); [|exact Hok]. destruct (apart a m d l1 m' l2 Hok Hl) as [[-> ->]|[H1|H1]].
  - lia.
  - replace (c + W a <? x - i + width E m') with false by lia. now rewrite andb_false_r.
  - replace (x - i <? c + W a + width E m) with false by lia. reflexivity.
Qed.
Lemma full_over c b : forall a d sc, ok (a ++ b ++ d) -> full c (a ++ b ++ d) sc -> col sc = c + W a -> full c (a ++ b ++ d) (D (tm b) sc).
Proof.
  induction b as [|m b IH]; intros a d sc Hok H Hc; [exact H|]. rewrite D_tm_cons. cbn [app] in *.
  replace (a ++ m :: b ++ d) with ((a ++ [m]) ++ b ++ d) by (rewrite <- app_assoc; reflexivity). apply IH.
  - rewrite <- app_assoc. exact Hok.
  - rewrite <- app_assoc. now apply full_put.
  - cbn. rewrite W_app, W_cons, W_nil. lia.
Qed.
(** The rest of the row stays if as many columns are overwritten by other units. *)
Lemma tail_put c c0 m d sc : ok d -> (forall x, c <= x -> row sc x = image E c d x) -> (forall x m' i, c <= x -> row sc x = Part m' i -> c <= x - i) ->
  col sc + width E m <= c -> c0 = col sc + width E m ->
  (forall x, c <= x -> row (put E other m sc) x = image E c d x) /\ (forall x m' i, c <= x -> row (put E other m sc) x = Part m' i -> c <= x - i).
Proof.
  intros Hd H Hp Hc ->. assert (G : forall x, c <= x -> row (put E other m sc) x = row sc x).
  { intros x Hx. cbn [row put]. destruct ((col sc <=? x) && (x <? col sc + width E m)) eqn:Hin; [lia|]. destruct (row sc x) as [|m' i|r' i'] eqn:Hr; [reflexivity| |rewrite H in Hr by exact Hx; now apply image_old in Hr].
    specialize (Hp x m' i Hx Hr). replace (x - i <? col sc + width E m) with false by lia. reflexivity. }
  split; intros x; [intros Hx; rewrite G by exact Hx; now apply H|]. intros m' i Hx. rewrite G by exact Hx. now apply Hp.
Qed.
Lemma full_replace c old new rest sc : ok (old ++ rest) -> ok new -> W new = W old -> full c (old ++ rest) sc -> col sc = c ->
  full c (new ++ rest) (D (tm new) sc).
Proof.
  intros Hok Hn Hw H Hc. apply Forall_app in Hok as [Ho Hr].
  assert (U : upto c new (D (tm new) sc)) by (apply (upto_tm c new [] sc (Forall_nil _) Hn); split; [rewrite W_nil; lia|rewrite W_nil; lia]).
  assert (T : forall l sc0, ok l -> col sc0 + W l <= c + W old -> (forall x, c + W old <= x -> row sc0 x = image E (c + W old) rest x) ->
     (forall x m' i, c + W old <= x -> row sc0 x = Part m' i -> c + W old <= x - i) -> forall x, c + W old <= x -> row (D (tm l) sc0) x = image E (c + W old) rest x).
  { induction l as [|m l IH]; intros sc0 Hl Hlim H1 H2; [exact H1|]. rewrite D_tm_cons. inversion_clear Hl as [|? ? Hm' Hl']. rewrite W_cons in Hlim. pose proof (W_nonneg l Hl').
    destruct (tail_put (c + W old) _ m rest sc0 Hr H1 H2 ltac:(lia) eq_refl) as [H1' H2']. apply IH; auto. cbn. lia. }
  intros x Hx. destruct (Z_lt_dec x (c + W new)) as [Hlt|Hge].
  - rewrite (proj2 U) by lia. symmetry. apply image_pre; auto.
  - rewrite image_post by (auto; lia). rewrite Hw. apply T; auto; try lia.
    + intros y Hy. rewrite H by (pose proof (W_nonneg old Ho); lia). apply image_post; auto.
    + intros y m' i Hy Hp. rewrite H in Hp by (pose proof (W_nonneg old Ho); lia). rewrite image_post in Hp by auto.
      apply image_part in Hp as (l1 & l2 & -> & Hx1 & Hi); [|exact Hr]. apply Forall_app in Hr as [Hr _]. pose proof (W_nonneg l1 Hr). lia.
Qed.
Lemma full_extend c b : forall a sc, ok a -> ok b -> full c a sc -> col sc = c + W a -> full c (a ++ b) (D (tm b) sc).
Proof.
  induction b as [|m b IH]; intros a sc Ha Hb H Hc; [rewrite app_nil_r; exact H|]. rewrite D_tm_cons. inversion Hb as [|? ? Hm Hb']; subst.
  replace (a ++ m :: b) with ((a ++ [m]) ++ b) by (rewrite <- app_assoc; reflexivity). apply IH.
  - apply Forall_app. split; [exact Ha|]. now repeat constructor.
  - exact Hb'.
  - intros x Hx. cbn [row put]. rewrite Hc. destruct ((c + W a <=? x) && (x <? c + W a + width E m)) eqn:Hin; [symmetry; apply image_at; [exact Ha|lia]|].
    rewrite H by lia. destruct (Z_lt_dec x (c + W a)) as [Hlt|Hge].
    + rewrite image_pre by (auto; constructor; auto). destruct (image E c a x) as [|m' i|r' i'] eqn:Hi; [reflexivity| |now apply image_old in Hi].
      apply image_part in Hi as (l1 & l2 & -> & Hx1 & Hi); [|exact Ha]. rewrite W_app, W_cons in *. apply Forall_app in Ha as [_ Hl]. inversion Hl as [|? ? _ Hl2]; subst.
      pose proof (W_nonneg l2 Hl2). replace (c + (W l1 + (width E m' + W l2)) <? x - i + width E m') with false by lia. now rewrite andb_false_r.
    + rewrite image_after by (auto; lia). rewrite image_post by (auto; lia). cbn [image]. replace ((c + W a <=? x) && (x <? c + W a + width E m)) with false by lia. reflexivity.
  - cbn. rewrite W_app, W_cons, W_nil. lia.
Qed.

(** ** Staying inside *)
Lemma inside_nil lim sc : inside E other lim sc [].
Proof. intros [|x a] m b H; discriminate. Qed.
Lemma inside_app lim a b sc : inside E other lim sc a -> inside E other lim (D a sc) b -> inside E other lim sc (a ++ b).
Proof.
  intros H1 H2 p m q H. assert (G : (exists t, a = p ++ TMoji m :: t) \/ exists t, p = a ++ t /\ b = t ++ TMoji m :: q).
  { clear H1 H2. revert p H. induction a as [|x a IH]; intros [|y p] H; cbn [app] in H.
    - right. exists []. auto.
    - right. exists (y :: p). auto.
    - left. injection H as -> _. exists a. reflexivity.
    - injection H as -> H. destruct (IH p H) as [[t ->]|(t & -> & ->)]; [left; exists t; reflexivity|right; exists t; auto]. }
  destruct G as [[t ->]|(t & -> & ->)]; [now apply (H1 p m t)|]. rewrite D_app. now apply (H2 t m q).
Qed.
Lemma inside_other lim sc t : (forall m, t <> TMoji m) -> inside E other lim sc [t].
Proof. intros H [|x [|y a]] m b Hx; injection Hx; intros; subst; try discriminate. exfalso. now apply (H m). Qed.
Lemma inside_tm lim l : forall sc, ok l -> col sc + W l <= lim -> inside E other lim sc (tm l).
Proof.
  induction l as [|m l IH]; intros sc Hok H; [apply inside_nil|]. inversion Hok as [|? ? Hm Hl]; subst. rewrite W_cons in H. pose proof (W_nonneg l Hl).
  change (tm (m :: l)) with ([TMoji m] ++ tm l). apply inside_app.
  - intros [|x [|y a]] m' b Hx; injection Hx; intros; subst; try discriminate. cbn. lia.
  - apply IH; [exact Hl|]. cbn. lia.
Qed.
Lemma inside_weaken lim lim' sc ts : lim <= lim' -> inside E other lim sc ts -> inside E other lim' sc ts.
Proof. intros Hl H a m b Hx. specialize (H a m b Hx). lia. Qed.

(** ** Painting a row: from any screen *)
Lemma D_goto c sc : D [TGoto (c + 1)] sc = mkScreen c (row sc).
Proof. cbn. f_equal. lia. Qed.
Lemma upto_nil c sc : col sc = c -> upto c [] sc.
Proof. intros <-. split; rewrite W_nil; lia. Qed.
Lemma screen_write c l sc lim : ok l -> c + W l <= lim ->
  upto c l (D ([TGoto (c + 1)] ++ tm l) sc) /\ inside E other lim sc ([TGoto (c + 1)] ++ tm l).
Proof.
  intros Hl Hlim. rewrite D_app, D_goto. split.
  - apply (upto_tm c l [] _ (Forall_nil _) Hl). now apply upto_nil.
  - apply inside_app; [apply inside_other; discriminate|]. rewrite D_goto. now apply inside_tm.
Qed.
Lemma screen_row c l sc lim : ok l -> c + W l <= lim ->
  full c l (D ([TGoto (c + 1)] ++ tm l ++ [TErase]) sc) /\ col (D ([TGoto (c + 1)] ++ tm l ++ [TErase]) sc) = c + W l /\
  inside E other lim sc ([TGoto (c + 1)] ++ tm l ++ [TErase]).
Proof.
  intros Hl Hlim. destruct (screen_write c l sc lim Hl Hlim) as [HU HI]. rewrite app_assoc. rewrite (D_app (_ ++ _)).
  destruct (upto_erase c l _ Hl HU) as [HF HC]. split; [exact HF|]. split; [exact HC|]. apply inside_app; [exact HI|]. apply inside_other. discriminate.
Qed.
Lemma full_row c l sc sc' : row sc' = row sc -> full c l sc -> full c l sc'.
Proof. intros H HF x Hx. rewrite H. now apply HF. Qed.
Lemma screen_back c a b sc lim : ok (a ++ b) -> full c (a ++ b) sc -> c + W a <= lim ->
  full c (a ++ b) (D ([TGoto (c + 1)] ++ tm a) sc) /\ col (D ([TGoto (c + 1)] ++ tm a) sc) = c + W a /\
  inside E other lim sc ([TGoto (c + 1)] ++ tm a).
Proof.
  intros Hok HF Hlim. pose proof Hok as Hok2. apply Forall_app in Hok2 as [Ha _]. rewrite D_app, D_goto. split; [|split].
  - apply (full_over c a [] b); [exact Hok| |rewrite W_nil; cbn; lia]. eapply full_row; [|exact HF]. reflexivity.
  - rewrite col_tm. reflexivity.
  - apply inside_app; [apply inside_other; discriminate|]. rewrite D_goto. now apply inside_tm.
Qed.
Lemma screen_repaint c a b sc lim : ok (a ++ b) -> c + W (a ++ b) <= lim ->
  let ts := ([TGoto (c + 1)] ++ tm (a ++ b) ++ [TErase]) ++ [TGoto (c + 1)] ++ tm a in
  full c (a ++ b) (D ts sc) /\ col (D ts sc) = c + W a /\ inside E other lim sc ts.
Proof.
  intros Hok Hlim ts. destruct (screen_row c (a ++ b) sc lim Hok Hlim) as (H1 & H2 & H3).
  assert (Hlim2 : c + W a <= lim) by (rewrite W_app in Hlim; apply Forall_app in Hok as [_ Hb]; pose proof (W_nonneg b Hb); lia).
  destruct (screen_back c a b _ lim Hok H1 Hlim2) as (H4 & H5 & H6). unfold ts. rewrite D_app. split; [exact H4|]. split; [exact H5|]. now apply inside_app.
Qed.
End Screen.
