(** Deciding the conditions of SpecTabScroll.v, for the examples. *)
From Verif Require Import Base Utf8 Moji Color Prompt Buffer Commands KeyMap Session Spec Sample SpecScreen SpecTabScreen SpecTabScroll.

Definition tabs_apartb (S : scfg) (x : sess) : bool :=
  let E := cE (base S) in let l := line (buf_of x) in
  forallb (fun m => tabfree m || match m with MTab 0 => true | _ => false end) l && (total_width E l <=? 32767).
Lemma tabs_apartb_ok S x : tabs_apartb S x = true -> tabs_apart S x.
Proof.
  unfold tabs_apartb, tabs_apart. intros H. apply andb_true_iff in H as [H1 H2]. split; [|lia].
  apply Forall_forall. intros m Hm. rewrite forallb_forall in H1. specialize (H1 m Hm). destruct (tabfree m); [now left|right]. cbn in H1. destruct m; try discriminate. now destruct pos.
Qed.
Definition steady_scrollb (S : scfg) (e : event) (x : sess) : bool :=
  let E := cE (base S) in
  match e, x with
  | EKey k, Running MNormal s =>
      match LookupCommand (kmap S) (gmap S) k with
      | CSwapChar => forallb tabfree (part (line s) (Z.max 0 (cursor s - 2)) (cursor s + 1)) && (view s <=? Z.max 0 (cursor s - 2)) &&
          ((cursor s =? zlen (line s)) || (total_width E (part (laid E 0 (line s)) (view s) (cursor s + 1)) <? ViewWidth s))
      | _ => true
      end
  | EKeyErr, Running (MSearch _) _ => false
  | _, _ => true
  end.
Lemma steady_scrollb_ok S e x : steady_scrollb S e x = true -> steady_scroll S e x.
Proof.
  unfold steady_scrollb, steady_scroll. destruct e as [k| |w|c]; destruct x as [[| |ss] s|s t r]; auto; try discriminate.
  intros H Hk. rewrite Hk in H. apply andb_true_iff in H as [H H3]. apply andb_true_iff in H as [H1 H2]. split; [apply Forall_forall; now apply forallb_forall|]. split; [lia|].
  apply orb_true_iff in H3 as [H3|H3]; [left|right]; lia.
Qed.
Fixpoint calm_scrollb (S : scfg) (es : list event) (x : sess) : bool :=
  tabs_apartb S x && match es with [] => true | e :: es' => steady_scrollb S e x && match step S e x with Some x' => calm_scrollb S es' x' | None => true end end.
Lemma calm_scrollb_ok S es : forall x, calm_scrollb S es x = true -> calm_scroll S es x.
Proof.
  induction es as [|e es IH]; intros x H; cbn [calm_scrollb] in H; apply andb_true_iff in H as [H1 H2]; (split; [now apply tabs_apartb_ok|]); [exact I|].
  apply andb_true_iff in H2 as [H2 H3]. split; [now apply steady_scrollb_ok|]. intros x' Hx'. rewrite Hx' in H3. now apply IH.
Qed.
Definition calm_scroll_read (S : scfg) default cur w cl es : bool := match start S default cur w cl with Some x => calm_scrollb S es x | None => true end.
Lemma calm_scroll_read_ok S default cur w cl es : calm_scroll_read S default cur w cl es = true -> forall x0, start S default cur w cl = Some x0 -> calm_scroll S es x0.
Proof. unfold calm_scroll_read. intros H x0 Hx. rewrite Hx in H. now apply calm_scrollb_ok. Qed.
