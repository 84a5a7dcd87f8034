(** Deciding the conditions of SpecTabScreen.v, for the examples. *)
From Verif Require Import Base Utf8 Moji Color Prompt Buffer Commands KeyMap Session Spec Sample SpecScreen SpecTabScreen.

Definition fits_tabsb (S : scfg) (x : sess) : bool :=
  let E := cE (base S) in let l := line (buf_of x) in
  forallb (fun m => tabfree m || match m with MTab 0 => true | _ => false end) l &&
  (total_width E l <? termw (buf_of x) - prompt_width (base S) - 3) && (total_width E l <=? 32767).
Lemma fits_tabsb_ok S x : fits_tabsb S x = true -> fits_tabs S x.
Proof.
  unfold fits_tabsb, fits_tabs. intros H. apply andb_true_iff in H as [H H3]. apply andb_true_iff in H as [H1 H2]. split; [|split; [lia|lia]].
  apply Forall_forall. intros m Hm. rewrite forallb_forall in H1. specialize (H1 m Hm). destruct (tabfree m); [now left|right]. cbn in H1. destruct m; try discriminate. now destruct pos.
Qed.
Definition steady_tabsb (S : scfg) (e : event) (x : sess) : bool :=
  match e, x with
  | EKey k, Running MNormal s =>
      match LookupCommand (kmap S) (gmap S) k with
      | CSwapChar => forallb tabfree (part (line s) (Z.max 0 (cursor s - 2)) (cursor s + 1))
      | _ => true
      end
  | EKeyErr, Running (MSearch _) _ => false
  | _, _ => true
  end.
Lemma steady_tabsb_ok S e x : steady_tabsb S e x = true -> steady_tabs S e x.
Proof.
  unfold steady_tabsb, steady_tabs. destruct e as [k| |w|c]; destruct x as [[| |ss] s|s t r]; auto; try discriminate.
  intros H Hk. rewrite Hk in H. apply Forall_forall. now apply forallb_forall.
Qed.
Fixpoint calm_tabsb (S : scfg) (es : list event) (x : sess) : bool :=
  fits_tabsb S x && match es with [] => true | e :: es' => steady_tabsb S e x && match step S e x with Some x' => calm_tabsb S es' x' | None => true end end.
Lemma calm_tabsb_ok S es : forall x, calm_tabsb S es x = true -> calm_tabs S es x.
Proof.
  induction es as [|e es IH]; intros x H; cbn [calm_tabsb] in H; apply andb_true_iff in H as [H1 H2]; (split; [now apply fits_tabsb_ok|]); [exact I|].
  apply andb_true_iff in H2 as [H2 H3]. split; [now apply steady_tabsb_ok|]. intros x' Hx'. rewrite Hx' in H3. now apply IH.
Qed.
Definition calm_tabs_read (S : scfg) default cur w cl es : bool := match start S default cur w cl with Some x => calm_tabsb S es x | None => true end.
Lemma calm_tabs_read_ok S default cur w cl es : calm_tabs_read S default cur w cl es = true -> forall x0, start S default cur w cl = Some x0 -> calm_tabs S es x0.
Proof. unfold calm_tabs_read. intros H x0 Hx. rewrite Hx in H. now apply calm_tabsb_ok. Qed.
