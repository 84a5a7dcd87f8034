(** A check of [roomy] for the example of PUndoOnly.v. *)
From Verif Require Import Base Utf8 Moji Color Prompt Buffer Commands KeyMap Session MojiFacts Abs AbsRef AbsSess Safe SafeSess UndoOnly.

Section WithS.
Variable S : scfg.
Notation C := (base S).
Notation E := (cE C).
Definition limb (l : list moji) : bool := forallb (fun m => negb (has_tab m)) l || (esum E l <=? 32767).
Definition line_okb (V : Z) (l : list moji) : bool := (0 <? V) && forallb (fun m => width E m <? V) l && limb l.
Definition fitsb (w : Z) (x : asess) : bool :=
  match x with
  | ARunning m a => line_okb (w - PW C - 3) (aline a) && match m with MSearch ss => limb (units E (search_line ss)) | _ => true end
  | AFinished a _ _ => line_okb (w - PW C - 3) (aline a)
  end.
Lemma limb_ok l : limb l = true -> lim E l.
Proof. unfold limb, lim. intros H. rewrite orb_true_iff in H. destruct H as [H|H]; [left; exact H|right; apply Z.leb_le; exact H]. Qed.
Lemma line_okb_ok V l : line_okb V l = true -> line_ok C V l.
Proof.
  unfold line_okb, line_ok.
  intros H.
  apply andb_true_iff in H.
  destruct H as [H H3].
  apply andb_true_iff in H.
  destruct H as [H1 H2].
  split; [apply (proj1 (Z.ltb_lt _ _)); exact H1|].
  split; [|exact (limb_ok l H3)].
  apply Forall_forall.
  rewrite forallb_forall in H2. 
  intros m Hm.
  apply (proj1 (Z.ltb_lt _ _)). exact (H2 m Hm).
Qed.
Lemma fitsb_ok w x : fitsb w x = true -> fits S w x.
Proof.
  destruct x as [m a|a t r]; unfold fitsb, fits; [|apply line_okb_ok]. intros H. apply andb_true_iff in H as [H1 H2]. split; [exact (line_okb_ok _ _ H1)|].
  destruct m; [exact I|exact I|]. exact (limb_ok _ H2).
Qed.
Fixpoint roomyb (w : Z) (x : asess) (es : list event) : bool :=
  fitsb w x &&
  match es with
  | [] => true
  | e :: es' => forallb (fun b => match astep S b e x with Some x' => roomyb (new_width w e x) x' es' | None => true end) [true; false]
  end.
Lemma roomyb_ok es : forall w x, roomyb w x es = true -> roomy S w x es.
Proof.
  induction es as [|e es IH]; intros w x H; cbn [roomyb roomy] in *; apply andb_true_iff in H as [H1 H2]; (split; [exact (fitsb_ok _ _ H1)|]); [exact I|].
  intros b x' Hx. rewrite forallb_forall in H2. specialize (H2 b). rewrite Hx in H2. apply IH, H2. destruct b; cbn; auto.
Qed.
End WithS.
