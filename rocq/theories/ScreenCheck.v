(** Deciding the conditions of SpecScreen.v, for the examples. *)
From Verif Require Import Base Utf8 Moji Color Prompt Buffer Commands KeyMap Session Spec Sample SpecScreen.

Definition roomyb (S : scfg) (x : sess) : bool :=
  let E := cE (base S) in let v := termw (buf_of x) - prompt_width (base S) - 3 in
  (0 <? v) && forallb (fun m => tabfree m && (width E m <? v)) (line (buf_of x)) &&
  match x with Running (MSearch ss) _ => forallb tabfree (StringToMoji E (search_text ss)) | _ => true end.
Lemma roomyb_ok S x : roomyb S x = true -> roomy S x.
Proof.
  unfold roomyb, roomy. intros H. apply andb_true_iff in H as [H H3]. apply andb_true_iff in H as [H1 H2]. split; [lia|]. split.
  - apply Forall_forall. intros m Hm. rewrite forallb_forall in H2. specialize (H2 m Hm). apply andb_true_iff in H2 as [H2 H4]. split; [exact H2|lia].
  - destruct x as [[| |ss] s|s t r]; auto. apply Forall_forall. now rewrite <- forallb_forall.
Qed.
Definition steadyb (S : scfg) (e : event) (x : sess) : bool :=
  let E := cE (base S) in
  match e, x with
  | EKey k, Running MNormal s =>
      match LookupCommand (kmap S) (gmap S) k with
      | CForwardChar => forallb (fun m => (1 <=? width E m) && (width E m <=? 2)) (line s) || (total_width E (part (line s) (view s) (cursor s + 1)) <? ViewWidth s)
      | CSwapChar => forallb (fun m => width E m =? 1) (line s)
      | _ => true
      end
  | EKeyErr, Running (MSearch _) _ => false
  | _, _ => true
  end.
Lemma steadyb_ok S e x : steadyb S e x = true -> steady S e x.
Proof.
  unfold steadyb, steady. destruct e as [k| |w|c]; destruct x as [[| |ss] s|s t r]; auto; try discriminate.
  intros H. split; intros Hk; rewrite Hk in H.
  - apply orb_true_iff in H as [H|H]; [left|right; lia]. apply Forall_forall. intros m Hm. rewrite forallb_forall in H. specialize (H m Hm). lia.
  - apply Forall_forall. intros m Hm. rewrite forallb_forall in H. specialize (H m Hm). lia.
Qed.
Fixpoint calmb (S : scfg) (es : list event) (x : sess) : bool :=
  roomyb S x && match es with [] => true | e :: es' => steadyb S e x && match step S e x with Some x' => calmb S es' x' | None => true end end.
Lemma calmb_ok S es : forall x, calmb S es x = true -> calm S es x.
Proof.
  induction es as [|e es IH]; intros x H; cbn [calmb] in H; apply andb_true_iff in H as [H1 H2]; (split; [now apply roomyb_ok|]); [exact I|].
  apply andb_true_iff in H2 as [H2 H3]. split; [now apply steadyb_ok|]. intros x' Hx'. rewrite Hx' in H3. now apply IH.
Qed.
Lemma calm_steady S es : forall x, calm S es x -> steady_run S es x.
Proof. induction es as [|e es IH]; intros x H; [exact I|]. destruct H as (_ & H1 & H2). split; [exact H1|]. intros x' Hx'. apply IH, H2, Hx'. Qed.
Definition calm_read (S : scfg) default cur w cl es : bool := match start S default cur w cl with Some x => calmb S es x | None => true end.
Lemma calm_read_ok S default cur w cl es : calm_read S default cur w cl es = true -> forall x0, start S default cur w cl = Some x0 -> calm S es x0.
Proof. unfold calm_read. intros H x0 Hx. rewrite Hx in H. now apply calmb_ok. Qed.

(** A terminal that does nothing of its own and shows no half characters. *)
Definition still : terminal := mkTerminal (fun _ sc => sc) (fun _ _ _ => Blank).

(** The first unit written past [lim]. *)
Fixpoint over (E : env) (other : terminal) (lim : Z) (sc : screen) (ts : list tok) : bool :=
  match ts with
  | [] => false
  | t :: ts' => match t with TMoji m => lim <? col sc + width E m | _ => false end || over E other lim (display1 E other sc t) ts'
  end.
Lemma over_ok E other lim ts : forall sc, over E other lim sc ts = true -> ~ inside E other lim sc ts.
Proof.
  induction ts as [|t ts IH]; intros sc H HI; [discriminate|]. cbn [over] in H. apply orb_true_iff in H as [H|H].
  - destruct t; try discriminate. specialize (HI [] m ts eq_refl). cbn in HI. lia.
  - apply (IH _ H). intros a m b Hx. specialize (HI (t :: a) m b). rewrite Hx in HI. exact (HI eq_refl).
Qed.

(** The sample editor with predictions. *)
Lemma predict_suffix l cur : predict_loop l cur = [] \/ exists h n, In h l /\ predict_loop l cur = skipn n h.
Proof.
  induction l as [|h l IH]; [now left|]. cbn [predict_loop]. destruct (has_prefix h cur).
  - right. exists h, (List.length cur). split; [now left|reflexivity].
  - destruct IH as [IH|(h0 & n & Hi & IH)]; [now left|right]. exists h0, n. split; [now right|exact IH].
Qed.
Lemma simple_pred : simple_editor S_pred.
Proof.
  split; [apply builtin_pred|]. split; [apply sane_off|]. split; [apply sample_rw8|]. split; [reflexivity|]. split; [reflexivity|].
  split; [|now apply sample_hist_ok]. right. intros t c. cbn [base S_pred predictor cfg_pred]. unfold predictByHistory.
  destruct (predict_suffix (rev sample_hist) t) as [-> |(h & n & Hi & ->)]; [intros r []|].
  assert (G : forallb (fun h => forallb (fun n => simple_textb E_off (skipn n h)) (seq 0 (S (List.length h)))) (rev sample_hist) = true) by reflexivity.
  rewrite forallb_forall in G. specialize (G h Hi). rewrite forallb_forall in G. apply simple_textb_ok.
  destruct (Nat.le_gt_cases n (List.length h)) as [Hn|Hn]; [apply G, in_seq; lia|]. rewrite skipn_all2 by lia. reflexivity.
Qed.
