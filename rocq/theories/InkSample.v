(** Deciding the conditions of SpecInk.v, and colourings whose colours go wrong. *)
From Coq Require Import Sorting.Permutation.
From Verif Require Import Base Utf8 Moji Color Prompt Buffer Commands KeyMap Session Spec Sample SpecScreen ScreenCheck SpecPaint SpecInk.

(** [ol]: the colouring is known not to depend on the order. *)
Definition late_swapb (ol : bool) (S : scfg) (e : event) (x : sess) : bool :=
  match e, x with
  | EKey k, Running MNormal s => match LookupCommand (kmap S) (gmap S) k with CSwapChar => ol || (zlen (line s) <=? cursor s + 1) | _ => true end
  | _, _ => true
  end.
Section Check.
Variable ol : bool.
Variable S : scfg.
Hypothesis Hol : ol = true -> orderless (ccol (base S)).
Lemma late_swapb_ok e x : late_swapb ol S e x = true -> late_swap S e x.
Proof.
  unfold late_swapb, late_swap. destruct e as [k| |w|c]; auto. destruct x as [[| |ss] s|s t r]; auto. intros H Hk. rewrite Hk in H. apply orb_true_iff in H as [H|H]; [right; now apply Hol|left; lia].
Qed.
Fixpoint heardb (es : list event) (x : sess) : bool :=
  forallb heard_as_is (line (buf_of x)) &&
  match es with [] => true | e :: es' => late_swapb ol S e x && match step S e x with Some x' => heardb es' x' | None => true end end.
Lemma heardb_ok es : forall x, heardb es x = true -> heard_run S es x.
Proof.
  induction es as [|e es IH]; intros x H; cbn [heardb] in H; apply andb_true_iff in H as [H1 H2].
  - split; [|exact I]. apply Forall_forall. now rewrite <- forallb_forall.
  - apply andb_true_iff in H2 as [H2 H3]. split; [apply Forall_forall; now rewrite <- forallb_forall|]. split; [now apply late_swapb_ok|].
    intros x' Hx'. rewrite Hx' in H3. now apply IH.
Qed.
Definition heard_read default cur w cl es : bool := match start S default cur w cl with Some x => calmb S es x && heardb es x | None => true end.
Lemma heard_read_ok default cur w cl es : heard_read default cur w cl es = true -> forall x0, start S default cur w cl = Some x0 -> calm S es x0 /\ heard_run S es x0.
Proof. unfold heard_read. intros H x0 Hx. rewrite Hx in H. apply andb_true_iff in H as [H1 H2]. split; [now apply calmb_ok|now apply heardb_ok]. Qed.
End Check.

(** A terminal that does nothing of its own and shows no half characters. *)
Definition istill : iterminal := mkIterminal (fun _ sc => sc) (fun _ _ _ => IBlank).
Definition iempty : iscreen := mkIscreen 0 (fun _ => IBlank).
(** What stands at column [x] of an empty row after the session's writes. *)
Definition at_col (C : cfg) (s : buf) (x : Z) : islot := irow (idisplay (cE C) istill (inkify Before (out s)) iempty) x.

Lemma iimage_In E l : forall c x u i, iimage E c l x = IPart u i -> In u l.
Proof. induction l as [|m l IH]; intros c x u i H; cbn [iimage] in H; [discriminate|]. destruct (_ && _); [injection H as -> _; now left|]. right. eapply IH; exact H. Qed.
Lemma firstn_In {A} n (l : list A) x : In x (firstn n l) -> In x l.
Proof. intros H. rewrite <- (firstn_skipn n l). apply in_or_app. now left. Qed.
Lemma skipn_In {A} n (l : list A) x : In x (skipn n l) -> In x l.
Proof. intros H. rewrite <- (firstn_skipn n l). apply in_or_app. now right. Qed.
Lemma wrong_ink C s sc x m n i : topc s <= x -> irow sc x = IPart (m, Colour n) i -> ~ In (m, Colour n) (inked (ccol C) (cursor s) (line s)) -> ~ ishown C s sc.
Proof.
  intros Hx Hr Hi (k & pred & _ & _ & H & _). rewrite (H x Hx) in Hr. apply iimage_In in Hr. apply in_app_or in Hr as [Hr|Hr].
  - apply Hi. unfold ipart in Hr. now apply firstn_In, skipn_In in Hr.
  - apply in_map_iff in Hr as (m' & Hm & _). discriminate.
Qed.

(** Characters after the cursor in another colour than those before it. *)
Definition after_cursor : coloring := mkColoring 7 (fun past _ => if existsb (Z.eqb marker) past then 1 else 2).
Definition cfg_after : cfg := mkCfg E_off [] false [] [] (fun _ _ => []) (Some (s2l "$ ")) after_cursor ascii_upper.
Definition S_after : scfg := mkScfg cfg_after [] GlobalKeyMap.
Lemma builtin_after : only_builtin S_after.
Proof. intros k f. apply global_builtin. discriminate. Qed.
(** The colour of a character is the character before it. *)
Definition before_it : coloring := mkColoring 7 (fun past _ => Z.abs (hd 0 (filter (fun r => negb (r =? marker)) past))).
Definition cfg_before : cfg := mkCfg E_off sample_hist false [] [] (fun _ _ => []) (Some (s2l "$ ")) before_it ascii_upper.
Definition S_before : scfg := mkScfg cfg_before [] GlobalKeyMap.
Lemma builtin_before : only_builtin S_before.
Proof. intros k f. apply global_builtin. discriminate. Qed.
Lemma before_blind : blind before_it.
Proof.
  intros a b r. cbn [before_it c_next]. rewrite !filter_app. f_equal.
Qed.
Lemma before_true : true_colours before_it.
Proof. split; [discriminate|]. intros past r. cbn [before_it c_next]. lia. Qed.
Lemma after_true : true_colours after_cursor.
Proof. split; [discriminate|]. intros past r. cbn [after_cursor c_next]. destruct (existsb _ _); discriminate. Qed.
Lemma after_orderless : orderless after_cursor.
Proof.
  intros a b r H. cbn [after_cursor c_next]. replace (existsb (Z.eqb marker) b) with (existsb (Z.eqb marker) a); [reflexivity|].
  apply eq_true_iff_eq. rewrite !existsb_exists. split; intros (x & Hx & He); exists x; (split; [|exact He]); [|apply Permutation_sym in H]; now apply (Permutation_in x H).
Qed.
(** The unit at column [x] has none of the inks of the line. *)
Definition inkb (u v : painted) : bool :=
  match u, v with (MRaw a, Colour n), (MRaw b, Colour m) => (a =? b) && (n =? m) | _, _ => false end.
Definition staleb (S : scfg) (es : list event) (x : Z) : bool :=
  match readline S [] 0 80 (Some []) es with
  | Some (Running MNormal s) => (topc s <=? x) &&
      match at_col (base S) s x with
      | IPart ((MRaw r, Colour n) as u) _ => negb (existsb (inkb u) (inked (ccol (base S)) (cursor s) (line s)))
      | _ => false
      end
  | _ => false
  end.
Lemma staleb_ok S es x : staleb S es x = true -> exists s, readline S [] 0 80 (Some []) es = Some (Running MNormal s) /\
  exists other sc, ~ ishown (base S) s (idisplay (cE (base S)) other (inkify Before (out s)) sc).
Proof.
  unfold staleb. destruct (readline S [] 0 80 (Some []) es) as [[[| |ss] s|]|]; try discriminate. intros H. apply andb_true_iff in H as [H1 H2].
  exists s. split; [reflexivity|]. exists istill, iempty. unfold at_col in H2.
  destruct (irow _ x) as [|[m i0] i|] eqn:Hr; try discriminate. destruct m; try discriminate; destruct i0 as [|n|]; try discriminate.
  apply (wrong_ink (base S) s _ x (MRaw r) n i); [lia|exact Hr|]. intros Hi. apply negb_true_iff in H2. rewrite <- not_true_iff_false in H2. apply H2. apply existsb_exists.
  exists (MRaw r, Colour n). split; [exact Hi|]. cbn. lia.
Qed.
Lemma marker_stale : exists S es s, only_builtin S /\ true_colours (ccol (base S)) /\ orderless (ccol (base S)) /\
  readline S [] 0 80 (Some []) es = Some (Running MNormal s) /\
  exists other sc, ~ ishown (base S) s (idisplay (cE (base S)) other (inkify Before (out s)) sc).
Proof.
  exists S_after, (keys "ab" ++ [key 1; key 6]). destruct (staleb_ok S_after (keys "ab" ++ [key 1; key 6]) 2) as (s & H); [vm_compute; reflexivity|].
  exists s. split; [exact builtin_after|]. split; [exact after_true|]. split; [exact after_orderless|exact H].
Qed.
Lemma swap_stale : exists S es s, only_builtin S /\ blind (ccol (base S)) /\ true_colours (ccol (base S)) /\
  readline S [] 0 80 (Some []) es = Some (Running MNormal s) /\
  exists other sc, ~ ishown (base S) s (idisplay (cE (base S)) other (inkify Before (out s)) sc).
Proof.
  exists S_before, (keys "abcd" ++ [key 2; key 2; key 20]). destruct (staleb_ok S_before (keys "abcd" ++ [key 2; key 2; key 20]) 5) as (s & H); [vm_compute; reflexivity|].
  exists s. split; [exact builtin_before|]. split; [exact before_blind|]. split; [exact before_true|exact H].
Qed.
