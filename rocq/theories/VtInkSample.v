(** Sequences that only set colours, and a colouring whose colours go wrong, for C69. *)
From Verif Require Import Base Utf8 Moji Color Prompt Buffer Commands KeyMap Session Spec SpecLib SpecTerm SpecScreen SpecPaint SpecInk SpecVt SpecVtInk Sample
  VtSample InkSample TermFacts VtFacts VtInk.
Ltac lia := unfold rune in *; Lia.lia.

Lemma sgr_colours V worn (ps : list Z) : forallb (fun r => (32 <=? r) && (r <=? 63)) ps = true -> colours_only V worn ([27; 91] ++ ps ++ [109]).
Proof.
  intros Hp. split; [now apply sgr_attribute|]. intros c Hv Hc x.
  assert (P : Forall param ps) by (apply Forall_forall; intros y Hy; eapply forallb_forall in Hp; [|exact Hy]; cbn beta in Hp; unfold param; lia).
  destruct (cfeed_csi V worn ps 109 c Hv P ltac:(lia)) as [_ B]. unfold csi_touch in B. cbn [Z.eqb Pos.eqb andb] in B. exact (f_equal (fun f => f x) B).
Qed.

(** A terminal that has received no colours. *)
Definition c_blank : cvt := mkCvt (mkVt Ground 0 (fun _ => Empty) 0 true) [] (fun _ => []).
(** The session's line on it: characters and codes of the columns from [a] on. *)
Definition ink_seen (S : scfg) (V : vterm) (x : option sess) (a : Z) (n : nat) (l : nat) : list (vcell * list Z) :=
  match x with
  | Some (Running MNormal s) =>
      let c := cbytes V (fun _ _ _ => []) (out_bytes (cE (base S)) (fun _ => [10]) (out s)) c_blank in
      map (fun i => let x := a + Z.of_nat i in (v_row (c_vt c) x, skipn (List.length (c_ink c x) - l) (c_ink c x))) (seq 0 n)
  | _ => []
  end.

(** Characters after the cursor cyan, those before it magenta. *)
Definition by_cursor : coloring := mkColoring ColorReset (fun past _ => if existsb (Z.eqb marker) past then Cyan else Magenta).
Definition S_by : scfg := mkScfg (mkCfg E_vt [] false [] [] (fun _ _ => []) (Some (s2l "$ ")) by_cursor ascii_upper) [] GlobalKeyMap.
Lemma by_builtin : only_builtin S_by.
Proof. intros k f. apply global_builtin. discriminate. Qed.
Lemma by_true : true_colours by_cursor.
Proof. split; [discriminate|]. intros past r. cbn [by_cursor c_next]. destruct (existsb _ _); discriminate. Qed.
Lemma magenta_codes : sgr_text [35; 49; 1] (color_write Magenta).
Proof.
  exists [[51; 53]; [52; 57]; [49]]. split; [|vm_compute; reflexivity].
  repeat constructor; unfold digit; try lia; intros; try discriminate.
Qed.
Lemma by_stale : exists s, readline S_by [] 0 80 (Some []) (keys "ab" ++ [key 1; key 6]) = Some (Running MNormal s) /\
  ~ vt_colours V_vt (fun _ _ _ => []) (base S_by) (Running MNormal s) (cbytes V_vt (fun _ _ _ => []) (out_bytes E_vt (fun _ => [10]) (out s)) c_blank).
Proof.
  set (x := readline S_by [] 0 80 (Some []) (keys "ab" ++ [key 1; key 6])).
  assert (Hx : match x with Some (Running MNormal s) => cursor s = 1 /\ view s = 0 /\ topc s = 2 /\
    inked (ccol (base S_by)) (cursor s) (line s) = [(MRaw 97, Colour Magenta); (MRaw 98, Colour Cyan)] /\
    skipn 23 (c_ink (cbytes V_vt (fun _ _ _ => []) (out_bytes E_vt (fun _ => [10]) (out s)) c_blank) 2) = [36; 49; 1] | _ => False end).
  { vm_compute. auto. }
  destruct x as [[[| |ss] s|s t r]|]; try destruct Hx. exists s. split; [reflexivity|]. destruct H0 as (H1 & H2 & H3 & H4).
  intros (k & pred & gs & K1 & _ & _ & _ & K). rewrite H3, H1, H2 in K.
  destruct (Z.to_nat (k - 0)) as [|n] eqn:Hn; [lia|]. unfold ipart in K. rewrite Hn in K. cbn [Z.to_nat skipn firstn app] in K.
  specialize (K [] _ _ 2 eq_refl ltac:(cbn; lia) [35; 49; 1] magenta_codes) as [q' K]. rewrite <- (firstn_skipn 23 (c_ink _ _)), H4 in K.
  apply (f_equal (@rev Z)) in K. rewrite !rev_app_distr in K. discriminate.
Qed.
