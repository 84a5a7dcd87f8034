(** A configuration whose widths a terminal can agree with (C44). *)
From Verif Require Import Base Utf8 Moji Color Prompt Buffer Commands KeyMap Session Spec SpecTerm SpecPaint Sample.

Definition term_rw (r : rune) : Z :=
  if control r then 0 else if r <? 128 then 1 else if in_range r 768 879 then 0 else if r =? 8205 then 1
  else if in_range r 127462 127487 then 1 else 2.
Definition term_tw (r : rune) : Z := if in_range r 127462 127487 then 2 else term_rw r.
Definition E_term : env := mkEnv true true true true false term_rw (fun a b => a + 1 + b) sample_vsme.
Definition S_term : scfg := mkScfg (cfg_of E_term) [] GlobalKeyMap.
Lemma term_agrees : agrees E_term term_tw.
Proof.
  unfold term_tw. constructor; cbn [rw zw E_term]; unfold term_rw, control, in_range; intros.
  - repeat (match goal with |- context [if ?b then _ else _] => destruct b end; try lia).
  - repeat (match goal with |- context [if ?b then _ else _] => destruct b end; try lia).
  - replace ((127462 <=? r) && (r <=? 127487)) with false by lia. replace ((0 <=? r) && (r <=? 31) || (127 <=? r) && (r <=? 159)) with false by lia. now replace (r <? 128) with true by lia.
  - now replace ((127462 <=? r) && (r <=? 127487)) with false by lia.
  - now replace ((127462 <=? r) && (r <=? 127487)) with true by lia.
  - reflexivity.
  - now replace ((0 <=? r) && (r <=? 31) || (127 <=? r) && (r <=? 159)) with true by lia.
Qed.
Lemma builtin_term : only_builtin S_term.
Proof. unfold only_builtin. intros. apply (global_builtin []). discriminate. Qed.

(** A colouring that answers how much it has heard. *)
Definition counting : coloring := mkColoring 7 (fun past _ => zlen past).
Definition cfg_count : cfg := mkCfg E_term [] false [] [] (fun _ _ => []) (Some (s2l "$ ")) counting ascii_upper.
Definition S_count : scfg := mkScfg cfg_count [] GlobalKeyMap.

(** The line "a", variation selector 16, "b". *)
Definition var_text : str := encode [97; 65039; 98].
Lemma builtin_count : only_builtin S_count.
Proof. intros k f. apply global_builtin. discriminate. Qed.
Lemma heard_more : exists C s l h, only_builtin (mkScfg C [] GlobalKeyMap) /\ reached (mkScfg C [] GlobalKeyMap) (Running MNormal s) /\
  refresh_loop C (cursor s) 0 0 [] (cells s) = Some (l, h) /\
  rev h <> marked (cursor s) (line s) ++ (if cursor s =? zlen (line s) then [marker] else []).
Proof.
  exists cfg_count.
  set (o := readline S_count var_text 0 80 (Some []) []).
  assert (H : match o with
              | Some (Running MNormal s) =>
                match refresh_loop cfg_count (cursor s) 0 0 [] (cells s) with
                | Some (l, h) => negb (str_eqb (rev h) (marked (cursor s) (line s) ++ (if cursor s =? zlen (line s) then [marker] else [])))
                | None => false
                end
              | _ => false
              end = true) by (vm_compute; reflexivity).
  destruct o as [[[| |] s|]|] eqn:Ho; try discriminate H.
  destruct (refresh_loop cfg_count (cursor s) 0 0 [] (cells s)) as [[l h]|] eqn:Hr; [|discriminate H].
  exists s, l, h. split; [apply builtin_count|]. split; [now exists var_text, 0, 80, (Some []), []|]. split; [exact Hr|].
  intros He. rewrite <- He in H. apply negb_true_iff in H. assert (K : forall t, str_eqb t t = true) by (intros t; now apply str_eqb_eq). now rewrite K in H.
Qed.

(** The line "a", zero width joiner, line feed. *)
Definition zwj_text : str := encode [97; 8205; 10].
Lemma raw_newline : exists S x m bs tw, only_builtin S /\ reached S x /\ agrees (cE (base S)) tw /\
  In m (map c_moji (cells (buf_of x))) /\ print (cE (base S)) m = Some bs /\ In 10 bs /\
  exists other, ~ advances tw other bs (width (cE (base S)) m).
Proof.
  exists S_term. set (o := readline S_term zwj_text 0 80 (Some []) []).
  assert (H : match o with
              | Some x => match map c_moji (cells (buf_of x)) with [MZwj (MRaw 97) (MRaw 10)] => true | _ => false end
              | _ => false
              end = true) by (vm_compute; reflexivity).
  destruct o as [x|] eqn:Ho; [|discriminate H]. exists x, (MZwj (MRaw 97) (MRaw 10)), zwj_text, term_tw.
  split; [apply builtin_term|]. split; [now exists zwj_text, 0, 80, (Some []), []|]. split; [apply term_agrees|]. split; [|split; [|split]].
  - clear Ho o. destruct (map c_moji (cells (buf_of x))) as [|m [|]]; try discriminate; [|].
    + left. revert H. repeat (match goal with |- context [match ?e with _ => _ end] => is_var e; destruct e end); try discriminate; reflexivity.
    + exfalso. revert H. repeat (match goal with |- context [match ?e with _ => _ end] => is_var e; destruct e end); discriminate.
  - vm_compute. reflexivity.
  - vm_compute. auto 10.
  - exists (fun _ st => (0, snd st)). intros K. specialize (K 5 0 ltac:(lia)). vm_compute in K. discriminate.
Qed.

(** A mathematical letter, one column wide, followed by a skin tone: alone it is painted in
    two columns, under the modifier in one, and two are counted in both cases. *)
Definition bold_rw (r : rune) : Z := if r =? 119808 then 1 else term_rw r.
Definition bold_tw (r : rune) : Z := if r =? 119808 then 1 else term_tw r.
Definition E_bold : env := mkEnv true true true true false bold_rw (fun a b => a + 1 + b) sample_vsme.
Definition S_bold : scfg := mkScfg (cfg_of E_bold) [] GlobalKeyMap.
Lemma bold_agrees : agrees E_bold bold_tw.
Proof.
  destruct term_agrees as [A B D F G H I]. unfold bold_tw. constructor; cbn [rw zw E_bold]; unfold bold_rw; intros.
  - destruct (r =? 119808); [lia|apply A].
  - destruct (r =? 119808); [lia|apply B].
  - replace (r =? 119808) with false by lia. now apply D.
  - destruct (r =? 119808); [reflexivity|now apply F].
  - replace (r =? 119808) with false by lia. now apply G.
  - reflexivity.
  - replace (r =? 119808) with false by lia. now apply I.
Qed.
Definition bold_unit : moji := MMod (MFlag 119808) (MRaw 127995).
Lemma bold_wrong : only_builtin S_bold /\ agrees E_bold bold_tw /\ (exists x, reached S_bold x /\ map c_moji (cells (buf_of x)) = [bold_unit]) /\
  width E_bold bold_unit = 4 /\ exists bs, print E_bold bold_unit = Some bs /\ bs = write bold_unit /\ forall other, advances bold_tw other bs 3.
Proof.
  split; [intros k f; apply global_builtin; discriminate|]. split; [apply bold_agrees|]. split.
  - set (o := readline S_bold (encode [119808; 127995]) 0 80 (Some []) []).
    assert (H : option_map (fun x => map c_moji (cells (buf_of x))) o = Some [bold_unit]) by (vm_compute; reflexivity).
    destruct o as [x|] eqn:Ho; [|discriminate H]. exists x. split; [now exists (encode [119808; 127995]), 0, 80, (Some []), []|]. now injection H.
  - split; [vm_compute; reflexivity|]. eexists. split; [vm_compute; reflexivity|]. split; [vm_compute; reflexivity|].
    intros other c sv Hc. set (rs := runes _). vm_compute in rs. subst rs. cbn [tshow andb Z.eqb Pos.eqb]. unfold tone.
    cbn. lia.
Qed.
