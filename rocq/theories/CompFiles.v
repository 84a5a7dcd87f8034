(** File name completion: lemmas for PComp.v. *)
From Verif Require Import Base Utf8 Moji Color Prompt Buffer Commands KeyMap Session MojiFacts Spec Completion SpecComp CompFacts CompSafe.
Ltac lia := unfold rune in *; Lia.lia.

Lemma until_slash_all l : ~ In 47 l -> until_slash l = l.
Proof.
  induction l as [|b l IH]; intros H; [reflexivity|]. cbn. unfold slash. destruct (b =? 47) eqn:Hb; [exfalso; apply H; left; lia|].
  rewrite IH; [reflexivity|]. intros Hi. apply H. now right.
Qed.
Lemma until_slash_app l r : ~ In 47 l -> until_slash (l ++ 47 :: r) = l.
Proof.
  induction l as [|b l IH]; intros H; [reflexivity|]. cbn. unfold slash. destruct (b =? 47) eqn:Hb; [exfalso; apply H; left; lia|].
  rewrite IH; [reflexivity|]. intros Hi. apply H. now right.
Qed.
Lemma path_base_of target dir base : path_of target dir base -> path_base target = base.
Proof.
  intros (-> & Hd & Hb). unfold path_base. rewrite rev_app_distr. assert (Hb' : ~ In 47 (rev base)) by now rewrite <- in_rev.
  destruct Hd as [->|[d ->]].
  - cbn. rewrite app_nil_r, until_slash_all, rev_involutive by assumption. reflexivity.
  - rewrite rev_app_distr. cbn [rev app]. rewrite until_slash_app, rev_involutive by assumption. reflexivity.
Qed.

Section WithFold.
Variable fold : rune -> rune.
Variable read_dir : str -> option (list entry).

Lemma File_List_split fuel fs target dir base : path_of target dir base -> target <> [] ->
  File_List fold read_dir fuel (fs ++ [target]) =
  match list_loop fold read_dir fuel dir base [] with None => LMore | Some l => LNames (map fst l) (map snd l) end.
Proof.
  intros Hp Hne. unfold File_List. rewrite rev_app_distr. cbn [rev app]. pose proof (path_base_of _ _ _ Hp) as Hb.
  destruct Hp as (Ht & Hd & Hn). destruct base as [|b base] using rev_ind.
  - rewrite app_nil_r in Ht. subst target. destruct Hd as [->|[d ->]]; [easy|]. rewrite rev_app_distr. cbn [rev app]. now rewrite Z.eqb_refl.
  - clear IHbase. rewrite app_assoc in Ht. rewrite Ht at 1. rewrite rev_app_distr. cbn [rev app].
    destruct (b =? slash) eqn:Hbs; [exfalso; apply Hn, in_app_iff; right; left; unfold slash in Hbs; lia|].
    rewrite Hb. replace (firstn _ target) with dir; [reflexivity|]. rewrite Ht, <- app_assoc, (app_length dir).
    replace (List.length dir + _ - _)%nat with (List.length dir) by lia. rewrite firstn_app, Nat.sub_diag, firstn_all. cbn. now rewrite app_nil_r.
Qed.

Lemma matches_wanted base e : matches fold base (fst e) = true <-> wanted fold base e.
Proof.
  unfold matches, wanted, dot_name. rewrite !andb_true_iff, !negb_true_iff, orb_false_iff, !str_eqb_neq.
  rewrite <- begins_dec, andb_true_iff. change (s2l ".") with [46]. change (s2l "..") with [46; 46].
  assert (H : zlen (fst e) <? zlen base = false <-> zlen base <=? zlen (fst e) = true) by lia. tauto.
Qed.
Lemma listed_hits dir base es hits : selected (wanted fold base) es hits ->
  flat_map (listed fold dir base) es = map (fun e => (full_name dir e, short_name e)) hits.
Proof.
  induction 1 as [|e es hits He _ IH|e es hits He _ IH]; [reflexivity| |]; cbn [flat_map]; rewrite IH; destruct e as [n d]; unfold listed.
  - apply matches_wanted in He. cbn [fst] in He. rewrite He. reflexivity.
  - destruct (matches fold base n) eqn:Hm; [|reflexivity]. now apply (matches_wanted base (n, d)) in Hm.
Qed.
Lemma zeroToOneDot_place d : zeroToOneDot d = place d.
Proof. destruct d; reflexivity. Qed.
Lemma suffix_slash d e : fst e <> [] /\ ~ In 47 (fst e) -> has_suffix (full_name d e) [47] = snd e.
Proof.
  destruct e as [n b]. cbn [fst snd]. intros [Hn H47]. unfold has_suffix, full_name, short_name. cbn [fst snd rev app].
  rewrite app_assoc. destruct b.
  - rewrite rev_app_distr. cbn [rev app]. now rewrite has_prefix_b.
  - rewrite app_nil_r. destruct n as [|x n] using rev_ind; [easy|]. rewrite app_assoc, rev_app_distr. cbn [rev app]. rewrite has_prefix_b.
    apply Z.eqb_neq. intros ->. apply H47, in_app_iff. right. now left.
Qed.
Lemma in_selected {A} (P : A -> Prop) (Q : A -> Prop) l l' : selected P l l' -> Forall Q l -> Forall Q l'.
Proof. intros H HF. apply selected_incl in H. rewrite Forall_forall in *. auto. Qed.

Lemma file_unreadable fuel fs target dir base : path_of target dir base -> target <> [] -> read_dir (place dir) = None ->
  File_List fold read_dir (S fuel) (fs ++ [target]) = LNames [] [].
Proof. intros Hp Ht Hr. rewrite (File_List_split _ _ _ _ _ Hp Ht). cbn [list_loop]. now rewrite zeroToOneDot_place, Hr. Qed.
Lemma file_list fuel fs target dir base es hits : path_of target dir base -> target <> [] ->
  read_dir (place dir) = Some es -> good_names es -> selected (wanted fold base) es hits ->
  (forall n, hits <> [(n, true)]) ->
  File_List fold read_dir (S fuel) (fs ++ [target]) = LNames (map (full_name dir) hits) (map short_name hits).
Proof.
  intros Hp Ht Hr Hg Hs Hone. rewrite (File_List_split _ _ _ _ _ Hp Ht). cbn [list_loop]. rewrite zeroToOneDot_place, Hr, (listed_hits _ _ _ _ Hs).
  cbn [app]. pose proof (in_selected _ _ _ _ Hs Hg) as Hgh.
  destruct hits as [|e [|e2 hits]]; [reflexivity| |].
  - cbn [map]. unfold slash. inversion Hgh as [|? ? He _]; subst. rewrite (suffix_slash dir e He). destruct e as [n [|]]; [|reflexivity].
    exfalso. now apply (Hone n).
  - cbn [map]. now rewrite !map_map.
Qed.
Lemma file_in_dir fuel fs target dir base es n sub hits : path_of target dir base -> target <> [] ->
  read_dir (place dir) = Some es -> good_names es -> selected (wanted fold base) es [(n, true)] ->
  sub = dir ++ n ++ [47] -> read_dir sub = None /\ hits = [] \/
    (exists es', read_dir sub = Some es' /\ selected (wanted fold []) es' hits /\ hits <> []) ->
  File_List fold read_dir (S (S fuel)) (fs ++ [target]) =
    LNames (sub :: map (full_name sub) hits) ((n ++ [47]) :: map short_name hits).
Proof.
  intros Hp Ht Hr Hg Hs -> Hsub. rewrite (File_List_split _ _ _ _ _ Hp Ht). cbn [list_loop]. rewrite zeroToOneDot_place, Hr, (listed_hits _ _ _ _ Hs).
  cbn [app map]. pose proof (in_selected _ _ _ _ Hs Hg) as Hgh. inversion Hgh as [|? ? He _]; subst. unfold slash. rewrite (suffix_slash dir _ He). cbn [snd].
  change (full_name dir (n, true)) with (dir ++ n ++ [47]). rewrite zeroToOneDot_place.
  replace (place (dir ++ n ++ [47])) with (dir ++ n ++ [47]) by (destruct dir; [destruct n|]; reflexivity).
  destruct Hsub as [[-> ->]|(es' & -> & Hs' & Hne)]; [reflexivity|]. rewrite (listed_hits _ _ _ _ Hs').
  destruct hits as [|h hits]; [easy|]. cbn [map app fst snd]. now rewrite !map_map.
Qed.
Lemma file_empty_dir fs target dir base es n sub es' : path_of target dir base -> target <> [] ->
  read_dir (place dir) = Some es -> good_names es -> selected (wanted fold base) es [(n, true)] ->
  sub = dir ++ n ++ [47] -> read_dir sub = Some es' -> selected (wanted fold []) es' [] ->
  forall fuel, File_List fold read_dir fuel (fs ++ [target]) = LMore.
Proof.
  intros Hp Ht Hr Hg Hs -> Hsub Hs' fuel. rewrite (File_List_split _ _ _ _ _ Hp Ht). destruct fuel as [|fuel]; [reflexivity|].
  cbn [list_loop]. rewrite zeroToOneDot_place, Hr, (listed_hits _ _ _ _ Hs).
  cbn [app map]. pose proof (in_selected _ _ _ _ Hs Hg) as Hgh. inversion Hgh as [|? ? He _]; subst. unfold slash. pose proof (suffix_slash dir _ He) as Hsf. cbn [snd] in Hsf.
  rewrite Hsf. change (full_name dir (n, true)) with (dir ++ n ++ [47]) in *.
  replace (list_loop _ _ _ _ _ _) with (@None (list (str * str))); [reflexivity|]. induction fuel as [|fuel IH]; [reflexivity|]. cbn [list_loop].
  rewrite zeroToOneDot_place. replace (place (dir ++ n ++ [47])) with (dir ++ n ++ [47]) by (destruct dir; [destruct n|]; reflexivity).
  rewrite Hsub, (listed_hits _ _ _ _ Hs'). cbn [map app]. unfold slash. rewrite Hsf. exact IH.
Qed.
Lemma file_empty_word fuel fs : File_List fold read_dir fuel (fs ++ [[]]) = LPanic.
Proof. unfold File_List. rewrite rev_app_distr. reflexivity. Qed.
End WithFold.
