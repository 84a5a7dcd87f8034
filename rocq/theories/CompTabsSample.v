(** An editor that completes names with tabs, for the example of PComp.v. *)
From Verif Require Import Base Utf8 Moji Color Prompt Buffer Commands KeyMap Session Spec Sample SpecTabs TabsSample SpecTabScript TabScriptSample
  Completion SpecComp CompSample SpecCompTabs.
Ltac lia := unfold rune in *; Lia.lia.

Definition tab_names : list str := [s2l "ap" ++ [9] ++ s2l "ple"; s2l "apples"; s2l "banana"].
Definition tab_fruit : completion := fixed tab_names [].
Definition text_uptob (E : env) (n : Z) (t : str) : bool := forallb (fun r => negb (joins E r)) (runes t) && (zlen (runes t) <=? n).
Lemma text_uptob_ok E n t : text_uptob E n t = true -> text_upto E n t.
Proof.
  intros H. apply andb_true_iff in H as [H1 H2]. split; [|now apply Z.leb_le].
  rewrite forallb_forall in H1. intros r Hr. specialize (H1 r Hr). now destruct (joins E r).
Qed.
Lemma comp_tabs_editor : completing_tabs (S_comp tab_fruit) up0 fold0 box0.
Proof.
  split; [|exact (script_sources (Script.SReturn CONTINUE))].
  intros k f Hk. exists tab_fruit, [32].
  assert (H : CUser f = CmdCompletion up0 fold0 (cfg_of E_off) tab_fruit [32] \/ CUser f = CmdCompletionOrList up0 fold0 (cfg_of E_off) box0 tab_fruit [32]).
  { cbn [kmap gmap S_comp] in Hk. unfold LookupCommand, Lookup in Hk. cbn [aget] in Hk. destruct (str_eqb k [9]); [left; now rewrite <- Hk|].
    destruct (str_eqb k [15]); [right; now rewrite <- Hk|]. exfalso. apply (global_builtin [] ltac:(discriminate) (cfg_of E_off) k f). exact Hk. }
  split; [exact H|]. split; [|split; [apply text_uptob_ok; vm_compute; reflexivity|]].
  - intros fs. exists tab_names, []. split; [reflexivity|]. split; [now left|]. split.
    + repeat (apply Forall_cons; [apply text_uptob_ok; vm_compute; reflexivity|]). apply Forall_nil.
    + apply even_caseb_ok; [|vm_compute; reflexivity]. repeat (apply Forall_cons; [apply valid_text; vm_compute; reflexivity|]). apply Forall_nil.
  - change (Enclosures tab_fruit) with [34; 39]. repeat (apply Forall_cons; [split; [lia|reflexivity]|]). apply Forall_nil.
Qed.
