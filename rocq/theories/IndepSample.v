(** Editors for the examples and the witness of C51. *)
From Verif Require Import Base Utf8 Moji Color Prompt Buffer Commands KeyMap Session Spec SpecIndep Sample TermSample.

(** Two such editors: other widths, another colouring; a wide and a narrow terminal, the
    second one resized in the middle of the input. *)
Definition indep_keys : list event := keys "ab " ++ [EKey (encode [769]); key 1; EKey [27; 102]; key 25] ++ keys "z" ++ [key 13].
Definition indep_keys2 : list event := keys "ab " ++ [EKey (encode [769]); EResize 60; key 1; EKey [27; 102]; EResize 12; key 25] ++ keys "z" ++ [key 13].
Definition S_plain : scfg := mkScfg (mkCfg (mkEnv true true true true true (fun _ => 1) (fun a _ => a) sample_vsme) [] false [] [] (fun _ _ => []) None
  (mkColoring 3 (fun _ r => r)) ascii_upper) [] GlobalKeyMap.
(** A predictor that looks at the cursor. *)
Definition cfg_cur : cfg := mkCfg E_off [] false (s2l "<") (s2l ">") (fun _ c => if c =? 0 then s2l "X" else s2l "Y") (Some (s2l "$ ")) VimBatch ascii_upper.
Definition S_cur : scfg := mkScfg cfg_cur [] GlobalKeyMap.
Lemma width_matters : exists x1 x2, only_builtin S_cur /\
  readline S_cur (s2l "aaaaaaaaaa") 10 80 (Some []) [key 1; EKey [27; 102]; key 6; key 13] = Some x1 /\
  readline S_cur (s2l "aaaaaaaaaa") 10 12 (Some []) [key 1; EKey [27; 102]; key 6; key 13] = Some x2 /\ told x1 <> told x2.
Proof.
  set (o1 := readline S_cur (s2l "aaaaaaaaaa") 10 80 (Some []) [key 1; EKey [27; 102]; key 6; key 13]).
  set (o2 := readline S_cur (s2l "aaaaaaaaaa") 10 12 (Some []) [key 1; EKey [27; 102]; key 6; key 13]).
  assert (H : match o1, o2 with Some (Finished _ t1 _), Some (Finished _ t2 _) => str_eqb t1 t2 = false | _, _ => False end) by (vm_compute; reflexivity).
  clearbody o1 o2. destruct o1 as [[m1 s1|s1 t1 e1]|]; [destruct H| |destruct H]. destruct o2 as [[m2 s2|s2 t2 e2]|]; [destruct H| |destruct H]. exists (Finished s1 t1 e1), (Finished s2 t2 e2).
  split; [intros k f; apply global_builtin; discriminate|]. split; [reflexivity|]. split; [reflexivity|].
  intros K. unfold told in K. injection K as _ _ _ K _. subst. now rewrite str_eqb_refl in H.
Qed.
