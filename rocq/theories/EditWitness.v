(** Witnesses against the general claims. *)
From Verif Require Import Base Utf8 Moji Color Prompt Buffer Commands KeyMap Session Spec Sample WordFacts.

Lemma kill_yank_break : exists s s1 s2 r1 r2, after_keys S_off (keys "x" ++ [key 17; key 10]) = Some s /\
  exec (base S_off) CUnixLineDiscard s = Some (s1, r1) /\ exec (base S_off) CYank s1 = Some (s2, r2) /\
  written (line s) = [120; 10] /\ clip s1 = Some [120; 10] /\ written (line s2) = [120].
Proof.
  do 5 eexists. split; [vm_compute; reflexivity|]. split; [vm_compute; reflexivity|]. split; [vm_compute; reflexivity|].
  vm_compute. auto.
Qed.
Lemma tab_not_blank : exists s s' r, after_keys S_off [key 97; key 17; key 9; key 98] = Some s /\
  written (line s) = [97; 9; 98] /\ cursor s = 3 /\
  exec (base S_off) CBackwardWord s = Some (s', r) /\ cursor s' = 0.
Proof.
  do 3 eexists. split; [vm_compute; reflexivity|]. split; [vm_compute; reflexivity|]. split; [vm_compute; reflexivity|].
  split; vm_compute; reflexivity.
Qed.
Lemma CurrentWord_joined : exists s p t pos, readline S_on (encode [128104; 8205; 128105; 98]) 9 80 None [] = Some (Running MNormal s) /\
  at_split s p [] /\ CurrentWord s = Some (t, pos) /\ t = [98] /\ ~ word_boundary (firstn (Z.to_nat pos) p).
Proof.
  do 4 eexists. split; [vm_compute; reflexivity|]. split; [split; [cbn; now rewrite app_nil_r|reflexivity]|].
  split; [vm_compute; reflexivity|]. split; [reflexivity|]. vm_compute. intros [H|(a & m & H1 & H2 & _)]; [discriminate|].
  destruct a as [|? [|]]; try discriminate. injection H1 as <-. discriminate.
Qed.

(** Word rubout leaves a joined character at the start of the word where it is. *)
Lemma rubout_joined : exists s s' r p, readline S_on (encode [128104; 8205; 128105; 98]) 9 80 (Some []) [] = Some (Running MNormal s) /\
  at_split s p [] /\ Forall (fun m => blank m = false) p /\ exec (base S_on) CUnixWordRubout s = Some (s', r) /\ clip s' = Some [98] /\
  line s' = firstn 1 p /\ line s' <> [].
Proof.
  do 4 eexists. split; [vm_compute; reflexivity|]. split; [split; [cbn; now rewrite app_nil_r|reflexivity]|].
  split; [repeat (apply Forall_cons; [reflexivity|]); apply Forall_nil|].
  split; [vm_compute; reflexivity|]. split; [reflexivity|]. split; [reflexivity|]. discriminate.
Qed.
