(** The property theorems of C37 for lines with tabs that scroll. *)
From Verif Require Import Base Utf8 Moji Color Prompt Buffer Commands KeyMap Session Spec Sample SpecScreen ScreenCheck SpecTabScreen SpecTabScroll TabScrollCheck.
From Verif Require TabScrollSess.

Lemma screen_scroll S default cur w cl es x :
  sane_widths (cE (base S)) -> only_builtin S ->
  (forall x0, start S default cur w cl = Some x0 -> calm_scroll S es x0) ->
  readline S default cur w cl es = Some x ->
  forall other sc, scrolled_right (cE (base S)) x (display (cE (base S)) other (out (buf_of x)) sc).
Proof. intros HE HB Hc H other sc. apply (TabScrollSess.readline_screen S HE other HB default cur w cl es x sc Hc H). Qed.

Definition past_text : list Z := s2l "aaaaaaaaaaaaaa" ++ [9; 9; 9; 9; 9].
Definition past_keys : list event := List.concat (repeat [key 6] 19).
Lemma past_edge : exists default es s,
  readline S_off default 0 20 (Some []) es = Some (Running MNormal s) /\ termw s = 20 /\
  forall other sc, termw s + 3 < col (display E_off other (out s) sc).
Proof.
  exists past_text, past_keys. set (o := readline _ _ _ _ _ _).
  assert (H : match o with Some (Running MNormal s) => termw s = 20 /\ (termw s + 3 <? topc s + total_width E_off (part (laid E_off 0 (line s)) (view s) (cursor s))) = true | _ => False end) by (vm_compute; auto).
  pose proof (screen_scroll S_off past_text 0 20 (Some []) past_keys) as X. fold o in X.
  destruct o as [[[| |ss] s|s t r]|]; try destruct H. exists s. split; [reflexivity|]. split; [assumption|]. intros other sc.
  destruct (X (Running MNormal s) sane_off builtin_off) with (other := other) (sc := sc) as (k & pr & _ & _ & _ & Hc).
  - apply calm_scroll_read_ok. vm_compute. reflexivity.
  - reflexivity.
  - cbn [buf_of] in Hc. change (cE (base S_off)) with E_off in Hc. rewrite Hc. lia.
Qed.
