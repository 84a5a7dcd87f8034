(** C77: two ways to the same line. *)
From Verif Require Import Base Utf8 Moji Color Prompt Buffer Commands KeyMap Session Spec Sample SpecOpposite SpecShortcut.
From Verif Require ShortcutFacts PWhole.

(** HOME is LEFT as often as there are characters before the cursor; END is RIGHT as often as
    there are behind it. *)
Theorem C77_home : forall S s kh kl, inside s -> bound S kh CBeginningOfLine -> bound S kl CBackwardChar ->
  equal_ways S with_clip s [EKey kh] (presses kl (Z.to_nat (cursor s))).
Proof. exact ShortcutFacts.home_lefts. Qed.
Print Assumptions C77_home.
Theorem C77_end : forall S s ke kr, inside s -> bound S ke CEndOfLine -> bound S kr CForwardChar ->
  equal_ways S with_clip s [EKey ke] (presses kr (Z.to_nat (zlen (cells s) - cursor s))).
Proof. exact ShortcutFacts.end_rights. Qed.
Print Assumptions C77_end.
(** KILL_LINE is DELETE to the end, UNIX_LINE_DISCARD is BACKSPACE to the beginning (the
    clipboard aside). *)
Theorem C77_kill : forall S s kk kd, inside s -> bound S kk CKillLine -> bound S kd CDeleteChar ->
  equal_ways S same_line s [EKey kk] (presses kd (Z.to_nat (zlen (cells s) - cursor s))).
Proof. exact ShortcutFacts.kill_deletes. Qed.
Print Assumptions C77_kill.
Theorem C77_discard : forall S s kk kb, inside s -> bound S kk CUnixLineDiscard -> bound S kb CBackwardDeleteChar ->
  equal_ways S same_line s [EKey kk] (presses kb (Z.to_nat (cursor s))).
Proof. exact ShortcutFacts.discard_backs. Qed.
Print Assumptions C77_discard.
(** DELETE is RIGHT and BACKSPACE; BACKSPACE is LEFT and DELETE. *)
Theorem C77_delete : forall S s kd kr kb, inside s -> cursor s < zlen (cells s) ->
  bound S kd CDeleteChar -> bound S kr CForwardChar -> bound S kb CBackwardDeleteChar ->
  equal_ways S with_clip s [EKey kd] [EKey kr; EKey kb].
Proof. exact ShortcutFacts.delete_back. Qed.
Print Assumptions C77_delete.
Theorem C77_backspace : forall S s kd kl kb, inside s -> 0 < cursor s ->
  bound S kd CDeleteChar -> bound S kl CBackwardChar -> bound S kb CBackwardDeleteChar ->
  equal_ways S with_clip s [EKey kb] [EKey kl; EKey kd].
Proof. exact ShortcutFacts.back_delete. Qed.
Print Assumptions C77_backspace.
(** Three ways to an empty line; the first two leave the whole line in the clipboard. *)
Theorem C77_empty : forall S s kh kk ke kd, inside s ->
  bound S kh CBeginningOfLine -> bound S kk CKillLine -> bound S ke CEndOfLine -> bound S kd CUnixLineDiscard ->
  equal_ways S with_clip s [EKey kh; EKey kk] [EKey ke; EKey kd].
Proof. exact ShortcutFacts.home_kill_end_discard. Qed.
Print Assumptions C77_empty.
Theorem C77_whole : forall S s kw kh kk, inside s -> bound S kw CKillWholeLine -> bound S kh CBeginningOfLine -> bound S kk CKillLine ->
  equal_ways S same_line s [EKey kw] [EKey kh; EKey kk].
Proof. exact ShortcutFacts.whole_home_kill. Qed.
Print Assumptions C77_whole.
(** Once or twice is the same. *)
Theorem C77_twice : forall S s k c, inside s -> bound S k c -> c = CBeginningOfLine \/ c = CEndOfLine \/ c = CKillWholeLine ->
  equal_ways S with_clip s [EKey k] [EKey k; EKey k].
Proof. exact ShortcutFacts.twice. Qed.
Print Assumptions C77_twice.
Theorem C77_twice_kill_partial : forall S s k c, inside s -> bound S k c -> c = CKillLine \/ c = CUnixLineDiscard ->
  equal_ways S same_line s [EKey k] [EKey k; EKey k].
Proof. exact ShortcutFacts.twice_line. Qed.
Print Assumptions C77_twice_kill_partial.
(** Missing: the clipboard.  Pressing CTRL-K once too often replaces the text just killed by
    the empty text, so that it cannot be pasted any more. *)
Definition C77_s : buf := PWhole.get (readline S_off (s2l "make test") 4 40 (Some []) []).
Definition C77_once : buf := PWhole.get (run S_off [key 11] (Running MNormal C77_s)).
Definition C77_more : buf := PWhole.get (run S_off [key 11; key 11] (Running MNormal C77_s)).
Theorem C77_twice_refuted :
  readline S_off (s2l "make test") 4 40 (Some []) [] = Some (Running MNormal C77_s) /\ bound S_off [11] CKillLine /\
  ~ equal_ways S_off with_clip C77_s [key 11] [key 11; key 11] /\
  text_of (run S_off [key 11; key 25] (Running MNormal C77_s)) = Some (s2l "make test") /\
  text_of (run S_off [key 11; key 11; key 25] (Running MNormal C77_s)) = Some (s2l "make").
Proof.
  split; [vm_compute; reflexivity|]. split; [reflexivity|]. split; [|split; vm_compute; reflexivity].
  apply (ShortcutFacts.other_clip S_off C77_s [key 11] [key 11; key 11] C77_once C77_more); [vm_compute; reflexivity|vm_compute; reflexivity|vm_compute; discriminate].
Qed.
Print Assumptions C77_twice_refuted.
(** The hypotheses are met, and none of the sequences crashes. *)
Example C77_case : inside C77_s /\ cursor C77_s = 4 /\ zlen (cells C77_s) = 9 /\
  bound S_off [1] CBeginningOfLine /\ bound S_off [5] CEndOfLine /\ bound S_off [2] CBackwardChar /\ bound S_off [6] CForwardChar /\
  bound S_off [21] CUnixLineDiscard /\ bound S_off [27] CKillWholeLine /\ bound S_off [8] CBackwardDeleteChar /\ bound S_off [27; 91; 51; 126] CDeleteChar /\
  Forall (fun es => run S_off es (Running MNormal C77_s) <> None)
    [[key 1]; presses [2] 4; [key 5]; presses [6] 5; [key 11]; presses [27; 91; 51; 126] 5; [key 21]; presses [8] 4; [key 6; key 8]; [key 1; key 11]; [key 5; key 21]; [key 27; key 27]].
Proof.
  split; [split; vm_compute; discriminate|]. do 10 (split; [vm_compute; reflexivity|]). repeat (apply Forall_cons; [vm_compute; discriminate|]). apply Forall_nil.
Qed.
