(** The project's own unit tests (the *_test.go files of /repo), run on the model.  They say
    nothing about all inputs; they check the model against results the authors expect. *)
From Verif Require Import Base Utf8 Moji Color Prompt Buffer Commands KeyMap KeyInput Session Sample.

(** slice_test.go:8-27 *)
Example TestSliceInsert : sliceInsert [1; 2; 3; 4; 5] 3 [6; 7; 8] = Some [1; 2; 3; 6; 7; 8; 4; 5].
Proof. reflexivity. Qed.
Example TestSliceDelete : sliceDelete [1; 2; 3; 4; 5] 2 2 = Some [1; 2; 5].
Proof. reflexivity. Qed.

(** color_test.go:7-21 *)
Example TestColorSequenceAdd :
  let c1 := color_add 0 1 in let c2 := color_add c1 2 in
  c1 = 1 * 256 + 1 /\ c2 = 2 * 256 * 256 + 1 * 256 + 2 /\
  color_chain c2 c2 = 2 * 256 * 256 * 256 * 256 + 1 * 256 * 256 * 256 + 2 * 256 * 256 + 1 * 256 + 4.
Proof. vm_compute. auto. Qed.

(** main_test.go:7-21 *)
Example TestCutEscapeSequenceAndOldLine :
  cutEscapeSequenceAndOldLine (s2l "2022-08-08 19:12:55.96" ++ [8; 8; 8] ++ s2l ">") = s2l "2022-08-08 19:12:55>" /\
  cutEscapeSequenceAndOldLine (s2l "first line" ++ [10] ++ s2l "second line") = s2l "second line".
Proof. vm_compute. auto. Qed.

(** The widths that the width tables give the code points of moji_test.go, and the variation
    selectors and enclosing marks of Unicode. *)
Definition test_rw (r : rune) : Z :=
  if r <? 32 then 0 else if r <? 127 then 1 else if in_range r 127 159 then 0 else if r =? 9792 then 1
  else if in_range r 65024 65039 || in_range r 917760 917999 || in_range r 8416 8420 || (r =? 8205) then 0 else 2.
Definition test_vsme (r : rune) : bool :=
  in_range r 65024 65039 || in_range r 917760 917999 || in_range r 6155 6157 || (r =? 6159) ||
  in_range r 1160 1161 || (r =? 6846) || in_range r 8413 8416 || in_range r 8418 8420 || in_range r 42608 42610.
(** Windows Terminal (the tests expect joined characters), and the switches moved by TestCodePointPut. *)
Definition test_on : env := mkEnv true true true true false test_rw (fun a b => a + 1 + b) test_vsme.
Definition test_off : env := mkEnv false false true false false test_rw (fun a b => a + 1 + b) test_vsme.
Definition printed (E : env) (l : list moji) : option str :=
  fold_right (fun m o => match print E m, o with Some a, Some b => Some (a ++ b) | _, _ => None end) (Some []) l.

(** internal/moji/moji_test.go:8-19; the man, U+200D, the rice. *)
Definition manFarmer : str := encode [128104; 8205; 127806].
Example TestZeroWidthJoinSequenceWidth : map (width test_on) (StringToMoji test_on manFarmer) = [5].
Proof. vm_compute. reflexivity. Qed.
(** moji_test.go:21-47 *)
Example TestCodePointPut :
  let source := s2l "1" ++ [8; 9; 127] ++ encode [37002; 917764] in
  let mojis := StringToMoji test_off source in
  printed test_off mojis = Some (s2l "1^H <7F>" ++ encode [37002] ++ s2l "<E0104>") /\
  flat_map write mojis = source.
Proof. vm_compute. auto. Qed.
(** moji_test.go:49-103 *)
Example TestString2Moji : forall source w, In (source, w)
  [(encode [129318; 8205; 9792; 65039], 5); (s2l "#" ++ encode [65039; 8419], 3); (encode [127987; 65039], 2); (encode [128583; 127999], 4)] ->
  map (width test_on) (StringToMoji test_on source) = [w] /\ MojiWidthAndCountInString test_on source = (w, 1).
Proof.
  intros source w H. repeat (destruct H as [[= <- <-]|H]; [vm_compute; auto|]). destruct H.
Qed.

(** An Editor with nothing set but Tty, Writer and PromptWriter. *)
Definition test_editor (E : env) (prompt : str) : scfg :=
  mkScfg (mkCfg E [] false [] [] (predictByHistory []) (Some prompt) monoChrome ascii_upper) [] GlobalKeyMap.
Definition piloted (E : env) (prompt : str) (script : list str) : option (str * rerr) :=
  match readline (test_editor E prompt) [] 0 80 None (map EKey (Pilot_keys (List.length script + 2) script)) with
  | Some (Finished _ text err) => Some (text, err)
  | _ => None
  end.
(** auto/main_test.go:11-23 *)
Example TestDummyIn : piloted test_on (s2l "> ") [s2l "a"; s2l "i"; s2l "u"; [8]; [27; 91; 68]; s2l "e"] = Some (s2l "aei", RNil) /\
  piloted test_off (s2l "> ") [s2l "a"; s2l "i"; s2l "u"; [8]; [27; 91; 68]; s2l "e"] = Some (s2l "aei", RNil).
Proof. vm_compute. auto. Qed.
(** gommand_test.go:38-50.  It passes where joined characters are supported only. *)
Example TestKeyFuncBackSpace : piloted test_on [] [manFarmer; [8]; s2l "x"] = Some (s2l "x", RNil) /\
  piloted test_off [] [manFarmer; [8]; s2l "x"] = Some (encode [128104; 8205] ++ s2l "x", RNil).
Proof. vm_compute. auto. Qed.
