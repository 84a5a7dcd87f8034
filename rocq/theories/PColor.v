(** Theorems on colours, writers and widths: C21, C22, C24, C40. *)
From Verif Require Import Base Utf8 Moji Color WidthCache Writer SpecLib ColorFacts.

(** C21: codes put together with Add are written in order. *)
Theorem C21_add codes : codes <> [] -> fits_color codes ->
  sgr_text codes (color_write (fold_left color_add codes 0)).
Proof. exact (add_written codes). Qed.
Print Assumptions C21_add.
(** C21: Chain joins two sequences. *)
Theorem C21_chain a b : a ++ b <> [] -> fits_color (a ++ b) ->
  sgr_text (a ++ b) (color_write (color_chain (fold_left color_add a 0) (fold_left color_add b 0))).
Proof. exact (chain_written a b). Qed.
Print Assumptions C21_chain.
(** C21: SGR1 to SGR4. *)
Theorem C21_sgr a b c d : 0 <= a < 256 -> 0 <= b < 256 -> 0 <= c < 256 -> 0 <= d < 256 ->
  sgr_text [a] (color_write (SGR1 a)) /\ sgr_text [a; b] (color_write (SGR2 a b)) /\
  sgr_text [a; b; c] (color_write (SGR3 a b c)) /\ sgr_text [a; b; c; d] (color_write (SGR4 a b c d)).
Proof. exact (sgr_written a b c d). Qed.
Print Assumptions C21_sgr.
(** C21: the predefined colours, Black (0) to White (7) and the default (9), and the dark ones. *)
Theorem C21_constants i : 0 <= i <= 9 ->
  sgr_text [30 + i; 49; 1] (color_write (bright i)) /\ sgr_text [30 + i; 22; 49] (color_write (dark i)).
Proof. intros H. exact (conj (bright_written i ltac:(lia)) (dark_written i ltac:(lia))). Qed.
Print Assumptions C21_constants.
(** C21 needs its room: with a seventh code of 128 or more the sequence writes nothing,
    and an eighth code does not appear. *)
Theorem C21_refuted :
  color_write (fold_left color_add [1; 2; 3; 4; 5; 6; 128] 0) = [] /\
  color_write (fold_left color_add [1; 2; 3; 4; 5; 6; 7; 8] 0)
    = [27; 91] ++ semicolons [[49]; [50]; [51]; [52]; [53]; [54]; [55]; [48]] ++ [109].
Proof. vm_compute. split; reflexivity. Qed.
Print Assumptions C21_refuted.
(** ESC[38;5;208;1m and a full one of seven codes. *)
Example C21_case : fits_color [38; 5; 208; 1] /\ color_write (fold_left color_add [38; 5; 208; 1] 0)
    = [27; 91; 51; 56; 59; 53; 59; 50; 48; 56; 59; 49; 109] /\
  fits_color ([38; 5; 208; 1; 48] ++ [5; 127]) /\
  color_write (color_chain (fold_left color_add [38; 5; 208; 1; 48] 0) (fold_left color_add [5; 127] 0))
    = [27; 91] ++ semicolons (map dec [38; 5; 208; 1; 48; 5; 127]) ++ [109].
Proof.
  assert (B : forall l, forallb (fun c => (0 <=? c) && (c <? 256)) l = true -> Forall (fun c => 0 <= c < 256) l).
  { intros l H. rewrite forallb_forall in H. apply Forall_forall. intros x Hx. apply H in Hx. lia. }
  split; [split; [now apply B|left; vm_compute; discriminate]|].
  split; [vm_compute; reflexivity|]. split; [split; [now apply B|right; vm_compute; auto]|vm_compute; reflexivity].
Qed.

(** C22: writing a unit of text to any writer (which may accept only part of what it is
    given, and then reports an error): the count returned is the number of bytes it
    accepted, they are the beginning of the unit's text, and without an error all of it. *)
Theorem C22_unit m s n e s' : moji_WriteTo m s = (n, e, s') ->
  exists t, got s' = got s ++ t /\ n = zlen t /\ (exists rest, write m = t ++ rest) /\
    (e = false -> t = write m) /\ (e = true -> zlen t < zlen (write m)).
Proof. exact (moji_io m s n e s'). Qed.
Print Assumptions C22_unit.
(** C22 for colours: whatever the writer does, the count is that of the bytes written after
    the two bytes of the introducer.  Missing: that these two are counted; see
    C22_refuted. *)
Theorem C22_color_partial c s n e s' : color_WriteTo c s = (n, e, s') ->
  exists t1 t2, got s' = got s ++ t1 ++ t2 /\ n = zlen t2 /\ zlen t1 <= 2 /\
    (answers s = [] -> 0 < c -> t1 = [27; 91]).
Proof. exact (color_count c s n e s'). Qed.
Print Assumptions C22_color_partial.
(** C22 for colours: a writer that accepts everything gets the whole sequence, no error. *)
Theorem C22_color_full c s : answers s = [] ->
  exists n, color_WriteTo c s = (n, false, mkWst [] (got s ++ color_write c)) /\
  n = (if c <=? 0 then 0 else zlen (color_write c) - 2).
Proof. exact (color_full c s). Qed.
Print Assumptions C22_color_full.
(** C22 is false of colours: every one of them that is written is written with two bytes
    more than WriteTo returns; and a failure on the way is not reported. *)
Theorem C22_refuted :
  (exists n s, color_WriteTo (SGR1 31) (mkWst [] []) = (n, false, s) /\ n = 3 /\ zlen (got s) = 5) /\
  (exists n s, color_WriteTo (SGR2 31 7) (mkWst [2%nat; 1%nat] []) = (n, false, s) /\
     got s = [27; 91; 51; 109]).
Proof. split; eexists; eexists; vm_compute; repeat split. Qed.
Print Assumptions C22_refuted.
(** A flag of two regional indicators on a writer that takes three bytes of the second. *)
Example C22_case : moji_WriteTo (MVar (MRaw 9728) (MReg 65039)) (mkWst [3%nat; 2%nat] [120]) =
  (5, true, mkWst [] [120; 226; 152; 128; 239; 184]).
Proof. vm_compute. reflexivity. Qed.

(** C24: whatever was set, reset and asked before, a query answers the width last set for
    the character since the last reset, or the default. *)
Theorem C24_query default os r os' :
  exists w, nth (List.length os) (wrun default (os ++ WGet r :: os')) None = Some w /\
    (width_set os r w \/ ((forall w', ~ width_set os r w') /\ w = default r)).
Proof. exact (width_query default os r os'). Qed.
Print Assumptions C24_query.
Example C24_case : wrun (fun _ => 1) [WGet 65; WSet 65 2; WGet 65; WGet 66; WSet 66 0; WGet 66; WReset; WGet 65; WSet 65 3; WGet 65; WGet 66]
  = [Some 1; None; Some 2; Some 1; None; Some 0; None; Some 1; None; Some 3; Some 1].
Proof. vm_compute. reflexivity. Qed.

(** C40: a VimBatch object in any state, used in any way before: after Init, the answer to
    Next for the character c after the characters a is the colour the table demands. *)
Theorem C40_vimbatch bits before a c rest : exists x codes,
  nth (List.length before + 1 + List.length a)
      (vim_calls bits (before ++ VInit :: map VNext (a ++ c :: rest))) 0 = x /\
  vim_codes a c codes /\ sgr_text codes (color_write x).
Proof. exact (vim_object bits before a c rest). Qed.
Print Assumptions C40_vimbatch.
(** The table leaves no choice. *)
Theorem C40_table a c k1 k2 : vim_codes a c k1 -> vim_codes a c k2 -> k1 = k2.
Proof. unfold vim_codes. intros H1 H2. intuition (subst; try congruence). Qed.
Print Assumptions C40_table.
(** a%b"c%"d& e : the percent stretch runs up to the second percent sign. *)
Example C40_case : map color_write (vim_calls 3 (VInit :: map VNext [97; 37; 98; 34; 99; 37; 34; 100; 38])) =
  map color_write [ColorReset; DefaultForeGroundColor; Cyan; Cyan; Cyan; Cyan; Cyan; Magenta; DefaultForeGroundColor; DarkYellow].
Proof. vm_compute. reflexivity. Qed.
