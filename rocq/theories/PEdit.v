(** C02, C07, C08, C09, C11, C12, C13, C14, C45, C46: what the editing commands do.
    The theorems say what holds whenever the command returns; C04 says when it does. *)
From Verif Require Import SpecScript.
From Verif Require Import Base Utf8 Moji Color Prompt Buffer Commands KeyMap Session Spec Sample.
From Verif Require CmdFacts WordFacts EditFacts EditProps EditMore EditWitness.

(** * C02: Buffer.InsertString and Buffer.Delete *)
Theorem C02_insert : forall C s pos t, 0 <= pos <= zlen (cells s) ->
  exists s', InsertString C s pos t = Some (s', Z.of_nat (List.length (StringToMoji (cE C) t))) /\
    line s' = firstn (Z.to_nat pos) (line s) ++ split (cE C) t ++ skipn (Z.to_nat pos) (line s) /\
    s' = set_undoes (set_cells s (cells s')) (undoes s').
Proof. exact CmdFacts.InsertString_ok. Qed.
Print Assumptions C02_insert.
Theorem C02_insert_panic : forall C s pos t, ~ (0 <= pos <= zlen (cells s)) -> InsertString C s pos t = None.
Proof. exact CmdFacts.InsertString_panic. Qed.
Print Assumptions C02_insert_panic.
Theorem C02_delete : forall C s pos n, 0 <= pos -> 0 < n -> pos + n <= zlen (cells s) ->
  exists s', Delete C s pos n
    = Some (s', total_width (cE C) (map c_moji (firstn (Z.to_nat n) (skipn (Z.to_nat pos) (cells s))))) /\
    cells s' = firstn (Z.to_nat pos) (cells s) ++ skipn (Z.to_nat (pos + n)) (cells s) /\
    s' = set_undoes (set_cells s (cells s')) (undoes s').
Proof. exact CmdFacts.Delete_ok. Qed.
Print Assumptions C02_delete.
Theorem C02_delete_nothing : forall C s pos n, n <= 0 \/ zlen (cells s) < pos + n -> Delete C s pos n = Some (s, 0).
Proof. exact CmdFacts.Delete_nothing. Qed.
Print Assumptions C02_delete_nothing.
Theorem C02_delete_panic : forall C s pos n, pos < 0 -> 0 < n -> pos + n <= zlen (cells s) -> Delete C s pos n = None.
Proof. exact CmdFacts.Delete_panic. Qed.
Print Assumptions C02_delete_panic.
Example C02_case : exists s s' s'', after_keys S_off (keys "hello") = Some s /\
  InsertString (base S_off) s 2 (encode [128104; 9]) = Some (s', 2) /\
  line s' = raws "he" ++ [MRaw 128104; MTab 0] ++ raws "llo" /\ cursor s' = 5 /\
  Delete (base S_off) s' 1 3 = Some (s'', 5) /\ line s'' = raws "hllo".
Proof. do 3 eexists. split; [vm_compute; reflexivity|]. split; [vm_compute; reflexivity|]. vm_compute. repeat split. Qed.

(** * C07: cursor movement changes nothing but the cursor and the display *)
Theorem C07_moves : forall C c s s' r, is_move c = true ->
  (c = CForwardChar -> suffix s = None \/ suffix s = Some [] \/ cursor s < zlen (cells s)) ->
  exec C c s = Some (s', r) -> same_content s s' /\ r = CONTINUE.
Proof. exact CmdFacts.move_same. Qed.
Print Assumptions C07_moves.
Theorem C07_resize : forall S w s s', on_resize S w s = Some s' -> same_content s s' /\ cursor s' = cursor s.
Proof. exact EditMore.resize_same. Qed.
Print Assumptions C07_resize.
Example C07_case : exists s s' r, after_keys S_off (keys "one two" ++ [key 2; key 2]) = Some s /\
  exec (base S_off) CBackwardWord s = Some (s', r) /\ cursor s' = 4 /\ line s' = raws "one two" /\
  on_resize S_off 40 s' <> None.
Proof. do 3 eexists. split; [vm_compute; reflexivity|]. split; [vm_compute; reflexivity|]. vm_compute. repeat split. discriminate. Qed.

(** * C08: where the cursor goes *)
Theorem C08_backward_char : forall C s s' r p m q, exec C CBackwardChar s = Some (s', r) ->
  at_split s (p ++ [m]) q -> at_split s' p (m :: q).
Proof. exact EditProps.backward_char. Qed.
Print Assumptions C08_backward_char.
Theorem C08_backward_char_start : forall C s s' r q, exec C CBackwardChar s = Some (s', r) -> at_split s [] q -> s' = s.
Proof. exact EditProps.backward_char_start. Qed.
Print Assumptions C08_backward_char_start.
Theorem C08_forward_char : forall C s s' r p m q, exec C CForwardChar s = Some (s', r) ->
  at_split s p (m :: q) -> at_split s' (p ++ [m]) q.
Proof. exact EditProps.forward_char. Qed.
Print Assumptions C08_forward_char.
Theorem C08_forward_char_end : forall C s s' r p, exec C CForwardChar s = Some (s', r) -> at_split s p [] ->
  suffix s = None \/ suffix s = Some [] -> s' = s.
Proof. exact EditProps.forward_char_end. Qed.
Print Assumptions C08_forward_char_end.
Theorem C08_beginning_of_line : forall C s s' r, exec C CBeginningOfLine s = Some (s', r) -> at_split s' [] (line s).
Proof. exact EditProps.beginning_of_line. Qed.
Print Assumptions C08_beginning_of_line.
Theorem C08_end_of_line : forall C s s' r, exec C CEndOfLine s = Some (s', r) -> at_split s' (line s) [].
Proof. exact EditProps.end_of_line. Qed.
Print Assumptions C08_end_of_line.
(** The text before the cursor is [u], then a word [w], then blanks [b]; the cursor goes
    to the start of [w]. *)
Theorem C08_backward_word : forall C s s' r p q, exec C CBackwardWord s = Some (s', r) -> at_split s p q ->
  exists u w b, p = u ++ w ++ b /\ all_blank b /\ no_blank w /\
    (u = [] \/ exists u' x, u = u' ++ [x] /\ blank x = true) /\ (w = [] -> u = []) /\
    at_split s' u (w ++ b ++ q).
Proof. exact EditProps.backward_word. Qed.
Print Assumptions C08_backward_word.
(** The text from the cursor on is the rest [w] of a word, then blanks [b], then [t]; the
    cursor goes to the start of [t]. *)
Theorem C08_forward_word : forall C s s' r p q, exec C CForwardWord s = Some (s', r) -> at_split s p q ->
  exists w b t, q = w ++ b ++ t /\ no_blank w /\ all_blank b /\
    (t = [] \/ exists x t', t = x :: t' /\ blank x = false) /\ (b = [] -> t = []) /\
    at_split s' (p ++ w ++ b) t.
Proof. exact EditProps.forward_word. Qed.
Print Assumptions C08_forward_word.
Example C08_case : exists s s' s'' r r', after_keys S_off (keys "ls  -l abc") = Some s /\
  exec (base S_off) CBackwardWord s = Some (s', r) /\ at_split s' (raws "ls  -l ") (raws "abc") /\
  exec (base S_off) CForwardWord s' = Some (s'', r') /\ at_split s'' (raws "ls  -l abc") [].
Proof.
  do 5 eexists. split; [vm_compute; reflexivity|]. split; [vm_compute; reflexivity|]. split; [vm_compute; auto|].
  split; vm_compute; auto.
Qed.

(** * C09: the deleting commands *)
Theorem C09_backward_delete : forall C s s' r p m q, exec C CBackwardDeleteChar s = Some (s', r) ->
  at_split s (p ++ [m]) q -> at_split s' p q /\ clip s' = clip s /\ rest_kept s s'.
Proof. exact EditProps.backward_delete. Qed.
Print Assumptions C09_backward_delete.
Theorem C09_backward_delete_start : forall C s s' r q, exec C CBackwardDeleteChar s = Some (s', r) -> at_split s [] q -> s' = s.
Proof. exact EditProps.backward_delete_start. Qed.
Print Assumptions C09_backward_delete_start.
Theorem C09_delete_char : forall C s s' r p m q c, c = CDeleteChar \/ c = CDeleteOrAbort ->
  exec C c s = Some (s', r) -> at_split s p (m :: q) ->
  at_split s' p q /\ clip s' = clip s /\ rest_kept s s' /\ r = CONTINUE.
Proof. exact EditProps.delete_char. Qed.
Print Assumptions C09_delete_char.
Theorem C09_delete_char_end : forall C s s' r p, exec C CDeleteChar s = Some (s', r) -> at_split s p [] ->
  same_content s s' /\ at_split s' p [].
Proof. exact EditProps.delete_char_end. Qed.
Print Assumptions C09_delete_char_end.
Theorem C09_kill_line : forall C s s' r p q, exec C CKillLine s = Some (s', r) -> at_split s p q ->
  at_split s' p [] /\ copied (written q) s s' /\ rest_kept s s'.
Proof. exact EditProps.kill_line. Qed.
Print Assumptions C09_kill_line.
Theorem C09_line_discard : forall C s s' r p q, exec C CUnixLineDiscard s = Some (s', r) -> at_split s p q ->
  at_split s' [] q /\ copied (written p) s s' /\ rest_kept s s'.
Proof. exact EditProps.line_discard. Qed.
Print Assumptions C09_line_discard.
Theorem C09_kill_whole_line : forall C s s' r, exec C CKillWholeLine s = Some (s', r) ->
  at_split s' [] [] /\ clip s' = clip s /\ rest_kept s s'.
Proof. exact EditProps.kill_whole_line. Qed.
Print Assumptions C09_kill_whole_line.
Example C09_case : exists s s1 r1 s2 r2 s3 r3, after_keys S_off (keys "abcdef" ++ [key 2; key 2; key 2]) = Some s /\
  at_split s (raws "abc") (raws "def") /\
  exec (base S_off) CBackwardDeleteChar s = Some (s1, r1) /\ at_split s1 (raws "ab") (raws "def") /\
  exec (base S_off) CDeleteChar s1 = Some (s2, r2) /\ at_split s2 (raws "ab") (raws "ef") /\
  exec (base S_off) CUnixLineDiscard s2 = Some (s3, r3) /\ at_split s3 [] (raws "ef") /\ clip s3 = Some (s2l "ab").
Proof.
  do 7 eexists. split; [vm_compute; reflexivity|]. split; [vm_compute; auto|]. split; [vm_compute; reflexivity|].
  split; [vm_compute; auto|]. split; [vm_compute; reflexivity|]. split; [vm_compute; auto|].
  split; [vm_compute; reflexivity|]. vm_compute; auto.
Qed.

(** * C11: kill and yank *)
(** YANK inserts the clipboard text without the line breaks and NULs at its end. *)
Theorem C11_yank : forall C s s' r p q t, exec C CYank s = Some (s', r) -> at_split s p q -> clip s = Some t ->
  exists u, cut_breaks t u /\ at_split s' (p ++ split (cE C) u) q /\ clip s' = Some t /\ rest_kept s s'.
Proof. exact EditMore.yank_plain. Qed.
Print Assumptions C11_yank.
(** The killed text comes back, unless it ends in a line break or NUL, or the line has a
    unit beginning with a code point that attaches to its neighbour. *)
Theorem C11_kill_yank_partial : forall S m c s s1 s2 r1 r2 p q t0,
  scripted S -> reached S (Running m s) ->
  c = CKillLine \/ c = CUnixLineDiscard \/ c = CUnixWordRubout ->
  at_split s p q -> clip s = Some t0 ->
  exec (base S) c s = Some (s1, r1) -> exec (base S) CYank s1 = Some (s2, r2) ->
  Forall (clean (cE (base S))) (line s) -> (forall d, clip s1 = Some d -> no_final_break d) ->
  line s2 = line s.
Proof. exact EditMore.kill_yank. Qed.
Print Assumptions C11_kill_yank_partial.
Example C11_case : exists s s1 s2 r1 r2, after_keys S_on (keys "go test" ++ [key 1; key 6]) = Some s /\
  exec (base S_on) CKillLine s = Some (s1, r1) /\ exec (base S_on) CYank s1 = Some (s2, r2) /\
  Forall (clean E_on) (line s) /\ clip s1 = Some (s2l "o test") /\ line s2 = raws "go test".
Proof.
  do 5 eexists. split; [vm_compute; reflexivity|]. split; [vm_compute; reflexivity|]. split; [vm_compute; reflexivity|].
  split; [repeat constructor|]. split; vm_compute; reflexivity.
Qed.
(** A killed line break does not come back: x, Ctrl-Q Ctrl-J, Ctrl-U, Ctrl-Y. *)
Theorem C11_refuted : exists s s1 s2 r1 r2, after_keys S_off (keys "x" ++ [key 17; key 10]) = Some s /\
  exec (base S_off) CUnixLineDiscard s = Some (s1, r1) /\ exec (base S_off) CYank s1 = Some (s2, r2) /\
  written (line s) = [120; 10] /\ clip s1 = Some [120; 10] /\ written (line s2) = [120].
Proof. exact EditWitness.kill_yank_break. Qed.
Print Assumptions C11_refuted.

(** * C12: SWAPCHAR *)
Theorem C12_swap : forall C s s' r p x y q, exec C CSwapChar s = Some (s', r) -> at_split s (p ++ [x]) (y :: q) ->
  at_split s' (p ++ [y; x]) q /\ clip s' = clip s /\ rest_kept s s'.
Proof. exact EditProps.swap_mid. Qed.
Print Assumptions C12_swap.
Theorem C12_swap_end : forall C s s' r p x y, exec C CSwapChar s = Some (s', r) -> at_split s (p ++ [x; y]) [] ->
  at_split s' (p ++ [y; x]) [] /\ clip s' = clip s /\ rest_kept s s'.
Proof. exact EditProps.swap_end. Qed.
Print Assumptions C12_swap_end.
Theorem C12_swap_none : forall C s s' r p q, exec C CSwapChar s = Some (s', r) -> at_split s p q ->
  p = [] \/ (zlen p = 1 /\ q = []) -> s' = s.
Proof. exact EditProps.swap_none. Qed.
Print Assumptions C12_swap_none.
Example C12_case : exists s s1 s2 r1 r2, after_keys S_off (keys "abcd" ++ [key 2; key 2]) = Some s /\
  exec (base S_off) CSwapChar s = Some (s1, r1) /\ at_split s1 (raws "acb") (raws "d") /\
  exec (base S_off) CSwapChar s1 = Some (s2, r2) /\ at_split s2 (raws "acdb") [].
Proof.
  do 5 eexists. split; [vm_compute; reflexivity|]. split; [vm_compute; reflexivity|]. split; [vm_compute; auto|].
  split; vm_compute; auto.
Qed.

(** * C14: CurrentWord.  Exactly what it does: *)
Theorem C14_general : forall s p q, at_split s p q ->
  exists a sk w, word_split p a sk w /\ CurrentWord s = Some (written w, zlen (a ++ sk)).
Proof. exact WordFacts.CurrentWord_split. Qed.
Print Assumptions C14_general.
(** The claim, when every unit before the cursor is a single code point other than a tab. *)
Theorem C14_word_partial : forall s p q, at_split s p q -> forallb single p = true ->
  exists a w, p = a ++ w /\ word_boundary a /\ one_word a w /\ CurrentWord s = Some (written w, zlen a).
Proof. exact WordFacts.CurrentWord_single. Qed.
Print Assumptions C14_word_partial.
Example C14_case : exists s t, after_keys S_off (keys t) = Some s /\ t = "open ""my file"%string /\
  at_split s (raws t) [] /\ forallb single (raws t) = true /\ CurrentWord s = Some (s2l """my file", 5).
Proof. do 2 eexists. split; [|split; [reflexivity|]]; [vm_compute; reflexivity|]. vm_compute. auto. Qed.
(** A joined character at the start of a word is left out of the word. *)
Theorem C14_refuted : exists s p t pos, readline S_on (encode [128104; 8205; 128105; 98]) 9 80 None [] = Some (Running MNormal s) /\
  at_split s p [] /\ CurrentWord s = Some (t, pos) /\ t = [98] /\ ~ word_boundary (firstn (Z.to_nat pos) p).
Proof. exact EditWitness.CurrentWord_joined. Qed.
Print Assumptions C14_refuted.

(** * C13: word rubout.  Exactly what it does: *)
Theorem C13_general : forall C s s' r p q, exec C CUnixWordRubout s = Some (s', r) -> at_split s p q ->
  exists p0 b u sk w, p = p0 ++ b /\ all_blank b /\ (p0 = [] \/ exists p' x, p0 = p' ++ [x] /\ blank x = false) /\
    word_split p0 u sk w /\
    at_split s' (u ++ sk) q /\ copied (written (w ++ b)) s s' /\ rest_kept s s'.
Proof. exact EditProps.word_rubout. Qed.
Print Assumptions C13_general.
(** The claim, when every unit before the cursor is a single code point other than a tab. *)
Theorem C13_rubout_partial : forall C s s' r p q, exec C CUnixWordRubout s = Some (s', r) -> at_split s p q ->
  forallb single p = true ->
  exists u w b, p = u ++ w ++ b /\ all_blank b /\ (u ++ w = [] \/ exists p' x, u ++ w = p' ++ [x] /\ blank x = false) /\
    word_boundary u /\ one_word u w /\
    at_split s' u q /\ copied (written (w ++ b)) s s' /\ rest_kept s s'.
Proof. exact EditProps.word_rubout_single. Qed.
Print Assumptions C13_rubout_partial.
Example C13_case : exists s s' r, after_keys S_off (keys "rm ""a b"" c" ++ [key 2]) = Some s /\
  exec (base S_off) CUnixWordRubout s = Some (s', r) /\ at_split s' (raws "rm ") (raws "c") /\ clip s' = Some (s2l """a b"" ").
Proof. do 3 eexists. split; [vm_compute; reflexivity|]. split; [vm_compute; reflexivity|]. vm_compute. auto. Qed.

(** A joined character at the start of the word stays. *)
Theorem C13_refuted : exists s s' r p, readline S_on (encode [128104; 8205; 128105; 98]) 9 80 (Some []) [] = Some (Running MNormal s) /\
  at_split s p [] /\ Forall (fun m => blank m = false) p /\ exec (base S_on) CUnixWordRubout s = Some (s', r) /\ clip s' = Some [98] /\
  line s' = firstn 1 p /\ line s' <> [].
Proof. exact EditWitness.rubout_joined. Qed.
Print Assumptions C13_refuted.

(** * C45: yank with quotes *)
Theorem C45_inserted : forall C s s' r p q t, exec C CYankWithQuote s = Some (s', r) -> at_split s p q -> clip s = Some t ->
  exists u, in_quotes t u /\ at_split s' (p ++ split (cE C) u) q /\ clip s' = Some t /\ rest_kept s s'.
Proof. exact EditMore.yank_with_quote. Qed.
Print Assumptions C45_inserted.
Example C45_case : exists s s' r, after_keys S_on (keys "go ") = Some s /\ at_split s (raws "go ") [] /\
  exec (base S_on) CYankWithQuote (set_clip s (Some (s2l "a ""b"" c" ++ [13; 10] ++ s2l "d"))) = Some (s', r) /\
  written (line s') = s2l "go ""a """"b"""" c""" ++ [13; 10] ++ s2l """d""".
Proof. do 3 eexists. split; [vm_compute; reflexivity|]. split; [vm_compute; auto|]. split; [vm_compute; reflexivity|]. vm_compute. reflexivity. Qed.

(** * C46: blanks.  A unit on the line that is one of the space characters, other than the
    tab, separates words. *)
Theorem C46_blank_partial : forall S x m r, scripted S -> reached S x -> In m (line (buf_of x)) ->
  valid_rune r = true -> write m = encode_rune r -> is_space r = true -> r <> 9 -> blank m = true.
Proof. exact EditMore.blank_reached. Qed.
Print Assumptions C46_blank_partial.
(** The space characters of unicode.IsSpace. *)
Theorem C46_spaces : forall r, is_space r = true <->
  In r [9; 10; 11; 12; 13; 32; 133; 160; 5760; 8192; 8193; 8194; 8195; 8196; 8197; 8198; 8199; 8200; 8201; 8202;
        8232; 8233; 8239; 8287; 12288].
Proof. exact EditMore.spaces_list. Qed.
Print Assumptions C46_spaces.
Example C46_case : exists s, after_keys S_off [EKey (s2l "a"); EKey (encode [12288]); EKey (s2l "b")] = Some s /\
  map blank (line s) = [false; true; false].
Proof. eexists. split; vm_compute; reflexivity. Qed.
(** A tab does not: a, Ctrl-Q tab, b, then BACKWARD_WORD goes to the start of the line. *)
Theorem C46_refuted : exists s s' r, after_keys S_off [key 97; key 17; key 9; key 98] = Some s /\
  written (line s) = [97; 9; 98] /\ cursor s = 3 /\
  exec (base S_off) CBackwardWord s = Some (s', r) /\ cursor s' = 0.
Proof. exact EditWitness.tab_not_blank. Qed.
Print Assumptions C46_refuted.
