(** Vocabulary of the properties about completion. *)
From Verif Require Import Base Utf8 Moji Color Prompt Buffer Commands KeyMap Session Spec.

(** * Words of a command line *)
(** The text without the enclosing characters. *)
Definition without (q : list Z) (t : str) : str := encode (filter (fun c => negb (existsb (Z.eqb c) q)) (runes t)).

Section Words.
(** The enclosing characters, the blanks and the delimiters, all ASCII; an enclosing
    character is none of the others. *)
Variables quotes blank del : list Z.
Definition chars_ok : Prop :=
  NoDup quotes /\ (forall q, In q quotes -> ~ In q blank /\ ~ In q del) /\
  (forall q, In q (quotes ++ blank ++ del) -> 0 <= q < 128).

(** The text of a unit: one ASCII byte, or something with a byte that is not ASCII. *)
Definition unit_text (c : str) : Prop := (exists b, c = [b]) \/ Exists (fun b => 128 <= b) c.

Definition occurrences (q : Z) (l : list str) : nat := List.length (filter (str_eqb [q]) l).
(** Every enclosing character occurs an even number of times. *)
Definition closed (l : list str) : Prop := forall q, In q quotes -> Nat.even (occurrences q l) = true.
Definition separates (c : str) : Prop := exists b, c = [b] /\ In b (blank ++ del).
(** A word, or the beginning of one: no separator except inside enclosing characters. *)
Definition in_word (w : list str) : Prop := forall p c r, w = p ++ c :: r -> closed p -> ~ separates c.
(** [between_words p fields]: after the units [p] a new word may begin, and [fields] are
    the words of [p] without their enclosing characters.  A delimiter is a field of its
    own, and the word before it may be empty. *)
Inductive between_words : list str -> list str -> Prop :=
| B_start : between_words [] []
| B_blank p fs b : between_words p fs -> In b blank -> between_words (p ++ [[b]]) fs
| B_word p fs w b : between_words p fs -> w <> [] -> in_word w -> closed w -> In b blank ->
    between_words (p ++ w ++ [[b]]) (fs ++ [without quotes (List.concat w)])
| B_delim p fs w b : between_words p fs -> in_word w -> closed w -> In b del -> ~ In b blank ->
    between_words (p ++ w ++ [[b]]) (fs ++ [without quotes (List.concat w); [b]]).
End Words.

(** * Ignoring case *)
Definition alike (f : rune -> rune) (a b : str) : Prop := map f (runes a) = map f (runes b).
(** [n] begins with as many bytes as [w] has, which are [w] but for case. *)
Definition begins (f : rune -> rune) (w n : str) : Prop := exists a b, n = a ++ b /\ zlen a = zlen w /\ alike f w a.
(** [p] is a beginning of [t] but for case, rune by rune. *)
Definition starts (f : rune -> rune) (p t : list rune) : Prop := exists r, map f t = map f p ++ r.

(** The same sublist, by a condition. *)
Inductive selected {A} (P : A -> Prop) : list A -> list A -> Prop :=
| Sel_nil : selected P [] []
| Sel_yes x l l' : P x -> selected P l l' -> selected P (x :: l) (x :: l')
| Sel_no x l l' : ~ P x -> selected P l l' -> selected P (x :: l) l'.

(** [p] is, ignoring case, a beginning of every one of [l], and there is no longer one. *)
Definition longest_common (f : rune -> rune) (l : list str) (p : str) : Prop :=
  (forall x, In x l -> starts f (runes p) (runes x)) /\
  (forall q, (forall x, In x l -> starts f q (runes x)) -> zlen q <= zlen (runes p)).

(** Candidates written in UTF-8 in which case does not change the number of bytes. *)
Definition even_case (f : rune -> rune) (l : list str) : Prop :=
  Forall valid_utf8 l /\
  forall a b, In a (flat_map runes l) -> In b (flat_map runes l) -> f a = f b ->
    zlen (encode_rune a) = zlen (encode_rune b).

(** A candidate with one of these characters has to be enclosed. *)
Definition has_any (set : list Z) (t : str) : Prop := exists c, In c set /\ In c (runes t).

(** What goes into the line for the only candidate, and for the common beginning of
    several: an enclosing character is added where a candidate needs one. *)
Definition for_one (quotes blank del : list Z) (x ins : str) : Prop :=
  (exists q r, quotes = q :: r /\ del <> [] /\ has_any (blank ++ del) x /\ ins = [q] ++ x ++ [q]) \/
  ((quotes = [] \/ del = [] \/ ~ has_any (blank ++ del) x) /\ ins = x).
Definition for_many (quotes blank del : list Z) (hits : list str) (pre ins : str) : Prop :=
  (exists q r, quotes = q :: r /\ Exists (has_any (blank ++ del)) hits /\ ins = [q] ++ pre) \/
  ((quotes = [] \/ ~ Exists (has_any (blank ++ del)) hits) /\ ins = pre).

(** The outcome of completing [word] when [hits] are the candidates that begin with it
    and [pre] is what several of them have in common; [p] is what stands before the word
    and [r] what stands after the cursor.  The last argument is the list to be shown. *)
Section Outcome.
Variables (E : env) (fold : rune -> rune) (quotes blank del : list Z) (postfix word : str).
Inductive completed (p r : list moji) (s : buf) : list str -> str -> buf -> bool -> Prop :=
| Cm_none pre : completed p r s [] pre s false
| Cm_done x pre : alike fold word x -> completed p r s [x] pre (emit s [TBell]) false
| Cm_one x pre ins s' : ~ alike fold word x -> for_one quotes blank del x ins ->
    at_split s' (p ++ split E (ins ++ postfix)) r -> clip s' = clip s -> rest_kept s s' ->
    completed p r s [x] pre s' false
| Cm_show hits pre : 2 <= zlen hits -> alike fold word pre -> completed p r s hits pre (emit s [TBell]) true
| Cm_many hits pre ins s' : 2 <= zlen hits -> ~ alike fold word pre -> for_many quotes blank del hits pre ins ->
    at_split s' (p ++ split E ins) r -> clip s' = clip s -> rest_kept s s' ->
    completed p r s hits pre s' false.
End Outcome.

(** A completion that always answers: with as many short names as names (or none at
    all), in text without tabs and joiners in which case does not change the number of
    bytes. *)
Definition answers (E : env) (up : rune -> rune) (P : list str -> option (list str * list str)) : Prop :=
  forall fields, exists names bases, P fields = Some (names, bases) /\
    (bases = [] \/ zlen names <= zlen bases) /\ Forall (simple_text E) names /\ even_case up names.

(** * File names *)
(** A word is split at its last separator. *)
Definition path_of (target dir base : str) : Prop :=
  target = dir ++ base /\ (dir = [] \/ exists d, dir = d ++ [47]) /\ ~ In 47 base.
(** The directory a name is looked up in. *)
Definition place (dir : str) : str := match dir with [] => s2l "." | _ => dir end.
(** What a directory contains: names and whether they are shown as directories. *)
Definition good_names (es : list (str * bool)) : Prop := Forall (fun e => fst e <> [] /\ ~ In 47 (fst e)) es.
Definition wanted (f : rune -> rune) (base : str) (e : str * bool) : Prop :=
  fst e <> s2l "." /\ fst e <> s2l ".." /\ begins f base (fst e).
Definition short_name (e : str * bool) : str := fst e ++ (if snd e then [47] else []).
Definition full_name (dir : str) (e : str * bool) : str := dir ++ short_name e.

(** Blank, tab, carriage return, newline, vertical tab, form feed. *)
Definition white : list Z := [32; 9; 13; 10; 11; 12].

(** * Editors with completion commands *)
From Verif Require Import Completion.
(** An editor whose user commands are completions that always answer, and whose own
    sources of text are simple (as in Spec.simple_editor). *)
Definition completing_editor (S : scfg) (up fold : rune -> rune) (box : list str -> str) : Prop :=
  let C := base S in let E := cE C in
  (forall k f, LookupCommand (kmap S) (gmap S) k = CUser f ->
     exists P postfix, (CUser f = CmdCompletion up fold C P postfix \/ CUser f = CmdCompletionOrList up fold C box P postfix) /\
       answers E up (List_ P) /\ simple_text E postfix /\
       Forall (fun q => 0 <= q < 128 /\ q <> 9 /\ joins E q = false) (Enclosures P)) /\
  sane_widths E /\ (forall r, rw E r <= 8) /\ joins E 65533 = false /\ joins E 34 = false /\
  (pcolor0 C = [] \/ forall t c, simple_text E (predictor C t c)) /\ Forall (simple_text E) (hist C).

(** A key that runs a completion may be any key, such as Tab, as long as it is read as a
    command and not as text (after Ctrl-V, or in an incremental search). *)
Definition reads_commands (x : sess) : Prop := match x with Running MNormal _ => True | Running _ _ => False | Finished _ _ _ => True end.
Definition simple_or_command (S : scfg) (e : event) (x : sess) : Prop :=
  simple_event S e \/ exists k f, e = EKey k /\ LookupCommand (kmap S) (gmap S) k = CUser f /\ reads_commands x.
