(** C72: ReadLine is a line editor on paper (SpecEditor.v): the text, the cursor, the clipboard, the
    search and what is returned are what the editor on paper gives for the same events. *)
From Verif Require Import Base Utf8 Moji Color Prompt Buffer Commands KeyMap Session Spec Sample SpecEditor.
From Verif Require EditorFacts.

(** With the joining of characters switched off: every text, every key, every clipboard, every
    history, whatever the widths, the colours, the prompt, the width of the terminal and its
    changes.  [readline] is [None] only if the code crashes. *)
Theorem C72_paper : forall S default cur w cl es x,
  only_builtin S -> pcolor0 (base S) = [] -> (forall r, joins (cE (base S)) r = false) -> 0 <= cur ->
  readline S default cur w cl es = Some x ->
  same_desk (cE (base S)) x
    (on_paper (hist (base S)) (cycling (base S)) (upper (base S)) (LookupCommand (kmap S) (gmap S)) default cur cl es).
Proof. exact EditorFacts.s_all. Qed.
Print Assumptions C72_paper.

(** With the joining of characters switched on, as long as no text has a code point that joins its neighbour. *)
Theorem C72_unjoined : forall S default cur w cl es x,
  only_builtin S -> pcolor0 (base S) = [] -> joins (cE (base S)) 65533 = false -> joins (cE (base S)) 34 = false ->
  Forall (unjoined (cE (base S))) (hist (base S)) -> 0 <= cur ->
  unjoined (cE (base S)) default -> (forall t, cl = Some t -> unjoined (cE (base S)) t) -> Forall (unjoined_event S) es ->
  readline S default cur w cl es = Some x ->
  same_desk (cE (base S)) x
    (on_paper (hist (base S)) (cycling (base S)) (upper (base S)) (LookupCommand (kmap S) (gmap S)) default cur cl es).
Proof. exact EditorFacts.s_unj. Qed.
Print Assumptions C72_unjoined.

(** A session: the default text is edited, a word is killed and pasted twice, the history is visited,
    edited and left, UNDO, a search, quoted insert, the window changes. *)
Definition C72_keys : list event :=
  keys "git ""a b"" " ++ [EKey (encode [12354])] ++ keys " x" ++ [key 23; key 25; key 25; EResize 17; key 20; key 1; key 6; key 4; key 5] ++
  [key 16; key 16] ++ keys "!" ++ [key 14; key 14; key 26; key 17; key 3; EClip (Some (s2l "p q")); key 18] ++ keys "ATC" ++ [key 8; key 18; key 19; key 13] ++
  keys " #12" ++ [key 31; key 25; EKey [27; 98]; EKey (encode [12354; 12356]); key 11; key 25; key 20; key 13].
Example C72_case_off :
  only_builtin S_off /\ pcolor0 (base S_off) = [] /\ (forall r, joins (cE (base S_off)) r = false) /\
  exists t, on_paper (hist (base S_off)) false ascii_upper (LookupCommand (kmap S_off) (gmap S_off)) (s2l "one two ") 3 (Some []) C72_keys = Returned t RNil /\
  text_of (readline S_off (s2l "one two ") 3 40 (Some []) C72_keys) = Some t /\ (10 < List.length t)%nat.
Proof.
  split; [exact builtin_off|]. split; [reflexivity|]. split; [intros r; vm_compute; reflexivity|].
  eexists. split; [vm_compute; reflexivity|]. split; [vm_compute; reflexivity|]. vm_compute. repeat constructor.
Qed.
Definition unjoinedb (E : env) (t : str) : bool := forallb (fun r => negb (joins E r)) (runes t).
Lemma unjoinedb_ok E t : unjoinedb E t = true -> unjoined E t.
Proof. unfold unjoinedb, unjoined. rewrite forallb_forall. intros H r Hr. apply negb_true_iff. now apply H. Qed.
Definition unjoined_eventb (S : scfg) (e : event) : bool :=
  match e with
  | EKey k => unjoinedb (cE (base S)) (key_text k) &&
      match LookupCommand (kmap S) (gmap S) k with CSelfInsert k' => unjoinedb (cE (base S)) (key_text k') | _ => true end
  | EClip (Some t) => unjoinedb (cE (base S)) t
  | _ => true
  end.
Lemma unjoined_eventb_ok S es : forallb (unjoined_eventb S) es = true -> Forall (unjoined_event S) es.
Proof.
  rewrite forallb_forall, Forall_forall. intros H e He. specialize (H e He). destruct e as [k| |n|[t|]]; cbn in *; auto.
  - apply andb_true_iff in H as [H1 H2]. split; [now apply unjoinedb_ok|]. intros k' Hk. rewrite Hk in H2. now apply unjoinedb_ok.
  - now apply unjoinedb_ok.
Qed.
Example C72_case_on :
  only_builtin S_on /\ pcolor0 (base S_on) = [] /\ joins E_on 65533 = false /\ joins E_on 34 = false /\
  Forall (unjoined E_on) (hist (base S_on)) /\ unjoined E_on (s2l "one two ") /\ Forall (unjoined_event S_on) C72_keys /\
  exists t, text_of (readline S_on (s2l "one two ") 3 40 (Some []) C72_keys) = Some t /\ (10 < List.length t)%nat.
Proof.
  split; [exact builtin_on|]. split; [reflexivity|]. split; [reflexivity|]. split; [reflexivity|].
  split; [repeat constructor; now apply unjoinedb_ok|]. split; [now apply unjoinedb_ok|]. split; [apply unjoined_eventb_ok; vm_compute; reflexivity|].
  eexists. split; [vm_compute; reflexivity|]. vm_compute. repeat constructor.
Qed.
