(** Completion in lines with tabs (C32). *)
From Verif Require Import Base Utf8 Moji Color Prompt Buffer Commands KeyMap Session Spec SpecTabs SpecTabScript Completion SpecComp.

(** Text of at most [n] characters, each a unit of its own; tabs are allowed. *)
Definition text_upto (E : env) (n : Z) (t : str) : Prop := (forall r, In r (runes t) -> joins E r = false) /\ zlen (runes t) <= n.
(** A completion that always answers: with as many short names as names (or none at all), of at
    most 400 characters, in which case does not change the number of bytes. *)
Definition answers_tabs (E : env) (up : rune -> rune) (P : list str -> option (list str * list str)) : Prop :=
  forall fields, exists names bases, P fields = Some (names, bases) /\
    (bases = [] \/ zlen names <= zlen bases) /\ Forall (text_upto E 400) names /\ even_case up names.
(** An editor whose user commands are such completions, and whose own text is ordinary. *)
Definition completing_tabs (S : scfg) (up fold : rune -> rune) (box : list str -> str) : Prop :=
  let C := base S in let E := cE C in
  (forall k f, LookupCommand (kmap S) (gmap S) k = CUser f ->
     exists P postfix, (CUser f = CmdCompletion up fold C P postfix \/ CUser f = CmdCompletionOrList up fold C box P postfix) /\
       answers_tabs E up (List_ P) /\ text_upto E 390 postfix /\
       Forall (fun q => 0 <= q < 128 /\ joins E q = false) (Enclosures P)) /\
  ordinary_sources S.
