(** An editor with completion commands, for the examples and witnesses of PComp.v. *)
From Verif Require Import Base Utf8 Moji Color Prompt Buffer Commands KeyMap Session Spec Sample Completion SpecComp.
Ltac lia := unfold rune in *; Lia.lia.

(** Case of ASCII letters, with U+0131 next to the letter i as in unicode.ToUpper. *)
Definition up0 (r : rune) : rune := if in_range r 97 122 then r - 32 else if r =? 305 then 73 else r.
Definition fold0 (r : rune) : rune := if in_range r 97 122 then r - 32 else r.
Definition box0 (l : list str) : str := List.concat l.
(** The same candidates for every word. *)
Definition fixed (names bases : list str) : completion := mkCompletion (s2l "&|><;") (s2l """'") (fun _ => Some (names, bases)).
(** Tab completes, Ctrl-O completes or lists. *)
Definition S_comp (P : completion) : scfg :=
  mkScfg (cfg_of E_off) [([9], CmdCompletion up0 fold0 (cfg_of E_off) P [32]); ([15], CmdCompletionOrList up0 fold0 (cfg_of E_off) box0 P [32])] GlobalKeyMap.
Definition fruit : completion := fixed [s2l "Apple pie"; s2l "apples"; s2l "banana"] [].
Definition run_comp (P : completion) (es : list event) : option sess := readline (S_comp P) [] 0 80 None es.

Definition even_caseb (f : rune -> rune) (l : list str) : bool :=
  forallb (fun a => forallb (fun b => negb (f a =? f b) || (zlen (encode_rune a) =? zlen (encode_rune b))) (flat_map runes l)) (flat_map runes l).
Lemma even_caseb_ok f l : Forall valid_utf8 l -> even_caseb f l = true -> even_case f l.
Proof.
  intros Hv H. split; [exact Hv|]. intros a b Ha Hb Hf. unfold even_caseb in H. rewrite forallb_forall in H. specialize (H a Ha).
  rewrite forallb_forall in H. specialize (H b Hb). lia.
Qed.
Lemma valid_text t : str_eqb (encode (runes t)) t && forallb valid_rune (runes t) = true -> valid_utf8 t.
Proof.
  intros H. apply andb_true_iff in H as [H1 H2]. apply str_eqb_eq in H1. rewrite <- H1. apply valid_utf8_encode. now apply Forall_forall, forallb_forall.
Qed.
Lemma fruit_answers : answers E_off up0 (List_ fruit).
Proof.
  intros fs. exists [s2l "Apple pie"; s2l "apples"; s2l "banana"], []. split; [reflexivity|]. split; [now left|]. split.
  - repeat (apply Forall_cons; [apply simple_textb_ok; vm_compute; reflexivity|]). apply Forall_nil.
  - apply even_caseb_ok; [|vm_compute; reflexivity]. repeat (apply Forall_cons; [apply valid_text; vm_compute; reflexivity|]). apply Forall_nil.
Qed.
Lemma comp_editor : completing_editor (S_comp fruit) up0 fold0 box0.
Proof.
  split; [|split; [exact sane_off|split; [|split; [reflexivity|split; [reflexivity|split; [now left|]]]]]].
  - intros k f Hk. exists fruit, [32].
    assert (H : CUser f = CmdCompletion up0 fold0 (cfg_of E_off) fruit [32] \/ CUser f = CmdCompletionOrList up0 fold0 (cfg_of E_off) box0 fruit [32]).
    { cbn [kmap gmap S_comp] in Hk. unfold LookupCommand, Lookup in Hk. cbn [aget] in Hk. destruct (str_eqb k [9]); [left; now rewrite <- Hk|].
      destruct (str_eqb k [15]); [right; now rewrite <- Hk|]. exfalso. apply (global_builtin [] ltac:(discriminate) (cfg_of E_off) k f). exact Hk. }
    split; [exact H|]. split; [exact fruit_answers|]. split; [apply simple_textb_ok; vm_compute; reflexivity|].
    change (Enclosures fruit) with [34; 39]. repeat (apply Forall_cons; [split; [lia|split; [lia|reflexivity]]|]). apply Forall_nil.
  - intros r. cbn. unfold sample_rw. destruct (r <? 128); [lia|]. destruct (in_range r 768 879); lia.
  - repeat (apply Forall_cons; [apply simple_textb_ok; vm_compute; reflexivity|]). apply Forall_nil.
Qed.

(** A small tree of files. *)
Definition tree (d : str) : option (list entry) :=
  if str_eqb d (s2l ".") then Some [(s2l "Makefile", false); (s2l "mail", true); (s2l "new", true); (s2l "src", true)]
  else if str_eqb d (s2l "src/") then Some [(s2l "a.go", false); (s2l "b.go", false); (s2l "lib", true)]
  else if str_eqb d (s2l "new/") then Some []
  else None.

(** The three code points of theta that are two bytes long: U+03B8, U+0398 and the symbol
    U+03F4.  They are one letter for strings.EqualFold; unicode.ToUpper takes U+03B8 to
    U+0398 and leaves U+03F4 alone. *)
Definition up_theta (r : rune) : rune := if r =? 952 then 920 else up0 r.
Definition fold_theta (r : rune) : rune := if (r =? 952) || (r =? 1012) then 920 else fold0 r.
Definition S_theta (P : completion) : scfg :=
  mkScfg (cfg_of E_off) [([9], CmdCompletion up_theta fold_theta (cfg_of E_off) P [32])] GlobalKeyMap.
Definition thetas : completion := fixed [encode [952; 97]; encode [1012; 98]] [].
