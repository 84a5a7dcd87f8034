(** Vocabulary of the properties about settings that change during ReadLine. *)
From Verif Require Import Base Utf8 Moji Color Prompt Buffer Commands KeyMap Session Spec Settings.

(** How settings may change: the history may get longer, characters that have a width may
    get another one, and everything else may change except whether characters join
    and are displayable, and the width of the prompt (which is C57). *)
Record may_follow (S1 S2 : scfg) : Prop := {
  mf_zwj : zwj_ok (cE (base S1)) = zwj_ok (cE (base S2));
  mf_vs : vs_ok (cE (base S1)) = vs_ok (cE (base S2));
  mf_mod : mod_ok (cE (base S1)) = mod_ok (cE (base S2));
  mf_sur : sur_ok (cE (base S1)) = sur_ok (cE (base S2));
  mf_amb : amb_wide (cE (base S1)) = amb_wide (cE (base S2));
  mf_vsme : forall r, vsme (cE (base S1)) r = vsme (cE (base S2)) r;
  mf_zero : forall r, rw (cE (base S1)) r = 0 <-> rw (cE (base S2)) r = 0;
  mf_hist : exists more, hist (base S2) = hist (base S1) ++ more;
  mf_empty : hist (base S1) = [] -> hist (base S2) = [];
  mf_prompt : prompt_width (base S1) = prompt_width (base S2)
}.
(** Every change is like that. *)
Fixpoint each_follows (S : scfg) (ses : list (scfg * event)) : Prop :=
  match ses with
  | [] => True
  | (T, _) :: ses' => may_follow S T /\ each_follows T ses'
  end.
