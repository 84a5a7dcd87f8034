(** What painting a stretch of the line puts out (C39). *)
From Verif Require Import Base Utf8 Moji Color Buffer Spec.

(** The units painted, each with the colour then set on the terminal ([None] if none has
    been set yet), and the colour set at the end. *)
Fixpoint coloured (c : option Z) (ts : list tok) : list (moji * option Z) :=
  match ts with
  | [] => []
  | TMoji m :: ts' => (m, c) :: coloured c ts'
  | TColor n :: ts' => coloured (Some n) ts'
  | _ :: ts' => coloured c ts'
  end.
Fixpoint last_colour (c : option Z) (ts : list tok) : option Z :=
  match ts with [] => c | TColor n :: ts' => last_colour (Some n) ts' | _ :: ts' => last_colour c ts' end.
(** No colour is set twice in a row. *)
Fixpoint thrifty (c : option Z) (ts : list tok) : Prop :=
  match ts with
  | [] => True
  | TColor n :: ts' => c <> Some n /\ thrifty (Some n) ts'
  | _ :: ts' => thrifty c ts'
  end.

(** U+E000, which marks the cursor for the colouring. *)
Definition marker : rune := 57344.
(** The characters of the units [l], with the marker before unit number [cur]. *)
Definition marked (cur : Z) (l : list moji) : list rune :=
  if (0 <=? cur) && (cur <? zlen l)
  then runes (written (firstn (Z.to_nat cur) l)) ++ [marker] ++ runes (written (skipn (Z.to_nat cur) l))
  else runes (written l).
(** What the colouring answers to the last of the characters [h]. *)
Definition answer (K : coloring) (h : list rune) : Z := c_next K (rev (removelast h)) (last h 0).

(** A unit painted exactly as it is written, or shown to the colouring as one character. *)
Fixpoint as_is (m : moji) : bool :=
  match m with
  | MRaw _ | MReg _ | MMod _ _ => true
  | MZwj a b => as_is a && as_is b
  | _ => false
  end.
Definition heard_as_is (m : moji) : bool :=
  match m with MZwj _ _ => as_is m | MVar _ _ => false | _ => true end.
