(** What the theorems about UNDO over a whole ReadLine say: the lines a ReadLine goes
    through, with the lines halfway through an edit in two steps. *)
From Verif Require Import Base Utf8 Moji Color Prompt Buffer Commands KeyMap Session Spec SpecTabs.

(** Text that attaches to the unit before the cursor takes that unit away first. *)
Definition without_previous (E : env) (k : str) (s : buf) : list (list moji) :=
  if joins E (first_rune (key_text k)) && (0 <? cursor s) then
    [firstn (Z.to_nat (cursor s - 1)) (line s) ++ skipn (Z.to_nat (cursor s)) (line s)]
  else [].

(** The line halfway through what one event does, if there is one: browsing the history
    empties the line first. *)
Definition halfway (S : scfg) (e : event) (x : sess) : list (list moji) :=
  match e, x with
  | EKey k, Running MNormal s =>
    match LookupCommand (kmap S) (gmap S) k with
    | CPreviousHistory | CNextHistory => [[]]
    | CSelfInsert k' => without_previous (cE (base S)) k' s
    | _ => []
    end
  | EKey k, Running MQuoted s => without_previous (cE (base S)) k s
  | _, _ => []
  end.

(** The lines in the order of time, as in [session_lines], with those halfway. *)
Fixpoint steps_from (S : scfg) (x : sess) (es : list event) : list (list moji) :=
  match es with
  | [] => []
  | e :: es' => match step S e x with
                | Some x' => halfway S e x ++ line (buf_of x') :: steps_from S x' es'
                | None => []
                end
  end.
Definition session_steps (S : scfg) (default : str) (cur w : Z) (cl : option str) (es : list event) : list (list moji) :=
  [] :: match start S default cur w cl with
        | Some x => line (buf_of x) :: steps_from S x es
        | None => []
        end.

(** Keys that change the line in one piece: not the history commands, not code points that
    attach to the character before the cursor. *)
Definition single_piece (S : scfg) (e : event) : Prop :=
  match e with
  | EKey k =>
    ~ bound S k CPreviousHistory /\ ~ bound S k CNextHistory /\
    (forall k', bound S k (CSelfInsert k') -> joins (cE (base S)) (first_rune (key_text k')) = false) /\
    joins (cE (base S)) (first_rune (key_text k)) = false
  | _ => True
  end.
