(** Specification: words of a line, and what the tiny shell should do (C67). *)
From Verif Require Import Base Utf8 Moji Buffer Session Spec Repl Shell.

Definition blanks (s : str) : Prop := Forall (fun r => is_space r = true) (runes s).
Definition word (s : str) : Prop := s <> [] /\ Forall (fun r => is_space r = false) (runes s).
(** [s] is [blanks word blanks word ... blanks] with at least one blank between two words. *)
Inductive worded : str -> list str -> Prop :=
| worded_none b : blanks b -> worded b []
| worded_last b w : blanks b -> word w -> worded (b ++ w) [w]
| worded_more b w c s ws : blanks b -> word w -> c <> [] -> blanks c -> worded s ws -> worded (b ++ w ++ c ++ s) (w :: ws).

(** The line without the blanks at its ends: it neither begins nor ends with one. *)
Definition trimmed (s t : str) : Prop :=
  exists b c, s = b ++ t ++ c /\ blanks b /\ blanks c /\
    (t = [] \/ (exists r, hd_error (runes t) = Some r /\ is_space r = false) /\ (exists r, hd_error (rev (runes t)) = Some r /\ is_space r = false)).

(** [p] goes on from [text] as the newest entry of the history that begins with it does, both
    without the blanks at their ends; it is empty if there is none. *)
Definition continues_newest (h : list str) (text p : str) : Prop := forall t, trimmed text t ->
  (exists h1 e h2, h = h1 ++ e :: h2 /\ trimmed e (t ++ p) /\ Forall (fun x => ~ exists q, trimmed x (t ++ q)) h2) \/
  p = [] /\ Forall (fun x => ~ exists q, trimmed x (t ++ q)) h.

(** What the shell did with each line that was entered: a line without words is not run and
    not recorded, any other is run as its words and recorded. *)
Fixpoint done_right (d : list did) (recorded : list str) : Prop :=
  match d with
  | [] => recorded = []
  | Entered t :: Ran ws :: d' => worded t ws /\ ws <> [] /\ exists r', recorded = t :: r' /\ done_right d' r'
  | Entered t :: d' => worded t [] /\ done_right d' recorded
  | Ran _ :: _ => False
  end.
(** The lines it was given. *)
Definition entered (d : list did) : list str := flat_map (fun x => match x with Entered t => [t] | Ran _ => [] end) d.
(** Any turns, seen as calls of ReadLine: the lines that were returned without an error until
    the first error, when each call uses the history and the cursor left by those before. *)
Inductive answers (S : container -> scfg) : list turn -> container -> Z -> list str -> Prop :=
| answers_end h cur : answers S [] h cur []
| answers_error t ts h cur s text err : err <> RNil ->
    readline (S h) (t_default t) cur (t_width t) (t_clip t) (t_events t) = Some (Finished s text err) -> answers S (t :: ts) h cur []
| answers_blank t ts h cur s text lines : worded text [] ->
    readline (S h) (t_default t) cur (t_width t) (t_clip t) (t_events t) = Some (Finished s text RNil) ->
    answers S ts h (cursor s) lines -> answers S (t :: ts) h cur (text :: lines)
| answers_line t ts h cur s text ws lines : worded text ws -> ws <> [] ->
    readline (S h) (t_default t) cur (t_width t) (t_clip t) (t_events t) = Some (Finished s text RNil) ->
    answers S ts (h ++ [text]) (cursor s) lines -> answers S (t :: ts) h cur (text :: lines).
