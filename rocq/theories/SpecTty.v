(** What the theorems about whole lines coming from a terminal say. *)
From Verif Require Import Base Utf8 Moji Buffer Commands KeyMap Session KeyInput Spec Repl SpecRepl Terminal.

(** A character that the editor inserts when its key is pressed and shows as one simple
    unit, whatever is in the history. *)
Definition typed_char (S : container -> scfg) (E : env) (r : rune) : Prop :=
  valid_rune r = true /\ r <> 0 /\ r <> 27 /\ r <> 9 /\ joins E r = false /\
  forall h, unbound (S h) (encode_rune r).

(** The characters of the lines, each line ended by the Enter key. *)
Definition typed_lines (ls : list (list rune)) : list rune := flat_map (fun l => l ++ [13]) ls.

(** A simple editor over a container whatever simple lines that holds, Enter being bound to
    ACCEPT_LINE. *)
Record simple_over (S : container -> scfg) (E : env) : Prop := {
  so_hist : forall h, hist (base (S h)) = h;
  so_env : forall h, cE (base (S h)) = E;
  so_simple : forall h, Forall (simple_text E) h -> simple_editor (S h);
  so_enter : forall h, bound (S h) [13] CAcceptLine;
  so_cr : joins E 13 = false
}.
(** An empty Default, a terminal that is wide enough, a simple clipboard. *)
Definition fit_place (S : container -> scfg) (E : env) (p : place) : Prop :=
  p_default p = [] /\ (forall h, prompt_width (base (S h)) + 11 < p_width p) /\ simple_clip E (p_clip p).
(** Every bound key begins with a control character. *)
Definition control_keys (km : keymap) : Prop :=
  Forall (fun p => exists b t, fst p = b :: t /\ (0 <= b < 32 \/ b = 127)) km.
(** What os.Stdin.Read gives when [b] is waiting: at most 1024 bytes at a time
    (tty10/main.go:52-53). *)
Fixpoint read_1024 (fuel : nat) (b : str) : list (option str) :=
  match fuel, b with
  | O, _ | _, [] => []
  | Datatypes.S f, _ => Some (firstn 1024 b) :: read_1024 f (skipn 1024 b)
  end.
(** The next call of ReadLine, wherever it is made, gives up with the error of the read and
    no text, and leaves the terminal as [left]. *)
Definition next_call_fails {T : Type} (next : T -> option (read * T)) (S : container -> scfg) (E : env) (n : nat)
  (h : container) (cur : Z) (t : T) (left : T -> Prop) : Prop :=
  forall p, fit_place S E p -> exists x0 s t', start (S h) (p_default p) cur (p_width p) (p_clip p) = Some x0 /\
    listen next (S h) n x0 t = Some (Finished s [] RKeyError, t') /\ left t'.
