(** Settings that change during ReadLine. *)
From Verif Require Import Base Utf8 Moji Color Prompt Buffer Commands KeyMap Session.

(** An application may change the fields of the Editor (main.go:44-60), its key bindings
    (keymap.go:63-72), the history (main.go:52, any implementation of IHistory) and the
    widths of characters (buffer.go:303-309,319-321) while ReadLine is running: from a user
    command, or from elsewhere while ReadLine waits.  Each event is handled with the settings of its
    moment; a change while a command runs counts as one after it. *)
Fixpoint run_settings (ses : list (scfg * event)) (x : sess) : option sess :=
  match ses with
  | [] => Some x
  | (T, e) :: ses' => let* x' := step T e x in run_settings ses' x'
  end.

(** ReadLine called with the settings [S]. *)
Definition readline_settings (S : scfg) (default : str) (cur w : Z) (cl : option str) (ses : list (scfg * event)) : option sess :=
  let* x := start S default cur w cl in run_settings ses x.
