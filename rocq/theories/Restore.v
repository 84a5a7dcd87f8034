(** The settings of the terminal from before a ReadLine to after it: what the calls of
    Life.v do to them with each terminal of the module (tty8.go, tty10). *)
From Verif Require Import Base Utf8 Moji Color Prompt Buffer Commands KeyMap Session Life.

Section Settings.
(** The settings of the terminal driver (termios, or the console mode of Windows), what
    raw mode makes of them, and what ENABLE_VIRTUAL_TERMINAL_INPUT makes of them. *)
Variable M : Type.
Variable make_raw enable_vt : M -> M.

(** tty8.go:9-12 (go-tty), and tty10/main.go:11-15 on Unix and on Windows. *)
Inductive terminal := Tty8 | Tty10Unix | Tty10Windows.
(** Which call inside Open fails when Open fails: the one that opens, or, in tty8.go:20-23,
    the one that asks for the size. *)
Inductive cause := OpeningFails | SizeFails.

(** [undo]: what Close will do to the settings: [None] when tty8's field TTY, or tty10's
    field disable, is nil. *)
Record world := mkWorld { settings : M; undo : option (M -> M) }.

(** Open returning nil.
    - tty8.go:16: go-tty (not in /repo) is taken to keep the settings, switch to raw mode
      and put the kept settings back in its Close;
    - tty10/main_unix.go:6-8: nothing happens, and nothing has to be undone;
    - tty10/main_windows.go:10-21. *)
Definition open_ok (t : terminal) (w : world) : world :=
  let m := settings w in
  match t with
  | Tty8 => mkWorld (make_raw m) (Some (fun _ => m))
  | Tty10Unix => mkWorld m (Some (fun m' => m'))
  | Tty10Windows => mkWorld (enable_vt m) (Some (fun _ => m))
  end.
(** Open returning an error.
    - tty8.go:16-19: go-tty gives nil with its error, the settings are as they were;
    - tty8.go:20-23: go-tty stays open;
    - tty10/main.go:21-24 with main_windows.go:13-19: a function that does nothing. *)
Definition open_failed (t : terminal) (c : cause) (w : world) : world :=
  match t, c with
  | Tty8, OpeningFails => mkWorld (settings w) None
  | Tty8, SizeFails => open_ok Tty8 w
  | _, _ => mkWorld (settings w) (Some (fun m' => m'))
  end.
(** tty8.go:52-58, tty10/main.go:87-90. *)
Definition close (w : world) : world :=
  match undo w with
  | None => w
  | Some f => mkWorld (f (settings w)) None
  end.
(** The settings while GetKey waits for a key (getkey.go:58-62 with tty8.go:42,
    tty10/main.go:46-50); they are put back by the deferred call, whether a key comes or an
    error.  Switching to raw mode is taken to succeed; a key taken out of tty8's or tty10's
    own buffer does not change the settings either. *)
Definition waiting (w : world) : M := make_raw (settings w).

(** A call of Life.v: the settings it waits with, and the world after it. *)
Definition effect (t : terminal) (c : cause) (a : act) (w : world) : list M * world :=
  match a with
  | AOpen true => ([], open_ok t w)
  | AOpen false => ([], open_failed t c w)
  | AGetKey => ([waiting w], w)
  | AClose => ([], close w)
  | ASize _ | AOut _ => ([], w)
  end.
Fixpoint effects (t : terminal) (c : cause) (tr : list act) (w : world) : list M * world :=
  match tr with
  | [] => ([], w)
  | a :: tr' =>
    let '(l, w1) := effect t c a w in
    let '(l', w2) := effects t c tr' w1 in (l ++ l', w2)
  end.

(** A call of ReadLine: the editor and its terminal, and what happens to it. *)
Record read := mkRead { r_set : scfg; r_term : terminal; r_cause : cause; r_default : str; r_cur : Z;
  r_open : bool; r_size : option Z; r_clip : option str; r_events : list event }.
Definition calls_of (r : read) : list act * outcome :=
  readline_calls (r_set r) (r_default r) (r_cur r) (r_open r) (r_size r) (r_clip r) (r_events r).
Definition read_effect (r : read) (w : world) : list M * world := effects (r_term r) (r_cause r) (fst (calls_of r)) w.
(** ReadLines one after the other. *)
Definition after_reads (rs : list read) (w : world) : world := fold_left (fun w r => snd (read_effect r w)) rs w.
End Settings.
Arguments mkWorld {M}.
Arguments settings {M}.
Arguments undo {M}.
