(** Model of what tty10.Tty.GetKey does to the mode of the terminal, step by step, while
    the user goes on typing. *)
From Verif Require Import Base Utf8 KeyInput.

(** The terminal driver of the operating system (not in /repo): whether it is in raw mode,
    and the bytes that can be read. *)
Record driver := mkDriver { raw : bool; queue : str }.
Section WithDriver.
(** What a byte typed outside raw mode puts into the queue.  Echo, line editing and signals
    are not modelled. *)
Variable cook : Z -> str.
Definition press (b : Z) (d : driver) : driver := mkDriver (raw d) (queue d ++ if raw d then [b] else cook b).

(** tty10/main.go:44-78: where the calling program is.  [Outside buf]: not inside getKey,
    with the field buf; [Reading old]: after MakeRaw, which gave [old], waiting in Read;
    [Leaving old r]: Read has returned ([None] is an error), Restore comes next. *)
Inductive where10 := Outside (buf : str) | Reading (old : bool) | Leaving (old : bool) (r : option str).
(** [got]: the keys GetKey has returned so far. *)
Record state10 := mkState10 { drv : driver; at10 : where10; got : list str }.

(** The next system call of the program, as soon as GetKey is called again.  [n + 1] is how
    many bytes Read takes if there are so many (at most 1024: simplified to any number);
    [ok = false] makes it fail.
    - Outside with an empty buf: MakeRaw (tty10/main.go:46-50), taken to succeed;
    - Outside otherwise: a key is cut off (tty10/main.go:68-77);
    - Reading: Read (52-57), nothing while the queue is empty;
    - Leaving: the deferred Restore (50), then 61-66. *)
Definition go (n : nat) (ok : bool) (s : state10) : state10 :=
  match at10 s with
  | Outside [] => mkState10 (mkDriver true (queue (drv s))) (Reading (raw (drv s))) (got s)
  | Outside b =>
    match tty10_cut b [] with
    | (Key10 k, m) => mkState10 (drv s) (Outside (buf10 m)) (got s ++ [k])
    | _ => s
    end
  | Reading old =>
    if negb ok then mkState10 (drv s) (Leaving old None) (got s)
    else match queue (drv s) with
         | [] => s
         | q => mkState10 (mkDriver (raw (drv s)) (skipn (S n) q)) (Leaving old (Some (firstn (S n) q))) (got s)
         end
  | Leaving old r => mkState10 (mkDriver old (queue (drv s))) (Outside (match r with Some b => b | None => [] end)) (got s)
  end.

(** A schedule: the user types a byte, or the program makes a step. *)
Inductive act := Typed (b : Z) | Go (n : nat) (ok : bool).
Definition act1 (s : state10) (a : act) : state10 :=
  match a with
  | Typed b => mkState10 (press b (drv s)) (at10 s) (got s)
  | Go n ok => go n ok s
  end.
Definition acts10 (l : list act) (s : state10) : state10 := fold_left act1 l s.
Definition start10 (r : bool) : state10 := mkState10 (mkDriver r []) (Outside []) [].

(** The default terminal (tty8.go; go-tty, not in /repo, is taken to switch to raw mode in
    Open and back in Close): what can be read when the bytes were typed in these modes. *)
Definition arrived (l : list (bool * str)) : str :=
  flat_map (fun p : bool * str => if fst p then snd p else flat_map cook (snd p)) l.
End WithDriver.

(** The usual setting of a terminal outside raw mode (icrnl): Enter puts a line feed. *)
Definition icrnl (b : Z) : str := [if b =? 13 then 10 else b].
