(** C65: the settings of the terminal are put back. *)
From Verif Require Import Base Utf8 Moji Color Prompt Buffer Commands KeyMap Session Spec Sample Script SpecScript ScriptSample
  Life Restore RestoreFacts.

(** However a ReadLine ends - a line, Ctrl-C, an error of the terminal, a panic - the
    settings of the terminal are those from before; missing: Open of the default terminal
    failing because it cannot get the size. *)
Theorem C65_restored_partial : forall M make_raw enable_vt (r : read) (w : world M), scripted (r_set r) ->
  ~ (r_term r = Tty8 /\ r_open r = false /\ r_cause r = SizeFails) -> snd (calls_of r) <> Blocked ->
  settings (snd (read_effect M make_raw enable_vt r w)) = settings w.
Proof. exact read_restores. Qed.
Print Assumptions C65_restored_partial.
(** So after any number of them, with any terminals. *)
Theorem C65_many_partial : forall M make_raw enable_vt (rs : list read) (w : world M),
  Forall (fun r => scripted (r_set r) /\ ~ (r_term r = Tty8 /\ r_open r = false /\ r_cause r = SizeFails) /\ snd (calls_of r) <> Blocked) rs ->
  settings (after_reads M make_raw enable_vt rs w) = settings w.
Proof. exact reads_restore. Qed.
Print Assumptions C65_many_partial.
(** While ReadLine waits, the default terminal is in raw mode also between two GetKeys;
    tty10 leaves the terminal as it was between them (but for Windows' terminal input). *)
Theorem C65_meanwhile : forall M make_raw enable_vt (r : read) (w : world M), scripted (r_set r) -> snd (calls_of r) = Blocked ->
  settings (snd (read_effect M make_raw enable_vt r w)) =
  match r_term r with Tty8 => make_raw (settings w) | Tty10Unix => settings w | Tty10Windows => enable_vt (settings w) end.
Proof. exact read_meanwhile. Qed.
Print Assumptions C65_meanwhile.
(** Every wait for a key is a wait in raw mode, as made of these settings. *)
Theorem C65_waits : forall M make_raw enable_vt (r : read) (w : world M), scripted (r_set r) ->
  Forall (fun m => m = make_raw match r_term r with Tty8 => make_raw (settings w) | Tty10Unix => settings w | Tty10Windows => enable_vt (settings w) end)
    (fst (read_effect M make_raw enable_vt r w)).
Proof. exact waits_raw. Qed.
Print Assumptions C65_waits.

(** The default terminal closed once more - by the program, after ReadLine has closed it -
    changes nothing: whatever the settings have become by then, they stay.  (A second Close
    of tty10 is a crash: C48_twice_refuted.) *)
Theorem C65_close_again : forall M make_raw enable_vt (r : read) (w : world M) m, scripted (r_set r) -> r_term r = Tty8 -> r_open r = true ->
  snd (calls_of r) <> Blocked ->
  settings (snd (effects M make_raw enable_vt (r_term r) (r_cause r) [AClose] (mkWorld m (undo (snd (read_effect M make_raw enable_vt r w)))))) = m.
Proof. intros M make_raw enable_vt r w m HS _. now apply read_close_again. Qed.
Print Assumptions C65_close_again.

(** Settings: raw, and virtual terminal input. *)
Definition mode : Type := bool * bool.
Definition to_raw (m : mode) : mode := (true, snd m).
Definition to_vt (m : mode) : mode := (fst m, true).
Definition read_with (t : terminal) (ok : bool) (c : cause) (size : option Z) (es : list event) : read :=
  mkRead (S_script twice) t c [] 0 ok size (Some []) es.
Definition C65_reads : list read :=
  [ read_with Tty8 true OpeningFails (Some 80) (keys "ab" ++ [key 24; key 13]); read_with Tty10Windows true OpeningFails (Some 80) (keys "ab" ++ [EKeyErr]);
    read_with Tty8 true OpeningFails None []; read_with Tty8 false OpeningFails None []; read_with Tty10Unix true OpeningFails (Some 80) [key 20; key 20; key 13];
    read_with Tty8 true SizeFails (Some 80) (keys "ab" ++ [key 20; key 26]) ].
Example C65_case :
  map (fun r => snd (calls_of r)) C65_reads =
    [Returned (s2l "twice") (LRead RNil); Returned [] (LRead RKeyError); Returned [] LSizeError; Returned [] LOpenError; Returned [] (LRead RNil); Panicked] /\
  Forall (fun r => scripted (r_set r) /\ ~ (r_term r = Tty8 /\ r_open r = false /\ r_cause r = SizeFails) /\ snd (calls_of r) <> Blocked) C65_reads /\
  snd (calls_of (read_with Tty8 true OpeningFails (Some 80) (keys "ab"))) = Blocked /\
  map (fun r => fst (read_effect mode to_raw to_vt r (mkWorld (false, false) None))) C65_reads =
    [repeat (true, false) 4; repeat (true, true) 3; []; []; repeat (true, false) 3; repeat (true, false) 4].
Proof.
  split; [vm_compute; reflexivity|]. split; [|split; vm_compute; reflexivity].
  repeat constructor; try (apply script_scripted); try (vm_compute; discriminate); intros (H1 & H2 & H3); discriminate.
Qed.
(** The open part is false: when go-tty can be opened but the size cannot be asked for,
    ReadLine returns the error and leaves the terminal in raw mode; ... *)
Theorem C65_size_refuted : let r := read_with Tty8 false SizeFails None [] in
  snd (calls_of r) = Returned [] LOpenError /\
  settings (snd (read_effect mode to_raw to_vt r (mkWorld (false, false) None))) = (true, false).
Proof. split; vm_compute; reflexivity. Qed.
Print Assumptions C65_size_refuted.
(** ... and no later ReadLine that succeeds puts it back. *)
Theorem C65_forever_refuted : let rs := [read_with Tty8 false SizeFails None []; read_with Tty8 true OpeningFails (Some 80) (keys "ab" ++ [key 13])] in
  map (fun r => snd (calls_of r)) rs = [Returned [] LOpenError; Returned (s2l "ab") (LRead RNil)] /\
  settings (after_reads mode to_raw to_vt rs (mkWorld (false, false) None)) = (true, false).
Proof. split; vm_compute; reflexivity. Qed.
Print Assumptions C65_forever_refuted.
