(** What the terminal is sent (C74). *)
From Verif Require Import Base Utf8 Moji Color Prompt Buffer Commands KeyMap Session Spec SpecTerm Script.

(** A command of the user's program that does not itself write to the terminal: it only
    calls the methods of the buffer. *)
Definition silent_call (c : call) : Prop := match c with KWrite _ => False | _ => True end.
Fixpoint silent (p : script) : Prop :=
  match p with
  | SReturn _ | SPanic => True
  | SLook k => forall s, silent (k s)
  | SDo c p' => silent_call c /\ silent p'
  end.
Definition silent_user (S : scfg) : Prop :=
  forall k f, LookupCommand (kmap S) (gmap S) k = CUser f -> exists p, silent p /\ forall s, f s = run_script (base S) p s.

(** Characters, none of them a control character (C0, DEL or C1). *)
Definition harmless (b : str) : Prop :=
  exists rs, b = encode rs /\ Forall (fun r => valid_rune r = true /\ control r = false) rs.

(** The sequences of the editor itself and the texts its settings contain. *)
Inductive own (S : scfg) (lf : Z -> str) : str -> Prop :=
| own_column t : Forall (fun c => 48 <= c <= 57 \/ c = 45) t -> own S lf ([27; 91] ++ t ++ [71])
| own_erase : own S lf [27; 91; 48; 75]
| own_clear : own S lf [27; 91; 49; 59; 49; 72; 27; 91; 50; 74]
| own_newline : own S lf [10]
| own_bell : own S lf [7]
| own_cursor_on : own S lf [27; 91; 63; 50; 53; 104; 27; 91; 115; 27; 91; 117]
| own_cursor_off : own S lf [27; 91; 63; 50; 53; 108]
| own_colour t : Forall (fun c => 48 <= c <= 57 \/ c = 59) t -> own S lf ([27; 91] ++ t ++ [109])
| own_save : own S lf [27; 55]
| own_back : own S lf [8]
| own_restore : own S lf [27; 56]
| own_prompt : own S lf (match prompt (base S) with None => [10; 62; 32] | Some t => t end)
| own_prompt_again : own S lf (nl_to_cr (13 :: match prompt (base S) with None => [62; 32] | Some t => t end))
| own_predict0 : own S lf (pcolor0 (base S))
| own_predict1 : own S lf (pcolor1 (base S))
| own_line_feed rc : own S lf (lf rc).

(** Characters among which there is one that attaches to the one before it. *)
Definition attached (E : env) (b : str) : Prop :=
  exists rs, b = encode rs /\ exists r, In r rs /\ joins E r = true.
