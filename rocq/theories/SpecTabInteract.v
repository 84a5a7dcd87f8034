(** Careful user commands that read keys, in lines with tabs (C59). *)
From Verif Require Import Base Utf8 Moji Color Prompt Buffer Commands KeyMap Session Spec SpecTabs Script SpecScript SpecTabScript Interact SpecInteract.

Section Careful.
Variable S : scfg.
Context {Q : Type}.
Variable U : programs Q.
(** As SpecInteract.gcareful, with the calls of SpecTabScript.v. *)
Variable I : Q -> bool -> list moji -> Z -> Prop.
Fixpoint tab_gcareful (shown : bool) (p : seg Q) (s : buf) : Prop :=
  match p with
  | GReturn _ => shown = true
  | GPanic => False
  | GLook k => tab_gcareful shown (k s) s
  | GDo c p' => tab_call_ok (base S) shown c s /\ forall s', do_call (base S) c s = Some s' -> tab_gcareful (shown_after c shown) p' s'
  | GKey q => I q shown (line s) (cursor s)
  end.
(** What the command does next, wherever it is, is careful. *)
Definition careful_from (q : Q) (o : option str) (s : buf) : Prop :=
  forall shown, I q shown (line s) (cursor s) -> (shown = true -> in_bounds s) -> tab_gcareful shown (resume U q o) s.
Definition ordinary_there (e : event) (y : isess Q) : Prop :=
  match y with
  | ISess x => ordinary_event S e /\ short_line x /\
      match e, x with
      | EKey k, Running MNormal s =>
        match bound U k with
        | Some p => tab_gcareful true p (emit s [TCursorOff])
        | None => no_swap_at_end S e x /\ careful_there S e x
        end
      | _, _ => True
      end
  | IUser q s =>
      match e with
      | EKey k => careful_from q (Some k) s
      | EKeyErr => careful_from q None s
      | EResize _ => True
      | EClip c => ordinary_clip (cE (base S)) c
      end
  end.
End Careful.
