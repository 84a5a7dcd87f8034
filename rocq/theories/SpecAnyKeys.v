(** Keys that are any bytes (C03). *)
From Verif Require Import Base Utf8 Moji Color Prompt Buffer Commands KeyMap Session Spec.

(** [t] is what a key [k] puts into the returned text.  ESC and one more byte stand for that
    byte; bytes that are not UTF-8 become U+FFFD; joiners may change as C01 says. *)
Record comes_back (E : env) (k t : str) : Prop := {
  cb_any : exists u rs, sanitized (key_text k) u /\ joiners_changed (runes u) rs /\ t = encode rs;
  cb_whole : zwj_ok E = false \/ ~ In 8204 (runes (key_text k)) /\ (forall rs, runes (key_text k) <> rs ++ [8205]) ->
             sanitized (key_text k) t;
  cb_same : survives E (key_text k) -> t = key_text k }.
