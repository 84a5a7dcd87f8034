(** What must not depend on the display (C51). *)
From Verif Require Import Base Utf8 Moji Color Prompt Buffer Commands KeyMap Session Spec.

(** Two editors that differ at most in the display: widths of characters, colouring, prompt,
    and which characters are shown in escaped form.  Prediction is off in both. *)
Record same_but_display (S1 S2 : scfg) : Prop := {
  sd_kmap : kmap S1 = kmap S2;
  sd_gmap : gmap S1 = gmap S2;
  sd_hist : hist (base S1) = hist (base S2);
  sd_cycling : cycling (base S1) = cycling (base S2);
  sd_upper : upper (base S1) = upper (base S2);
  sd_zwj : zwj_ok (cE (base S1)) = zwj_ok (cE (base S2));
  sd_vs : vs_ok (cE (base S1)) = vs_ok (cE (base S2));
  sd_mod : mod_ok (cE (base S1)) = mod_ok (cE (base S2));
  sd_vsme : forall r, vsme (cE (base S1)) r = vsme (cE (base S2)) r;
  sd_off1 : pcolor0 (base S1) = [];
  sd_off2 : pcolor0 (base S2) = []
}.

(** The events other than resizes. *)
Definition without_resizes (es : list event) : list event :=
  filter (fun e => match e with EResize _ => false | _ => true end) es.

(** What a user can tell without looking at the terminal: the text of every unit of the
    line, the number of units before the cursor, the clipboard, the state of the dialogue
    and what ReadLine returned. *)
Definition told (x : sess) : list str * Z * option str * (mode + str * rerr) :=
  let s := buf_of x in
  (map write (line s), cursor s, clip s,
   match x with Running m _ => inl m | Finished _ t e => inr (t, e) end).
