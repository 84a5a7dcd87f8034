(** C58: the property theorem. *)
From Verif Require Import Base Utf8 Moji Color Prompt Buffer Commands KeyMap Session Spec SpecLib SpecTerm SpecScreen SpecVt Sample ScreenCheck VtSample.
From Verif Require VtFacts.

(** C58: after every event the bytes written so far, read by an ordinary terminal in any
    state between sequences, show the line: after the prompt stand the characters of the
    units from ViewStart on (control characters as ^A, unprintable ones as <300>, rules and
    mathematical letters in two columns), perhaps the beginning of the prediction, and nothing
    else; the cursor is visible and stands before the unit at the editor's cursor.  Whatever
    the terminal does with half characters, other sequences and the prompt.  Missing for the
    full claim: tabs (PVtTabs.v), joined characters, SWAPCHAR and what [steady] leaves out (C37). *)
Theorem C58_bytes_partial : forall V S default cur w cl es x,
  simple_editor S -> simple_text (cE (base S)) default -> simple_clip (cE (base S)) cl ->
  Forall (simple_event S) es -> 0 <= cur -> prompt_width (base S) + 11 < w < 9223372036854775808 ->
  (forall r, 0 <= r < 128 -> joins (cE (base S)) r = false) ->
  (forall x0, start S default cur w cl = Some x0 -> steady_run S es x0) ->
  counts_like V (cE (base S)) ->
  ready_after V (fst (callPromptWriter (cE (base S)) (prompt (base S)))) -> ready_after V (last_line_prompt (prompt (base S))) ->
  (pcolor0 (base S) <> [] -> attribute_only V (pcolor0 (base S)) /\ attribute_only V (pcolor1 (base S))) ->
  readline S default cur w cl es = Some x ->
  forall lf v0, v_state v0 = Ground -> 0 <= v_col v0 ->
  vt_right V (cE (base S)) x (vbytes V (out_bytes (cE (base S)) lf (out (buf_of x))) v0).
Proof. exact VtFacts.vt_session. Qed.
Print Assumptions C58_bytes_partial.

(** The full claim is false: a read error during the incremental search leaves the search line
    on the row, although the session goes on with the line (isearch.go:54-57). *)
Theorem C58_search_error_refuted : counts_like V_vt E_vt /\ exists s, readline S_vt [] 0 80 (Some []) [key 18; EKeyErr] = Some (Running MNormal s) /\
  ~ vt_right V_vt E_vt (Running MNormal s) (vbytes V_vt (out_bytes E_vt (fun _ => [10]) (out s)) (mkVt Ground 0 (fun _ => Empty) 0 true)).
Proof.
  split; [apply vt_counts|]. set (x := readline S_vt [] 0 80 (Some []) [key 18; EKeyErr]).
  assert (Hx : match x with Some (Running MNormal s) => suffix s = None /\ line s = [] /\ topc s = 2 /\
    v_row (vbytes V_vt (out_bytes E_vt (fun _ => [10]) (out s)) (mkVt Ground 0 (fun _ => Empty) 0 true)) 2 = Char 40 0 | _ => False end) by (vm_compute; auto).
  destruct x as [[[| |ss] s|s t r]|]; try destruct Hx. destruct H0 as (H1 & H2 & H3). exists s. split; [reflexivity|].
  intros (_ & _ & k & pred & before & after & _ & Hp & Hb & Ha & Hr & _).
  assert (pred = []) by (destruct Hp as [Hp|(_ & rest & Hp)]; [exact Hp|rewrite H in Hp; discriminate]). subst pred.
  rewrite H1 in Hb, Ha. unfold part in Hb, Ha. rewrite skipn_nil, firstn_nil in Hb, Ha. inversion Hb. inversion Ha. subst.
  specialize (Hr 2 ltac:(rewrite H2; apply Z.le_refl)). rewrite H3 in Hr. discriminate Hr.
Qed.
Print Assumptions C58_search_error_refuted.

(** A session that meets the conditions on every terminal of this kind. *)
Definition C58_events : list event :=
  keys "echo hello world" ++ [key 1; key 6; key 5; key 2; key 2; key 11; key 25; key 26; key 16; key 14; EResize 24; key 18]
  ++ keys "re" ++ [key 18; key 13; key 17; key 3; EKey (encode [12354]); EKey (encode [9472]); EKey (encode [768]); key 2].
Example C58_case : forall torn other, let V := V_with torn other in
  simple_editor S_vt /\ simple_text E_vt (s2l "abc") /\ Forall (simple_event S_vt) C58_events /\ prompt_width (base S_vt) + 11 < 20 /\
  (forall r, 0 <= r < 128 -> joins E_vt r = false) /\
  (forall x0, start S_vt (s2l "abc") 3 20 (Some []) = Some x0 -> steady_run S_vt C58_events x0) /\
  counts_like V E_vt /\ ready_after V (fst (callPromptWriter E_vt (prompt (base S_vt)))) /\ ready_after V (last_line_prompt (prompt (base S_vt))) /\
  (attribute_only V (pcolor0 (base S_vt)) /\ attribute_only V (pcolor1 (base S_vt))) /\
  readline S_vt (s2l "abc") 3 20 (Some []) C58_events <> None.
Proof.
  intros torn other V. split; [exact simple_vt|]. split; [now apply simple_textb_ok|]. split; [now apply simple_eventb_ok|]. split; [vm_compute; reflexivity|].
  split; [exact low_vt|]. split.
  { intros x0 Hx. apply calm_steady. revert x0 Hx. apply calm_read_ok. vm_compute. reflexivity. }
  split; [apply vt_counts|]. split; [now apply quiet_ready|]. split; [now apply quiet_ready|]. split; [|vm_compute; discriminate].
  split; [exact (sgr_attribute V (s2l "3;22;34") eq_refl)|exact (sgr_attribute V (s2l "23;39") eq_refl)].
Qed.
(** What one of them shows at the end, and where its cursor is. *)
Definition shown_cells (es : list event) (n : nat) : option (list vcell * Z) :=
  match readline S_vt (s2l "abc") 3 20 (Some []) es with
  | Some x => let v := vbytes V_vt (out_bytes E_vt (fun _ => [10]) (out (buf_of x))) (mkVt Ground 5 (fun _ => Char 120 0) 0 false) in
      Some (map (fun i => v_row v (Z.of_nat i)) (seq 0 n), v_col v)
  | None => None
  end.
Example C58_shown : shown_cells C58_events 24%nat =
  Some ([Char 36 0; Char 32 0; Char 32 0] ++ map (fun r => Char r 0) (s2l "readme") ++ [Char 94 0; Char 67 0; Char 12354 0; Char 12354 1; Char 9472 0; Char 32 0]
    ++ map (fun r => Char r 0) (s2l "<300>") ++ repeat Empty 4, 15).
Proof. vm_compute. reflexivity. Qed.
