(** C79: what ReadLine leaves on the row. *)
From Verif Require Import Base Utf8 Moji Color Prompt Buffer Commands KeyMap Session Spec Sample SpecLib SpecTerm SpecScreen SpecVt SpecTabScreen SpecVtTabs
  SpecTabScroll SpecVtScroll ScreenCheck TabScrollCheck VtSample VtTabsSample SpecLeave.
From Verif Require LeaveFacts LeaveVt.

(** C79 under conditions on the events alone (those of C37_screen_simple_partial).  Missing for
    the full claim: tabs and joined characters (below), and what [steady] leaves out. *)
Theorem C79_simple_partial : forall S default cur w cl es k s s' t r,
  simple_editor S -> simple_text (cE (base S)) default -> simple_clip (cE (base S)) cl ->
  Forall (simple_event S) es -> 0 <= cur -> prompt_width (base S) + 11 < w ->
  (forall x0, start S default cur w cl = Some x0 -> steady_run S es x0) ->
  readline S default cur w cl es = Some (Running MNormal s) -> step S (EKey k) (Running MNormal s) = Some (Finished s' t r) ->
  t = returns s r /\ forall other sc, exists ts, out s' = out s ++ ts ++ [TLineFeed (feed r); TFlush; TCursorOn; TFlush] /\
    let sc' := display (cE (base S)) other (out s ++ ts) sc in leaves (stands (cE (base S)) s sc') (bare s sc') s r.
Proof. exact LeaveFacts.leave_simple_session. Qed.
Print Assumptions C79_simple_partial.

(** With joined characters. *)
Theorem C79_calm_partial : forall S default cur w cl es k s s' t r,
  sane_widths (cE (base S)) -> only_builtin S ->
  (pcolor0 (base S) = [] \/ forall t c, Forall (fun m => tabfree m = true) (StringToMoji (cE (base S)) (predictor (base S) t c))) ->
  (forall x0, start S default cur w cl = Some x0 -> calm S es x0) ->
  readline S default cur w cl es = Some (Running MNormal s) -> step S (EKey k) (Running MNormal s) = Some (Finished s' t r) ->
  t = returns s r /\ forall other sc, exists ts, out s' = out s ++ ts ++ [TLineFeed (feed r); TFlush; TCursorOn; TFlush] /\
    let sc' := display (cE (base S)) other (out s ++ ts) sc in leaves (stands (cE (base S)) s sc') (bare s sc') s r.
Proof. exact LeaveFacts.leave_calm_session. Qed.
Print Assumptions C79_calm_partial.

(** With tabs, on a row as long as need be. *)
Theorem C79_tabs_partial : forall S default cur w cl es k s s' t r,
  sane_widths (cE (base S)) -> only_builtin S ->
  (forall x0, start S default cur w cl = Some x0 -> calm_scroll S es x0) ->
  readline S default cur w cl es = Some (Running MNormal s) -> step S (EKey k) (Running MNormal s) = Some (Finished s' t r) ->
  t = returns s r /\ forall other sc, exists ts, out s' = out s ++ ts ++ [TLineFeed (feed r); TFlush; TCursorOn; TFlush] /\
    let sc' := display (cE (base S)) other (out s ++ ts) sc in leaves (stands_scrolled (cE (base S)) s sc') (bare s sc') s r.
Proof. exact LeaveFacts.leave_scroll_session. Qed.
Print Assumptions C79_tabs_partial.

(** On an ordinary terminal that is given the bytes (the terminals of C58). *)
Theorem C79_bytes_partial : forall V S default cur w cl es k s s' t r,
  single_editor S -> single_text (cE (base S)) default -> single_clip (cE (base S)) cl -> Forall (single_event S) es ->
  prompt_width (base S) + 3 < w < 9223372036854775808 ->
  (forall x0, start S default cur w cl = Some x0 -> calm_scroll S es x0) ->
  counts_like V (cE (base S)) ->
  ready_after V (fst (callPromptWriter (cE (base S)) (prompt (base S)))) -> ready_after V (last_line_prompt (prompt (base S))) ->
  (pcolor0 (base S) <> [] -> attribute_only V (pcolor0 (base S)) /\ attribute_only V (pcolor1 (base S))) ->
  readline S default cur w cl es = Some (Running MNormal s) -> step S (EKey k) (Running MNormal s) = Some (Finished s' t r) ->
  forall lf v0, v_state v0 = Ground -> 0 <= v_col v0 ->
  exists ts, out s' = out s ++ ts ++ [TLineFeed (feed r); TFlush; TCursorOn; TFlush] /\
    let v := vbytes V (out_bytes (cE (base S)) lf (out s ++ ts)) v0 in v_state v = Ground /\ leaves (vt_stands V s v) (vt_bare s v) s r.
Proof. exact LeaveVt.leaves_bytes. Qed.
Print Assumptions C79_bytes_partial.

(** Sessions that meet the conditions, and the five columns after the prompt before the line
    feed: Enter while a prediction is shown; Ctrl-C then; Ctrl-C without predictions; Ctrl-D. *)
Definition last_row (S : scfg) (es : list event) (k : Z) : option (rerr * option (list moji) * list slot) :=
  match readline S [] 0 20 (Some []) es with
  | Some (Running MNormal s) => match step S (key k) (Running MNormal s) with
      | Some (Finished s' t r) => Some (r, suffix s, let before := firstn (List.length (out s') - 4) (out s') in
          map (row (display E_off still before (mkScreen 0 (fun _ => Blank)))) [2; 3; 4; 5; 6])
      | _ => None end
  | _ => None end.
Example C79_simple_case : let es := keys "xy" ++ [key 21] ++ keys "ma" in
  simple_editor S_pred /\ Forall (simple_event S_pred) es /\ prompt_width (base S_pred) + 11 < 20 /\
  (forall x0, start S_pred [] 0 20 (Some []) = Some x0 -> steady_run S_pred es x0) /\
  last_row S_pred es 13 = Some (RNil, Some (split E_off (s2l "ke install")), [Part (MRaw 109) 0; Part (MRaw 97) 0; Blank; Blank; Blank]) /\
  last_row S_pred es 3 = Some (RCtrlC, Some (split E_off (s2l "ke install")), [Blank; Blank; Blank; Blank; Blank]) /\
  last_row S_off es 3 = Some (RCtrlC, None, [Part (MRaw 109) 0; Part (MRaw 97) 0; Blank; Blank; Blank]) /\
  last_row S_pred (keys "xy" ++ [key 21]) 4 = Some (REOF, None, [Blank; Blank; Blank; Blank; Blank]).
Proof.
  cbv zeta. split; [exact simple_pred|]. split; [now apply simple_eventb_ok|]. split; [reflexivity|]. split.
  - intros x0 Hx. apply calm_steady. revert x0 Hx. apply calm_read_ok. vm_compute. reflexivity.
  - vm_compute. auto.
Qed.
(** With a tab and a prediction, on every terminal of this kind. *)
Definition C79_tab_events : list event := keys "xy" ++ [key 17; key 9; key 5; key 21] ++ keys "make" ++ [key 17; key 9].
Example C79_tabs_case : forall torn other, let V := V_with torn other in
  single_editor S_vttp /\ Forall (single_event S_vttp) C79_tab_events /\ prompt_width (base S_vttp) + 3 < 20 /\
  (forall x0, start S_vttp [] 0 20 (Some []) = Some x0 -> calm_scroll S_vttp C79_tab_events x0) /\
  counts_like V E_vt /\ ready_after V (fst (callPromptWriter E_vt (prompt (base S_vttp)))) /\ ready_after V (last_line_prompt (prompt (base S_vttp))) /\
  (attribute_only V (pcolor0 (base S_vttp)) /\ attribute_only V (pcolor1 (base S_vttp))) /\
  match readline S_vttp [] 0 20 (Some []) C79_tab_events with
  | Some (Running MNormal s) => zlen (line s) = 5 /\ zlen (predicted s) = 3 /\
      match step S_vttp (key 13) (Running MNormal s) with
      | Some (Finished s' t r) => r = RNil /\ t = s2l "make" ++ [9] /\
          let v := vbytes V_vt (out_bytes E_vt (fun _ => [10]) (firstn (List.length (out s') - 4) (out s'))) (mkVt Ground 5 (fun _ => Char 120 0) 0 false) in
          (map (fun i => v_row v (Z.of_nat i)) (seq 2 12), v_col v) = (map (fun r => Char r 0) (s2l "make    ") ++ repeat Empty 4, 10)
      | _ => False end
  | _ => False
  end.
Proof.
  intros torn other V. split; [exact single_vttp|]. split; [now apply single_eventb_ok|]. split; [vm_compute; reflexivity|].
  split; [apply calm_scroll_read_ok; vm_compute; reflexivity|]. split; [apply vt_counts|]. split; [now apply quiet_ready|]. split; [now apply quiet_ready|].
  split; [split; [exact (sgr_attribute V (s2l "3;22;34") eq_refl)|exact (sgr_attribute V (s2l "23;39") eq_refl)]|]. vm_compute. auto 10.
Qed.
