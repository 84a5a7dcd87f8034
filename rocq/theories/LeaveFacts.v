(** ReadLine's last repaint. *)
From Verif Require Import Base Utf8 Moji Color Prompt Buffer Commands KeyMap Session MojiFacts Abs AbsRef AbsSess
  AbsSafe AbsInv Safe Spec SpecScreen SpecTabScreen SpecTabScroll SpecVt SpecVtTabs SpecVtScroll SpecLeave ScreenFacts ScreenPaint.
From Verif Require ScreenCmd ScreenSess ScreenSimple ScreenProps TabScreen TabScroll TabScrollSess.
Ltac lia := unfold rune in *; Lia.lia.

Definition emptied (s : buf) : buf := set_undoes (set_view (set_cursor (set_cells s []) 0) 0) [].
Section Sess.
Variable S : scfg.
Notation C := (base S).
Notation E := (cE C).
Hypothesis HB : only_builtin S.

Definition last_paint (s s1 : buf) : Prop :=
  match suffix s with None => Some s | Some _ => repaintWithoutUpdateSuffix C (set_suffix s None) end = Some s1.
Lemma ends_shape k s s' t r : step S (EKey k) (Running MNormal s) = Some (Finished s' t r) ->
  exists s0 s1, (r = RNil /\ s0 = s \/ r = RCtrlC /\ s0 = emptied s \/ r = REOF /\ s0 = s /\ line s = []) /\
    last_paint (emit s0 [TCursorOff; TCursorOn]) s1 /\ s' = emit s1 [TLineFeed (feed r); TFlush; TCursorOn; TFlush] /\ t = buf_string s1.
Proof.
  intros H. cbn [step] in H. unfold key_normal in H. set (s0 := emit s [TCursorOff]) in *.
  assert (Go : forall o, after_command S (continue_ o) <> Some (Finished s' t r)) by (intros [b|]; cbn; discriminate).
  assert (Fin : forall b rc, after_command S (Some (b, rc)) = Some (Finished s' t r) -> rc <> CONTINUE ->
    exists s1, last_paint (emit b [TCursorOn]) s1 /\ s' = emit s1 [TLineFeed (result_code rc); TFlush; TCursorOn; TFlush] /\ t = buf_string s1 /\ r = result_err rc).
  { intros b rc Ha Hrc. unfold after_command in Ha. destruct rc; [congruence|unfold finish in Ha; opt Ha; injection Ha as <- <- <-; exists b0; repeat split; exact Ev..]. }
  pose proof (HB k) as Hk.
  destruct (LookupCommand (kmap S) (gmap S) k) eqn:Hc; cbn [exec] in H; try (exfalso; exact (Go _ H)); try discriminate.
  - apply Fin in H as (s1 & H1 & H2 & H3 & ->); [|discriminate]. exists s, s1. split; [left; split; reflexivity|]. split; [|split; [exact H2|exact H3]].
    unfold s0 in H1. unfold emit in H1 |- *. cbn in H1 |- *. rewrite <- app_assoc in H1. exact H1.
  - unfold cmdInterrupt in H. apply Fin in H as (s1 & H1 & H2 & H3 & ->); [|discriminate]. exists (emptied s), s1. split; [right; left; split; reflexivity|]. split; [|split; [exact H2|exact H3]].
    unfold s0, emptied in *. unfold emit in H1 |- *. cbn in H1 |- *. rewrite <- app_assoc in H1. exact H1.
  - unfold cmdDeleteOrAbort in H. destruct (0 <? zlen (cells s0)) eqn:Hz.
    + destruct (cmdDeleteChar C s0); [|discriminate]. discriminate.
    + apply Fin in H as (s1 & H1 & H2 & H3 & ->); [|discriminate]. exists s, s1. split.
      { right; right. split; [reflexivity|]. split; [reflexivity|]. change (cells s0) with (cells s) in Hz. unfold line. destruct (cells s); [reflexivity|]. unfold zlen in Hz. cbn in Hz. lia. }
      split; [|split; [exact H2|exact H3]]. unfold s0 in H1. unfold emit in H1 |- *. cbn in H1 |- *. rewrite <- app_assoc in H1. exact H1.
  - exfalso. unfold search_wait in H. opt H. discriminate.
  - exfalso. eapply Hk. reflexivity.
Qed.

Lemma paint_fields s s1 : last_paint s s1 -> line s1 = line s /\ view s1 = view s /\ cursor s1 = cursor s /\ topc s1 = topc s /\ termw s1 = termw s /\ suffix s1 = None.
Proof.
  unfold last_paint. destruct (suffix s) eqn:Hs; intros H; [|injection H as <-; auto 10].
  pose proof (repaintW_paints C _ _ H) as Hp. apply paints_fields in Hp as (P1 & P2 & P3 & P4 & P5 & P6 & P7 & _). auto 10.
Qed.
Lemma leave_text r s s0 : (r = RNil /\ s0 = s \/ r = RCtrlC /\ s0 = emptied s \/ r = REOF /\ s0 = s /\ line s = []) -> written (line s0) = returns s r.
Proof. intros [(-> & ->)|[(-> & ->)|(-> & -> & Hl)]]; [reflexivity|reflexivity|]. rewrite Hl. reflexivity. Qed.
Lemma text_string s : buf_string s = written (line s).
Proof. unfold buf_string. now rewrite cell2string_text. Qed.

Hypothesis HE : env_ok E.
Variable other : terminal.
Notation D := (display E other).
Lemma emit_two (s : buf) : out (emit s [TCursorOff; TCursorOn]) = out s ++ [TCursorOff; TCursorOn]. Proof. reflexivity. Qed.

(** In the columns there are. *)
Section Calm.
Hypothesis HP : pcolor0 C = [] \/ forall t c, ScreenPaint.nt (StringToMoji E (predictor C t c)).
Notation G := (ScreenCmd.G C).
Lemma G_emptied s : G s -> G (emptied s).
Proof.
  intros (G1 & G2 & G3 & G4 & G5 & G6 & G7). assert (G3' : Safe.wide C (emptied s)) by (destruct G3 as [W1 W2]; split; [exact W1|split; [constructor|unfold lim; cbn; auto; try lia]]).
  destruct (ScreenCmd.G_view C HE (emptied s)) as [HV _]; [constructor|exact G2|exact G3'|].
  split; [constructor|]. split; [exact G2|]. split; [exact G3'|]. cbn. split; [lia|]. split; [unfold zlen; cbn; lia|]. split; [exact G6|].
  unfold ScreenCmd.Wv. cbn. exact HV.
Qed.
Lemma leave_calm s0 s1 sc : G s0 -> last_paint (emit s0 [TCursorOff; TCursorOn]) s1 -> (suffix s0 = None -> shown E s0 sc) ->
  exists ts k, out s1 = out s0 ++ ts /\ shows E s0 (D ts sc) k [].
Proof.
  intros HG H Hsh. destruct (ScreenSess.finish_R S HE HP other (emit s0 [TCursorOff; TCursorOn]) s1 HG H) as (F1 & F2 & _). destruct (paint_fields _ _ H) as (P1 & P2 & P3 & P4 & P5 & P6).
  destruct (suffix s0) as [m|] eqn:Hs.
  - destruct (F1 ltac:(cbn; congruence) (D [TCursorOff; TCursorOn] sc)) as (ts & O & (k & pred & Hk) & _). exists ([TCursorOff; TCursorOn] ++ ts), k. split; [rewrite O; cbn; now rewrite <- app_assoc|].
    rewrite D_app. unfold shows in Hk |- *. unfold ViewWidth in *. rewrite P1, P2, P3, P4, P5, P6 in Hk. destruct Hk as (K1 & K2 & K3). split; [exact K1|]. split; [now left|].
    destruct K2 as [-> |(_ & _ & rest & K2)]; [exact K3|discriminate].
  - assert (s1 = emit s0 [TCursorOff; TCursorOn]) as -> by now apply F2. destruct (Hsh eq_refl) as (k & pred & Hk). exists [TCursorOff; TCursorOn], k. split; [reflexivity|].
    rewrite ScreenSess.quiet_D by reflexivity. pose proof Hk as (_ & [-> |(_ & _ & rest & K2)] & _); [exact Hk|congruence].
Qed.
Lemma shows_bare s sc k : G s -> line s = [] -> shows E s sc k [] -> bare s sc.
Proof.
  intros (_ & _ & _ & G4 & G5 & _) Hl (_ & _ & H1 & H2 & _). rewrite Hl in *. unfold part in *. rewrite ?skipn_nil, ?firstn_nil in *. cbn [app] in H1. split.
  - intros x Hx. rewrite H1 by exact Hx. reflexivity.
  - rewrite H2. rewrite ?skipn_nil, ?firstn_nil, W_nil. lia.
Qed.
Lemma leaves_calm default cur w cl es k s s' t r sc :
  (forall x0, start S default cur w cl = Some x0 -> calm S es x0) -> readline S default cur w cl es = Some (Running MNormal s) ->
  step S (EKey k) (Running MNormal s) = Some (Finished s' t r) ->
  t = returns s r /\ exists ts, out s' = out s ++ ts ++ [TLineFeed (feed r); TFlush; TCursorOn; TFlush] /\
    leaves (stands E s (D (out s ++ ts) sc)) (bare s (D (out s ++ ts) sc)) s r.
Proof.
  intros Hc H Hst. destruct (ScreenSess.readline_screen S HE HP other HB default cur w cl es _ sc Hc H) as [HG Hsh]. cbn [buf_of screen_right] in HG, Hsh.
  destruct (ends_shape k s s' t r Hst) as (s0 & s1 & Hs0 & Hp & -> & ->). destruct (paint_fields _ _ Hp) as (P1 & P2 & P3 & P4 & P5 & P6).
  split. { rewrite text_string, P1. change (written (line s0) = returns s r). now apply leave_text. }
  assert (HG0 : G s0) by (destruct Hs0 as [(_ & ->)|[(_ & ->)|(_ & -> & _)]]; auto using G_emptied).
  assert (O0 : out s0 = out s /\ suffix s0 = suffix s /\ topc s0 = topc s) by (destruct Hs0 as [(_ & ->)|[(_ & ->)|(_ & -> & _)]]; auto). destruct O0 as (O0 & S0 & T0).
  destruct (suffix s) as [m|] eqn:Hs.
  - destruct (leave_calm s0 s1 (D (out s) sc) HG0 Hp) as (ts & n & O & Sh); [congruence|]. exists ts. split; [cbn [out emit]; rewrite O, O0; now rewrite <- app_assoc|]. rewrite D_app.
    destruct Hs0 as [(-> & ->)|[(-> & ->)|(-> & -> & Hl)]]; cbn [leaves]; rewrite ?Hs.
    + now exists n.
    + change (bare (emptied s) (D ts (D (out s) sc))). now apply (shows_bare _ _ n).
    + now apply (shows_bare _ _ n).
  - assert (s1 = emit s0 [TCursorOff; TCursorOn]) as -> by (unfold last_paint in Hp; cbn [suffix emit] in Hp; rewrite S0 in Hp; now injection Hp as <-).
    exists [TCursorOff; TCursorOn]. split; [cbn [out emit]; rewrite O0; now rewrite <- app_assoc|]. rewrite D_app, ScreenSess.quiet_D by reflexivity.
    assert (St : exists n, shows E s (D (out s) sc) n []).
    { destruct Hsh as (n & pred & Hn). exists n. pose proof Hn as (_ & [-> |(_ & _ & rest & K2)] & _); [exact Hn|congruence]. }
    destruct Hs0 as [(-> & ->)|[(-> & ->)|(-> & -> & Hl)]]; cbn [leaves]; rewrite ?Hs; [exact St|exact St|]. destruct St as [n Sn]. now apply (shows_bare _ _ n).
Qed.
End Calm.

(** On a row as long as need be. *)
Notation G := (TabScroll.G C).
Notation fresh := (TabScroll.fresh C).
Lemma G_emptied' s : G s -> G (emptied s).
Proof.
  intros _. split; [|reflexivity]. split; [split; [apply Forall_nil|change (line (emptied s)) with (@nil moji); rewrite W_nil; lia]|]. cbn. unfold zlen. cbn. lia.
Qed.
Lemma scrolled_bare s sc : G s -> line s = [] -> stands_scrolled E s sc -> bare s sc.
Proof.
  intros _ Hl (k & _ & H1 & H2). rewrite Hl in *. cbn [SpecTabScreen.laid] in *. unfold part in *. split.
  - intros x Hx. rewrite H1 by exact Hx. now rewrite skipn_nil, firstn_nil.
  - rewrite H2, skipn_nil, firstn_nil, W_nil. lia.
Qed.
Lemma leaves_scroll default cur w cl es k s s' t r sc :
  (forall x0, start S default cur w cl = Some x0 -> calm_scroll S es x0) -> readline S default cur w cl es = Some (Running MNormal s) ->
  step S (EKey k) (Running MNormal s) = Some (Finished s' t r) ->
  t = returns s r /\ exists ts, out s' = out s ++ ts ++ [TLineFeed (feed r); TFlush; TCursorOn; TFlush] /\
    leaves (stands_scrolled E s (D (out s ++ ts) sc)) (bare s (D (out s ++ ts) sc)) s r.
Proof.
  intros Hc H Hst. destruct (TabScrollSess.readline_screen S HE other HB default cur w cl es _ sc Hc H) as [HG Hsh]. cbn [buf_of scrolled_right] in HG, Hsh.
  destruct (ends_shape k s s' t r Hst) as (s0 & s1 & Hs0 & Hp & -> & ->). destruct (paint_fields _ _ Hp) as (P1 & P2 & P3 & P4 & P5 & P6).
  split. { rewrite text_string, P1. change (written (line s0) = returns s r). now apply leave_text. }
  assert (HG0 : G s0) by (destruct Hs0 as [(_ & ->)|[(_ & ->)|(_ & -> & _)]]; eauto using G_emptied').
  assert (O0 : out s0 = out s /\ suffix s0 = suffix s /\ topc s0 = topc s) by (destruct Hs0 as [(_ & ->)|[(_ & ->)|(_ & -> & _)]]; auto). destruct O0 as (O0 & S0 & T0).
  destruct (suffix s) as [m|] eqn:Hs.
  - pose proof Hp as Hp0. unfold last_paint in Hp0. cbn [suffix emit] in Hp0. rewrite S0 in Hp0.
    destruct (TabScroll.repaintW_S C HE other _ s1 Hp0 (proj1 (proj1 HG0)) (TabScroll.ready_fresh C _ (proj2 HG0))) as [HR _].
    destruct (HR (D [TCursorOff; TCursorOn] (D (out s) sc))) as (ts & O & (n & pred & K1 & K2 & K3 & K4)).
    exists ([TCursorOff; TCursorOn] ++ ts). split; [cbn [out emit]; rewrite O; cbn [out emit set_suffix]; rewrite O0; now rewrite <- !app_assoc|]. rewrite !D_app.
    assert (Sh : stands_scrolled E s0 (D ts (D [TCursorOff; TCursorOn] (D (out s) sc)))).
    { exists n. rewrite P6 in K2. destruct K2 as [-> |(_ & rest & K2)]; [|discriminate]. rewrite app_nil_r in K3. rewrite P1, P2, P3, P4 in *. auto. }
    destruct Hs0 as [(-> & ->)|[(-> & ->)|(-> & -> & Hl)]]; cbn [leaves]; rewrite ?Hs.
    + exact Sh.
    + change (bare (emptied s) (D ts (D [TCursorOff; TCursorOn] (D (out s) sc)))). now apply scrolled_bare.
    + now apply scrolled_bare.
  - assert (s1 = emit s0 [TCursorOff; TCursorOn]) as -> by (unfold last_paint in Hp; cbn [suffix emit] in Hp; rewrite S0 in Hp; now injection Hp as <-).
    exists [TCursorOff; TCursorOn]. split; [cbn [out emit]; rewrite O0; now rewrite <- app_assoc|]. rewrite D_app, ScreenSess.quiet_D by reflexivity.
    assert (St : stands_scrolled E s (D (out s) sc)).
    { destruct Hsh as (n & pred & K1 & K2 & K3 & K4). exists n. destruct K2 as [-> |(_ & rest & K2)]; [|congruence]. rewrite app_nil_r in K3. auto. }
    destruct Hs0 as [(-> & ->)|[(-> & ->)|(-> & -> & Hl)]]; cbn [leaves]; rewrite ?Hs; [exact St|exact St|]. now apply scrolled_bare.
Qed.
End Sess.
Lemma leave_calm_session S default cur w cl es k s s' t r :
  sane_widths (cE (base S)) -> only_builtin S -> ScreenProps.pred_tabfree S ->
  (forall x0, start S default cur w cl = Some x0 -> calm S es x0) ->
  readline S default cur w cl es = Some (Running MNormal s) -> step S (EKey k) (Running MNormal s) = Some (Finished s' t r) ->
  t = returns s r /\ forall other sc, exists ts, out s' = out s ++ ts ++ [TLineFeed (feed r); TFlush; TCursorOn; TFlush] /\
    let sc' := display (cE (base S)) other (out s ++ ts) sc in leaves (stands (cE (base S)) s sc') (bare s sc') s r.
Proof.
  intros HE HB HP Hc H Hx. split.
  - now destruct (leaves_calm S HB HE (mkTerminal (fun _ sc => sc) (fun _ _ _ => Blank)) (ScreenProps.pred_nt S HP) default cur w cl es k s s' t r (mkScreen 0 (fun _ => Blank)) Hc H Hx).
  - intros other sc. now destruct (leaves_calm S HB HE other (ScreenProps.pred_nt S HP) default cur w cl es k s s' t r sc Hc H Hx).
Qed.
Lemma leave_simple_session S default cur w cl es k s s' t r :
  simple_editor S -> simple_text (cE (base S)) default -> simple_clip (cE (base S)) cl ->
  Forall (simple_event S) es -> 0 <= cur -> prompt_width (base S) + 11 < w ->
  (forall x0, start S default cur w cl = Some x0 -> steady_run S es x0) ->
  readline S default cur w cl es = Some (Running MNormal s) -> step S (EKey k) (Running MNormal s) = Some (Finished s' t r) ->
  t = returns s r /\ forall other sc, exists ts, out s' = out s ++ ts ++ [TLineFeed (feed r); TFlush; TCursorOn; TFlush] /\
    let sc' := display (cE (base S)) other (out s ++ ts) sc in leaves (stands (cE (base S)) s sc') (bare s sc') s r.
Proof.
  intros HS Hd Hcl Hes Hc Hw Hst H Hx.
  assert (Hca : forall x0, start S default cur w cl = Some x0 -> calm S es x0) by (intros x0 Hx0; eapply ScreenSimple.simple_start; eauto).
  split.
  - now destruct (leaves_calm S (proj1 HS) (ScreenSimple.HE S HS) (mkTerminal (fun _ sc => sc) (fun _ _ _ => Blank)) (ScreenSimple.HPn S HS) default cur w cl es k s s' t r (mkScreen 0 (fun _ => Blank)) Hca H Hx).
  - intros other sc. now destruct (leaves_calm S (proj1 HS) (ScreenSimple.HE S HS) other (ScreenSimple.HPn S HS) default cur w cl es k s s' t r sc Hca H Hx).
Qed.
Lemma leave_scroll_session S default cur w cl es k s s' t r :
  sane_widths (cE (base S)) -> only_builtin S ->
  (forall x0, start S default cur w cl = Some x0 -> calm_scroll S es x0) ->
  readline S default cur w cl es = Some (Running MNormal s) -> step S (EKey k) (Running MNormal s) = Some (Finished s' t r) ->
  t = returns s r /\ forall other sc, exists ts, out s' = out s ++ ts ++ [TLineFeed (feed r); TFlush; TCursorOn; TFlush] /\
    let sc' := display (cE (base S)) other (out s ++ ts) sc in leaves (stands_scrolled (cE (base S)) s sc') (bare s sc') s r.
Proof.
  intros HE HB Hc H Hx. split.
  - now destruct (leaves_scroll S HB HE (mkTerminal (fun _ sc => sc) (fun _ _ _ => Blank)) default cur w cl es k s s' t r (mkScreen 0 (fun _ => Blank)) Hc H Hx).
  - intros other sc. now destruct (leaves_scroll S HB HE other default cur w cl es k s s' t r sc Hc H Hx).
Qed.
