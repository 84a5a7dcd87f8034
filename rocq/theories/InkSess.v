(** The colours on the screen through a whole session: ScreenSess.v again, with ink. *)
From Verif Require Import Base Utf8 Moji Color Prompt Buffer Commands KeyMap Session MojiFacts Abs AbsRef AbsSess
  AbsSafe AbsInv Safe SafeSess Spec SpecScript SpecScreen ScreenFacts ScreenPaint ScreenCmd ScreenSess SpecPaint SpecInk InkFacts InkPaint InkCmd.
Ltac lia := unfold rune in *; Lia.lia.

Section Sess.
Variable S : scfg.
Notation C := (base S).
Notation E := (cE C).
Notation K := (ccol C).
Hypothesis HE : env_ok E.
Hypothesis HP : pcolor0 C = [] \/ forall t c, nt (StringToMoji E (predictor C t c)).
Hypothesis HB : blind K.
Hypothesis HT : true_colours K.
Variable other : iterminal.
Notation D := (idisplay E other).
Notation W := (total_width E).
Notation G := (ScreenCmd.G C).
Notation GI s := (G s /\ ni (line s)).

Definition igood (x : sess) (sc : iscreen) : Prop := GI (buf_of x) /\ binks_right C x sc.
(** From the screen [sc] with state [s], whatever ink is set, the outcome [x] is painted rightly. *)
Definition IP (sc : iscreen) (s : buf) (x : sess) : Prop :=
  exists ts, out (buf_of x) = out s ++ ts /\ forall k, binks_right C x (D (inkify k ts) sc).

Lemma IP_pre s0 s x sc ts : out s = out s0 ++ ts -> (forall k, IP (D (inkify k ts) sc) s x) -> IP sc s0 x.
Proof.
  intros H1 H2. destruct (H2 Before) as (t2 & O & _). exists (ts ++ t2). split; [rewrite O, H1; now rewrite app_assoc|].
  intros k. destruct (inkify_app ts k t2) as [k' Hk]. rewrite Hk, iD_app. destruct (H2 k) as (t3 & O3 & G3).
  assert (t3 = t2) by (rewrite O in O3; now apply app_inv_head in O3). subst t3. apply G3.
Qed.
Lemma IP_iemits s0 s x sc vs : iemits s0 s vs -> IP (D vs sc) s x -> IP sc s0 x.
Proof. intros (ts & O & Hk) H. apply (IP_pre s0 s x sc ts O). intros k. now rewrite Hk. Qed.
Lemma IP_quiet s0 s x sc ts : out s = out s0 ++ ts -> (forall k, inkify k ts = []) -> IP sc s x -> IP sc s0 x.
Proof. intros O H HI. eapply IP_iemits; [exists ts; split; [exact O|exact H]|exact HI]. Qed.
Lemma IP_same s0 s x sc : out s = out s0 -> IP sc s x -> IP sc s0 x.
Proof. intros O. apply IP_quiet with (ts := []); [now rewrite app_nil_r|reflexivity]. Qed.
Lemma IP_any s x sc : (forall sc', binks_right C x sc') -> (exists ts, out (buf_of x) = out s ++ ts) -> IP sc s x.
Proof. intros H (ts & O). exists ts. split; [exact O|]. intros k. apply H. Qed.

Lemma finish_out rc s x : finish S rc s = Some x -> exists s1 t e ts, x = Finished s1 t e /\ out s1 = out s ++ ts.
Proof.
  unfold finish. intros H. opt H. injection H as <-. do 3 eexists.
  assert (O : exists ts, out b = out s ++ ts).
  { destruct (suffix s); [|injection Ev as <-; exists []; now rewrite app_nil_r].
    apply repaintW_paints in Ev as (lc & ts & He & _). exists ts. rewrite He. reflexivity. }
  destruct O as [ts O]. eexists. split; [reflexivity|]. cbn [out emit]. rewrite O. now rewrite <- app_assoc.
Qed.
Lemma after_I s r x sc : (r = CONTINUE -> bshown C s sc) -> after_command S (Some (s, r)) = Some x -> IP sc s x.
Proof.
  intros Hsh H. unfold after_command in H.
  assert (Fin : finish S r (emit s [TCursorOn]) = Some x -> IP sc s x).
  { intros Hf. apply finish_out in Hf as (s1 & t & e & ts & -> & O). apply IP_any; [intros ?; exact I|]. exists ([TCursorOn] ++ ts). cbn [buf_of out emit] in *. rewrite O. now rewrite <- app_assoc. }
  destruct r; try (exact (Fin H)). injection H as <-. exists [TCursorOn; TFlush]. split; [cbn; now rewrite <- app_assoc|].
  intros k. exact (Hsh eq_refl).
Qed.
Lemma search_wait_I ss s x sc : search_wait S ss s = Some x -> IP sc s x.
Proof. unfold search_wait. intros H. opt H. injection H as <-. apply IP_any; [intros ?; exact I|]. eexists. reflexivity. Qed.
Lemma search_cancel_I s s' : GI s -> search_cancel S s = Some s' ->
  forall sc, icol sc = topc s -> exists vs, iemits s s' vs /\ bshown C s' (D vs sc).
Proof.
  intros (HG & Hi) H sc Hc. pose proof HG as (Hn & Ht & Hw & Hv & Hcu & Hs & HW). pose proof (G_VW S HE s HG) as HV. unfold search_cancel in H. opt H. subst.
  apply (getView2_emits C HE) in Ev as (Hw1 & Hw2 & He1 & He2 & He3 & Hmax); auto.
  pose proof (paints_fields _ _ (puts_paints C _ _ _ _ Ev0)) as (F1 & F2 & F3 & F4 & F5 & F6 & F7 & _).
  apply (puts_ink C HB HT) in Ev0 as Em1; [|exact Hi].
  pose proof (paints_fields _ _ (puts_paints C _ _ _ _ H)) as (K1 & K2 & K3 & K4 & K5 & K6 & K7 & _).
  assert (L2 : line (GotoHead (eraseline b)) = line s) by exact F1.
  apply (puts_ink C HB HT) in H as Em2; [|rewrite L2; exact Hi]. rewrite L2 in Em2. cbn [view cursor GotoHead eraseline emit] in Em2. rewrite F4, F5 in Em2.
  assert (Hce : cursor s <= z) by (apply Hmax; [lia|exact HW]).
  set (a := ipart (binked K (line s)) (view s) (cursor s)) in *. set (r := ipart (binked K (line s)) (cursor s) z).
  assert (Hab : ipart (binked K (line s)) (view s) z = a ++ r) by (unfold a, r; apply ipart_split; lia). rewrite Hab in Em1.
  assert (Hok : Forall (fun u => 0 <= iwidth E u) (a ++ r)) by (rewrite <- Hab; now apply iok_part).
  exists ((om (a ++ r) ++ [OErase]) ++ [OGoto (topc s + 1)] ++ om a). split.
  { rewrite <- !app_assoc. eapply iemits_trans; [exact Em1|]. change ([OErase] ++ [OGoto (topc s + 1)] ++ om a) with ([OErase; OGoto (topc s + 1)] ++ om a).
    eapply (iemits_trans b (GotoHead (eraseline b))); [|exact Em2]. exists [TErase; TGoto (topc b + 1)]. split; [cbn; now rewrite <- app_assoc|]. intros k. cbn. rewrite F7. reflexivity. }
  assert (Hg : D [OGoto (topc s + 1)] sc = sc).
  { destruct sc as [c0 r0]. cbn in Hc |- *. subst c0. f_equal. lia. }
  destruct (iscreen_repaint E other (topc s) a r sc Hok) as (S1 & S2). rewrite <- !app_assoc in S1, S2. rewrite iD_app, Hg in S1, S2.
  assert (FL : line s' = line s) by (exact (eq_trans K1 F1)). cbn [suffix view cursor topc termw GotoHead eraseline emit] in K3, K4, K5, K6, K7.
  assert (FV : ViewWidth s' = ViewWidth s) by (unfold ViewWidth; now rewrite K6, K7, F6, F7).
  exists z, []. unfold bshows, ishows. cbn [map]. rewrite !app_nil_r, FL, FV, K4, K5, K7, F4, F5, F7, Hab. rewrite <- !app_assoc. split; [lia|]. split; [now left|]. split; [exact S1|].
  split; [rewrite S2; unfold a; now rewrite (IW_part C)|]. lia.
Qed.

(** One event. *)
Hypothesis HO : only_builtin S.
Lemma step_I e x x' sc : step S e x = Some x' -> igood x sc -> roomy S x' -> ni (line (buf_of x')) -> steady S e x -> late_swap S e x ->
  IP sc (buf_of x) x'.
Proof.
  intros H [HGI Hm] Hroom Hni Hst Hls. destruct (roomy_nt S HP x' Hroom) as (Hn & Hw & Hss).
  destruct x as [m s|s t r].
  2:{ cbn in H. injection H as <-. apply IP_any; [intros ?; exact I|]. exists []. now rewrite app_nil_r. }
  pose proof HGI as [HG Hi]. cbn [buf_of] in HG, Hi, HGI |- *.
  destruct e as [k| |w|c].
  - cbn [step] in H. destruct m as [| |ss].
    + unfold key_normal in H. set (s0 := emit s [TCursorOff]) in *.
      apply (IP_quiet s s0 x' sc [TCursorOff]); [reflexivity|reflexivity|].
      cbn [steady] in Hst. destruct Hst as [Hst1 Hst2]. cbn [late_swap] in Hls. pose proof (HO k) as Hbk.
      assert (Hexec : forall c, c = LookupCommand (kmap S) (gmap S) k -> after_command S (exec C c s0) = Some x' -> IP sc s0 x').
      { intros c Hc Ha. destruct (exec C c s0) as [[s1 r]|] eqn:Hex; [|discriminate]. destruct (after_line S _ _ _ Ha) as [AL AT].
        assert (Hci : c = CInterrupt \/ c <> CInterrupt) by (destruct c; (now left) || (right; discriminate)). destruct Hci as [Hci|Hci].
        - rewrite Hci in Hex. cbn in Hex. injection Hex as <- <-. set (s1 := set_undoes _ _) in *.
          apply (IP_same s0 s1); [reflexivity|]. eapply after_I; [|exact Ha]. discriminate.
        - pose proof (exec_I C HE HP HB HT other c s0 s1 r) as HR. destruct (HR HGI) with (sc := sc) as (vs & Em & Sh); clear HR; auto.
          + intros f Hf. apply (Hbk f). congruence.
          + intros Hf. apply Hst1. congruence.
          + intros Hf. rewrite Hf in Hc. split; [apply Hst2; congruence|apply Hls; congruence].
          + rewrite <- AL. exact Hni.
          + apply (wide_line C (buf_of x')); auto.
          + eapply IP_iemits; [exact Em|]. eapply after_I; [auto|exact Ha]. }
      destruct (LookupCommand (kmap S) (gmap S) k) eqn:Hk; try (eapply Hexec; [reflexivity|exact H]).
      * injection H as <-. exists [TCursorOn; TFlush]. split; [reflexivity|]. intros k0. exact Hm.
      * apply (IP_pre s0 (GotoHead s0) x' sc [TGoto (topc s0 + 1)]); [reflexivity|]. intros k0. eapply search_wait_I; exact H.
    + unfold key_quoted in H. destruct (selfInsert C k s) as [s1|] eqn:Hsi; [|discriminate]. destruct (after_line S _ _ _ H) as [AL AT].
      destruct (selfInsert_I C HE HP HB HT other k s s1 HGI Hsi) with (sc := sc) as (vs & Em & Sh); auto.
      * change (ni (line (emit s1 [TCursorOff]))). rewrite <- AL. exact Hni.
      * apply (wide_line C (buf_of x')); auto.
      * eapply IP_iemits; [exact Em|]. apply (IP_quiet s1 (emit s1 [TCursorOff]) x' _ [TCursorOff]); [reflexivity|reflexivity|]. eapply after_I; [auto|exact H].
    + unfold key_search in H. cbv zeta in H. set (s1 := GotoHead (emit s [TCursorOff])) in *. opt H.
      apply (IP_iemits s s1 x' sc [OGoto (topc s + 1)]); [exists [TCursorOff; TGoto (topc s + 1)]; split; [unfold s1; cbn; now rewrite <- app_assoc|reflexivity]|].
      set (sc1 := D [OGoto (topc s + 1)] sc). assert (C1 : icol sc1 = topc s1) by (cbn; lia).
      destruct s0 as [ss'| |].
      * eapply search_wait_I; exact H.
      * destruct (search_accept S ss s1) as [s2|] eqn:Hsa; [|discriminate]. destruct (after_line S _ _ _ H) as [AL AT]. unfold search_accept in Hsa.
        set (s3 := set_cursor _ 0) in Hsa. destruct HG as (G1 & G2 & G3 & G4 & G5 & G6 & G7).
        destruct (Replace_I C HE HP HB HT other s3 0 (ss_found ss) s2 G6 G2 Hsa) with (sc := sc1) as (vs & Em & Sh).
        -- rewrite <- AL. exact Hni.
        -- apply (wide_line C (buf_of x')); auto.
        -- apply (IP_iemits s1 s2 x' sc1 vs Em). eapply after_I; [auto|exact H].
      * destruct (search_cancel S s1) as [s2|] eqn:Hsc; [|discriminate].
        destruct (search_cancel_I s1 s2 HGI Hsc sc1 C1) as (vs & Em & Sh).
        eapply IP_iemits; [exact Em|]. eapply after_I; [auto|exact H].
  - cbn [step] in H. destruct m as [| |ss].
    + injection H as <-. apply IP_any; [intros ?; exact I|]. eexists. reflexivity.
    + apply (IP_quiet s (emit s [TCursorOff]) x' sc [TCursorOff]); [reflexivity|reflexivity|]. eapply after_I; [intros _; exact Hm|exact H].
    + destruct Hst.
  - cbn [step] in H. destruct m as [| |ss]; [|injection H as <-; exists []; split; [now rewrite app_nil_r|intros k; exact Hm]..].
    opt H. injection H as <-. cbn [buf_of] in *. unfold on_resize, RepaintLastLine in Ev.
    set (ts0 := [TFlush; TPrompt (last_line_prompt (prompt C))]) in Ev.
    change (repaint C (ResetViewStart C (emit (set_termw s w) ts0)) = Some b) in Ev.
    pose proof HG as (G1 & G2 & G3 & G4 & G5 & G6 & G7).
    pose proof (reset_I C HE HP HB HT other (emit (set_termw s w) ts0) b Ev Hni G2 Hw G6) as HR.
    apply (IP_pre s (emit (set_termw s w) ts0) _ sc ts0); [reflexivity|]. intros k. destruct (HR (D (inkify k ts0) sc)) as (vs & (ts & O & Ek) & Sh).
    exists ts. split; [exact O|]. intros k0. rewrite Ek. exact Sh.
  - cbn [step] in H. injection H as <-. exists []. split; [now rewrite app_nil_r|]. intros k. destruct m; exact Hm.
Qed.

Lemma start_I default cur w cl x : start S default cur w cl = Some x -> roomy S x -> ni (line (buf_of x)) ->
  forall k sc, binks_right C x (D (inkify k (out (buf_of x))) sc).
Proof.
  intros H Hroom Hni. destruct (roomy_nt S HP x Hroom) as (Hn & Hw & _). unfold start in H. destruct (callPromptWriter E (prompt C)) as [t p] eqn:Hpw. opt H. injection H as <-. cbn [buf_of] in *.
  set (s0 := mkBuf [] None 0 cur w 0 (zlen (hist C)) [] [] [] cl []) in *. set (s1 := set_topc (emit s0 [TPrompt t]) p) in *.
  unfold InsertString in Ev. opt Ev. injection Ev as <- <-. apply insert_shape in Ev1 as (l0 & us & -> & _).
  unfold RepaintAfterPrompt in Ev0. set (s4 := if zlen (cells _) <? _ then _ else _) in *. pose proof (repaint_line C _ _ Ev0) as [RL RT].
  set (s2 := if termw s1 - 3 <=? topc s1 then set_topc (emit s1 [TNewline]) 0 else s1) in *.
  assert (T4 : termw s4 = w) by (unfold s4, s2; destruct (_ <=? _); destruct (_ <? _); reflexivity).
  assert (T2 : s2 = s1).
  { unfold s2. destruct (termw s1 - 3 <=? topc s1) eqn:Hx; [|reflexivity]. exfalso. destruct Hw as [Hw _]. unfold V, PW in Hw. rewrite Hpw in Hw. cbn [snd termw emit] in Hw.
    change (termw (ResetViewStart C s4)) with (termw s4) in RT. cbn in Hx. lia. }
  assert (T5 : topc s4 = p /\ suffix s4 = None /\ out s4 = [TPrompt t]) by (unfold s4; rewrite T2; match goal with |- context [if ?c then _ else _] => case c end; repeat split; reflexivity). destruct T5 as (T5 & T6 & T7).
  pose proof (reset_I C HE HP HB HT other s4 b0 Ev0) as HR.
  intros k sc. destruct (HR Hni) with (sc := D (inkify k [TPrompt t]) sc) as (vs & (ts & O & Ek) & Sh).
  - rewrite T5, Hpw. reflexivity.
  - exact Hw.
  - rewrite T6. constructor.
  - cbn [out emit]. rewrite O, T7. rewrite <- app_assoc. destruct (inkify_app [TPrompt t] k (ts ++ [TCursorOn; TFlush])) as [k1 ->].
    destruct (inkify_app ts k1 [TCursorOn; TFlush]) as [k2 ->]. rewrite Ek. cbn [inkify]. rewrite app_nil_r, iD_app. exact Sh.
Qed.
End Sess.
