(** Proofs for C64. *)
From Verif Require Import Base Utf8 Moji Color Prompt Buffer Commands KeyMap Session MojiFacts Spec SpecTabs SpecEnv TermCheck Tabs TabsFacts SpecTerm TermFacts.
Ltac lia := unfold rune in *; Lia.lia.

Lemma is_set_iff g n : is_set g n = true <-> g (s2l n) <> [].
Proof. unfold is_set. rewrite Bool.negb_true_iff. split; intros H; [intros K; rewrite K in H; discriminate|]. destruct (str_eqb _ _) eqn:E; [|reflexivity]. now apply str_eqb_eq in E. Qed.
Lemma is_set_no g n : is_set g n = false <-> g (s2l n) = [].
Proof. unfold is_set. rewrite Bool.negb_false_iff. apply str_eqb_eq. Qed.
Lemma windows_iff g : isWindowsTerminal g = true <-> windows_terminal g.
Proof.
  unfold isWindowsTerminal, windows_terminal, isVsCodeTerminal. rewrite !Bool.andb_true_iff, Bool.negb_true_iff, !is_set_iff, is_set_no. tauto.
Qed.
Lemma wez_iff g : isWezTerm g = true <-> wezterm g.
Proof. apply str_eqb_eq. Qed.
Lemma contour_iff g : isContour g = true <-> contour g.
Proof. apply str_eqb_eq. Qed.

Section Detected.
Variables (g : str -> str) (wf : bool -> rune -> Z) (vs : rune -> bool).
Notation E := (detected g wf vs).
Lemma switches : (sur_ok E = true <-> windows_terminal g \/ wezterm g \/ contour g) /\ zwj_ok E = sur_ok E /\ vs_ok E = sur_ok E /\
  (mod_ok E = true <-> windows_terminal g \/ wezterm g) /\ (amb_wide E = false <-> windows_terminal g).
Proof.
  cbn. rewrite !Bool.orb_true_iff, Bool.negb_false_iff, windows_iff, wez_iff, contour_iff. tauto.
Qed.
Lemma other_off : other_terminal g -> zwj_ok E = false /\ vs_ok E = false /\ mod_ok E = false /\ sur_ok E = false /\ amb_wide E = true.
Proof.
  intros (H1 & H2 & H3). rewrite <- windows_iff in H1. rewrite <- wez_iff in H2. rewrite <- contour_iff in H3.
  apply Bool.not_true_is_false in H1, H2, H3. cbn. rewrite H1, H2, H3. auto.
Qed.
Lemma other_joins r : other_terminal g -> joins E r = false.
Proof. intros H. destruct (other_off H) as (H1 & H2 & H3 & _). unfold joins. now rewrite H1, H2, H3. Qed.
Lemma units_off : other_terminal g -> forall rs m, units_from E (Some m) rs = m :: map (fun r => rune2moji E r 0) rs.
Proof.
  intros H. destruct (other_off H) as (H1 & H2 & H3 & _).
  assert (Z1 : forall r, isZeroWidthJoin E r = false) by (intros r; unfold isZeroWidthJoin; now rewrite H1).
  assert (Z2 : forall r, isVariationSelectorLike E r = false) by (intros r; unfold isVariationSelectorLike; now rewrite H2).
  assert (Z3 : forall r, isEmojiModifier E r = false) by (intros r; unfold isEmojiModifier; now rewrite H3).
  induction rs as [|r rs IH]; intros m; [reflexivity|]. destruct rs as [|n rs].
  - rewrite units_some1, Z1, Z2, Z3. reflexivity.
  - rewrite units_some2, Z1, Z2, Z3, IH. reflexivity.
Qed.
Lemma split_off t : other_terminal g -> split E t = map (fun r => rune2moji E r 0) (runes t).
Proof.
  intros H. unfold split. rewrite StringToMoji_units. unfold units. destruct (runes t) as [|r rs]; [reflexivity|].
  rewrite units_none, units_off by exact H. reflexivity.
Qed.
Lemma one_each t : other_terminal g -> map write (split E t) = map encode_rune (runes t).
Proof.
  intros H. rewrite split_off by exact H. rewrite map_map. apply map_ext. intros r.
  rewrite write_mrunes, mrunes_rune2moji. cbn. now rewrite app_nil_r.
Qed.
Lemma escaped_off r p : other_terminal g -> 65536 <= r -> valid_rune r = true ->
  exists h, print E (rune2moji E r p) = Some ([60] ++ h ++ [62]) /\ hex_value h = r /\ Forall hex_char h /\ zlen h + 2 = width E (rune2moji E r p).
Proof.
  intros H Hr Hv. destruct (other_off H) as (_ & _ & _ & H4 & _).
  assert (K : rune2moji E r p = MEsc r).
  { unfold rune2moji, isToBeEscaped, in_range.
    replace (r =? 9) with false by lia. replace (r <? 32) with false by lia.
    replace ((9472 <=? r) && (r <=? 9599)) with false by lia. rewrite H4. replace (65536 <=? r) with true by lia. cbn [andb negb orb].
    rewrite Bool.orb_true_r. reflexivity. }
  rewrite K. destruct (hexX_ok r) as (A & B & D); [unfold valid_rune in Hv; lia|]. exists (hexX r). cbn [print width]. auto.
Qed.

Lemma joined_pair a b : windows_terminal g \/ wezterm g \/ contour g -> 128000 <= a <= 129999 -> rw E a <> 0 -> vs a = false -> valid_rune b = true ->
  exists u, split E (encode [a; 8205; b]) = [u] /\ write u = encode [a; 8205; b] /\ width E u = rw E a + 1 + rw E b.
Proof.
  intros H Ha Wa Va Vb. destruct switches as (H1 & H2 & _). apply H1 in H. rewrite H in H2.
  unfold split. rewrite StringToMoji_units. unfold units. rewrite runes_encode by (repeat constructor; try assumption; unfold valid_rune; lia).
  rewrite units_none. assert (K : rune2moji E a 0 = MRaw a).
  { unfold rune2moji, isToBeEscaped, in_range. rewrite H.
    replace (a =? 9) with false by lia. replace (a <? 32) with false by lia.
    replace ((9472 <=? a) && (a <=? 9599)) with false by lia. replace ((127462 <=? a) && (a <=? 127487)) with false by lia.
    replace ((119808 <=? a) && (a <=? 120831)) with false by lia. replace (a =? 127987) with false by lia. cbn [andb negb].
    unfold isVariationSelectorLike. change (vsme E a) with (vs a). rewrite Va. replace (rw E a =? 0) with false by lia.
    rewrite !Bool.andb_false_r. reflexivity. }
  rewrite K. rewrite units_some2. unfold isZeroWidthJoin. rewrite H2. cbn [andb Z.eqb Pos.eqb].
  eexists. split; [reflexivity|]. split; [cbn; now rewrite ?app_nil_r|]. reflexivity.
Qed.
Lemma detected_sane : terminal_widths wf -> sane_widths E /\ (forall r, rw E r <= 8).
Proof.
  intros H. split; [split; [|split]|]; cbn.
  - intros r. apply H.
  - lia.
  - lia.
  - intros r. destruct (H (negb (isWindowsTerminal g)) r). lia.
Qed.
End Detected.

Lemma orgx_widths IsPrint Kind : terminal_widths (newRuneWidth IsPrint Kind).
Proof. intros amb r. unfold newRuneWidth. destruct (IsPrint r); cbn; [|lia]. destruct (Kind r), amb; lia. Qed.

Lemma orgx_widths_are g IsPrint Kind vs r : let E := detected g (newRuneWidth IsPrint Kind) vs in
  0 <= rw E r <= 2 /\ (IsPrint r = false -> rw E r = 0) /\
  (IsPrint r = true -> 1 <= rw E r /\
    (rw E r = 2 <-> Kind r = EastAsianWide \/ Kind r = EastAsianFullwidth \/ Kind r = EastAsianAmbiguous /\ ~ windows_terminal g)).
Proof.
  cbv zeta. split; [apply orgx_widths|]. cbn. unfold newRuneWidth. split; [now intros ->|]. intros ->. cbn [negb].
  split; [destruct (Kind r), (isWindowsTerminal g); cbn; lia|]. rewrite <- windows_iff.
  destruct (Kind r), (isWindowsTerminal g); cbn; split; try lia; try (intros [H|[H|[H1 H2]]]; try discriminate; try reflexivity; exfalso; apply H2; reflexivity); auto.
Qed.
Lemma other_safe S g wf vs default cur w cl es : only_builtin S -> cE (base S) = detected g wf vs -> other_terminal g -> terminal_widths wf ->
  (pcolor0 (base S) = [] \/ forall t c, short_text (predictor (base S) t c)) -> Forall short_text (hist (base S)) ->
  short_text default -> (forall t, cl = Some t -> short_text t) -> Forall (any_event S) es -> 0 <= cur -> prompt_width (base S) + 11 < w ->
  (forall es1 e es2 x, es = es1 ++ e :: es2 -> readline S default cur w cl es1 = Some x -> short_line x /\ no_swap_at_end S e x) ->
  exists x, readline S default cur w cl es = Some x /\ in_bounds (buf_of x).
Proof.
  intros HB HE Ho Hwf Hp Hh Hd Hcl Hes Hc Hw Hr.
  assert (HO : forall t, short_text t -> ordinary_text (cE (base S)) t).
  { intros t Ht. split; [|exact Ht]. intros r _. rewrite HE. now apply other_joins. }
  apply ordinary_safe; auto.
  - destruct (detected_sane g wf vs Hwf) as [S1 S2]. split; [exact HB|]. cbv zeta. split; [now rewrite HE|]. split; [rewrite HE; exact S2|].
    split; [rewrite HE; now apply other_joins|]. split; [intros r _; rewrite HE; now apply other_joins|].
    split; [|eapply Forall_impl; [|exact Hh]; auto]. destruct Hp as [Hp|Hp]; [now left|right; auto].
  - intros t Ht. auto.
  - eapply Forall_impl; [|exact Hes]. intros [k| |w'|c]; cbn; auto. intros [K1 K2]. auto. intros K t Ht. auto.
Qed.

(** Checking [any_event] by computation. *)
Definition any_eventb (S : scfg) (e : event) : bool :=
  match e with
  | EKey k => (zlen (runes k) <=? 800) && match LookupCommand (kmap S) (gmap S) k with CSelfInsert k' => zlen (runes k') <=? 800 | _ => true end
  | EKeyErr => true
  | EResize w => prompt_width (base S) + 11 <? w
  | EClip (Some t) => zlen (runes t) <=? 800
  | EClip None => true
  end.
Lemma any_eventb_ok S es : forallb (any_eventb S) es = true -> Forall (any_event S) es.
Proof.
  intros H. apply Forall_forall. intros e He. pose proof (proj1 (forallb_forall _ _) H e He) as G. destruct e as [k| |w|[t|]]; cbn in *; unfold short_text; try lia.
  - split; [lia|]. intros k' Hk. rewrite Hk in G. lia.
  - intros t' [= <-]. lia.
  - discriminate.
Qed.
