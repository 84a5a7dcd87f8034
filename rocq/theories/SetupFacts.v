(** Facts about Setup.v. *)
From Verif Require Import Base Utf8 Moji Color Prompt Buffer Commands KeyMap Session Setup SpecSetup.

Lemma filled_match {A} (d : A) o : filled d o (Some match o with Some a => a | None => d end).
Proof. split; [intros a ->|intros ->]; reflexivity. Qed.
Lemma filled_eq {A} (d : A) o a : filled d o (Some a) -> match o with Some a => a | None => d end = a.
Proof. intros [H1 H2]. destruct o as [b|]; [specialize (H1 b eq_refl)|specialize (H2 eq_refl)]; congruence. Qed.

Lemma init_filled e :
  filled [] (e_history e) (e_history (Init e)) /\ filled Stdout (e_writer e) (e_writer (Init e)) /\
  filled TtyDefault (e_tty e) (e_tty (Init e)) /\ filled monoChrome (e_coloring e) (e_coloring (Init e)) /\
  filled predictByHistory (e_predictor e) (e_predictor (Init e)) /\
  (forall o, e_out e = Some o -> e_out (Init e) = Some o) /\
  (e_out e = None -> exists o w, e_out (Init e) = Some o /\ e_writer (Init e) = Some w /\ leads_to o w) /\
  e_keymap (Init e) = e_keymap e /\ e_prompt (Init e) = e_prompt e /\ e_default (Init e) = e_default e /\ e_cursor (Init e) = e_cursor e /\
  e_cycling (Init e) = e_cycling e /\ e_pcolor (Init e) = e_pcolor e.
Proof.
  do 5 (split; [apply filled_match|]). split; [intros o Ho; cbn; now rewrite Ho|].
  split; [|repeat split]. intros Ho. cbn. rewrite Ho. eexists _, _. split; [reflexivity|]. split; [reflexivity|].
  destruct (init_writer (e_writer e)); reflexivity.
Qed.
Lemma init_again e : Init (Init e) = Init e.
Proof. reflexivity. Qed.
Lemma readline_filled E upper gm e w cl es h col pr x :
  filled [] (e_history e) (Some h) -> filled monoChrome (e_coloring e) (Some col) -> filled predictByHistory (e_predictor e) (Some pr) ->
  readline (mkScfg (mkCfg E h (e_cycling e) (fst (e_pcolor e)) (snd (e_pcolor e)) (pr h) (e_prompt e) col upper) (e_keymap e) gm)
    (e_default e) (e_cursor e) w cl es = Some x ->
  ReadLine E upper gm e w cl es = Some (Init e, x).
Proof.
  intros H1 H2 H3 Hx. unfold ReadLine. cbn [Init e_history e_coloring e_predictor e_out e_tty e_cycling e_pcolor e_prompt e_keymap e_default e_cursor].
  rewrite (filled_eq _ _ _ H1), (filled_eq _ _ _ H2), (filled_eq _ _ _ H3), Hx. reflexivity.
Qed.

(** * Writer and Out *)
Lemma leads_new w : leads_to (match w with WBufio n => Theirs n | _ => NewWriter w end) w.
Proof. destruct w; reflexivity. Qed.
Lemma init_leads w o : leads_to o (init_writer w) -> use_one CallReadLine (w, Some o) = (Some (init_writer w), Some o).
Proof. reflexivity. Qed.

(** The state: Out is nil, or leads to the writer. *)
Definition in_step (f : option writer * option bufio) : Prop := match snd f with None => True | Some o => leads_to o (init_writer (fst f)) end.
Lemma call_in_step f : in_step f -> exists o, use_one CallReadLine f = (Some (init_writer (fst f)), Some o) /\ leads_to o (init_writer (fst f)).
Proof.
  destruct f as [w [o|]]; cbn; intros H; [exists o; auto|]. eexists. split; [reflexivity|]. apply leads_new.
Qed.
Lemma sets_tail u us : sets_both (u :: us) -> sets_both us.
Proof.
  intros [H1 H2]. split.
  - intros us1 w us2 ->. apply (H1 (u :: us1) w us2). reflexivity.
  - intros o Hi. apply (H2 o). now right.
Qed.
Lemma use_last n : forall us f, (List.length us <= n)%nat -> sets_both (us ++ [CallReadLine]) -> in_step f ->
  exists before o, use_all (us ++ [CallReadLine]) f = before ++ [Some o] /\ leads_to o (last_writer us (init_writer (fst f))).
Proof.
  induction n as [|n IH]; intros us f Hn HB HF.
  - destruct us; [|cbn in Hn; Lia.lia]. destruct (call_in_step f HF) as (o & Ho & Hl). exists [], o. cbn [app use_all last_writer]. rewrite Ho. auto.
  - destruct us as [|u us]; [destruct (call_in_step f HF) as (o & Ho & Hl); exists [], o; cbn [app use_all last_writer]; rewrite Ho; auto|].
    cbn in Hn. pose proof (sets_tail _ _ HB) as HB'. destruct u as [w|[o|]| |].
    + destruct (proj1 HB [] w (us ++ [CallReadLine]) eq_refl) as [us3 H3].
      destruct us as [|u us]; [discriminate H3|]. injection H3 as -> _. apply sets_tail in HB'. cbn in Hn.
      destruct (IH us (w, None) ltac:(Lia.lia) HB' I) as (b & o & H1 & H2).
      exists b, o. cbn [app use_all use_one fst snd last_writer]. split; [exact H1|]. destruct w; exact H2.
    + exfalso. apply (proj2 HB o). now left.
    + destruct (IH us (fst f, None) ltac:(Lia.lia) HB' I) as (b & o & H1 & H2). exists b, o. split; [exact H1|exact H2].
    + destruct (call_in_step f HF) as (o0 & Ho & Hl).
      destruct (IH us (Some (init_writer (fst f)), Some o0) ltac:(Lia.lia) HB' Hl) as (b & o & H1 & H2).
      exists b, o. cbn [app use_all]. change (use_one CallInit f) with (use_one CallReadLine f). rewrite Ho. split; [exact H1|exact H2].
    + destruct (call_in_step f HF) as (o0 & Ho & Hl).
      destruct (IH us (Some (init_writer (fst f)), Some o0) ltac:(Lia.lia) HB' Hl) as (b & o & H1 & H2).
      exists (Some o0 :: b), o. cbn [app use_all]. rewrite Ho. cbn [snd app]. split; [now rewrite H1|exact H2].
Qed.
Lemma output_latest us : sets_both us ->
  exists before o, use_all (us ++ [CallReadLine]) (None, None) = before ++ [Some o] /\ leads_to o (last_writer us Stdout).
Proof.
  intros [H1 H2]. apply (use_last (List.length us) us (None, None)); [apply le_n| |exact I]. split.
  - intros us1 w us2 He. destruct us2 as [|u us2 _] using rev_ind.
    + apply app_inj_tail in He as [_ He]. discriminate He.
    + assert (us = us1 ++ SetWriter w :: us2) as Hu.
      { apply (app_inj_tail us (us1 ++ SetWriter w :: us2) CallReadLine u). now rewrite He, <- app_assoc. }
      destruct (H1 _ _ _ Hu) as [us3 ->]. exists (us3 ++ [u]). reflexivity.
  - intros o Hi. apply in_app_or in Hi as [Hi|[Hi|[]]]; [now apply (H2 o)|discriminate].
Qed.
Lemma output_first us : forall w o, (forall u, In u us -> exists x, u = SetWriter x \/ u = CallInit \/ u = CallReadLine) ->
  forall d, In d (use_all us (w, Some o)) -> d = Some o.
Proof.
  induction us as [|u us IH]; intros w o Hu d Hd; [destruct Hd|].
  assert (Hu' : forall u, In u us -> exists x, u = SetWriter x \/ u = CallInit \/ u = CallReadLine) by (intros u' Hi; apply Hu; now right).
  cbn [use_all] in Hd. destruct (Hu u (or_introl eq_refl)) as (x & [->|[->| ->]]); cbn in Hd.
  - now apply (IH x o Hu').
  - now apply (IH (Some (init_writer w)) o Hu').
  - destruct Hd as [Hd|Hd]; [now symmetry|]. now apply (IH (Some (init_writer w)) o Hu').
Qed.
