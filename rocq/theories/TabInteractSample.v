(** Checking the conditions of SpecTabInteract.v for the example of PInteract.v: a command
    is known to be shown whenever it waits. *)
From Verif Require Import Base Utf8 Moji Color Prompt Buffer Commands KeyMap Session Spec Sample SpecTabs TabsSample Script SpecScript
  SpecTabScript ScriptSample TabScriptSample Interact SpecInteract InteractSample SpecTabInteract.
Ltac lia := unfold rune in *; Lia.lia.

Definition always_shown {Q} (q : Q) (shown : bool) (l : list moji) (c : Z) : Prop := shown = true.
Section Check.
Context {Q : Type}.
Variable U : programs Q.
Fixpoint tab_gcarefulb (shown : bool) (p : seg Q) (s : buf) : bool :=
  match p with
  | GReturn _ => shown
  | GPanic => false
  | GLook k => tab_gcarefulb shown (k s) s
  | GDo c p' => tab_call_okb (base S_int) shown c s &&
      match do_call (base S_int) c s with Some s' => tab_gcarefulb (shown_after c shown) p' s' | None => true end
  | GKey _ => shown
  end.
Lemma tab_gcarefulb_ok p : forall shown s, tab_gcarefulb shown p s = true -> tab_gcareful S_int always_shown shown p s.
Proof.
  induction p as [r| |k IH|c p IH|q]; intros shown s H; cbn [tab_gcareful tab_gcarefulb] in *; [exact H|discriminate|now apply IH| |exact H].
  apply andb_true_iff in H as [H1 H2]. split; [now apply tab_call_okb_ok|]. intros s' Hs. rewrite Hs in H2. now apply IH.
Qed.
Definition ordinary_thereb (e : event) (y : isess Q) : bool :=
  match y with
  | ISess x => ordinary_eventb S_int e && short_lineb x &&
      match e, x with
      | EKey k, Running MNormal s =>
        match bound U k with Some p => tab_gcarefulb true p (emit s [TCursorOff]) | None => no_swapb S_int e x end
      | _, _ => true
      end
  | IUser q s =>
      match e with
      | EKey k => tab_gcarefulb true (resume U q (Some k)) s
      | EKeyErr => tab_gcarefulb true (resume U q None) s
      | EResize _ => true
      | EClip None => true
      | EClip (Some t) => ordinary_textb E_off t
      end
  end.
Lemma ordinary_thereb_ok e y : ordinary_thereb e y = true -> ordinary_there S_int U always_shown e y.
Proof.
  destruct y as [x|q s]; cbn [ordinary_there ordinary_thereb]; intros H.
  - apply andb_true_iff in H as [H H3]. apply andb_true_iff in H as [H1 H2].
    assert (G1 : Forall (ordinary_event S_int) [e]) by (apply ordinary_eventb_ok; cbn [forallb]; now rewrite H1).
    split; [now inversion G1|]. split.
    { apply andb_true_iff in H2 as [H2 H4]. split; [now apply Z.leb_le|]. intros ss s ->. now apply Z.leb_le. }
    destruct e as [k| |w|c]; try exact I. destruct x as [[| |ss] s|s t r]; try exact I.
    destruct (bound U k) as [p|]; [now apply tab_gcarefulb_ok|]. split.
    + intros k1 s1 [= <-] [= <-] Hk Hc. cbn [no_swapb] in H3. rewrite Hk in H3. rewrite Hc, Z.eqb_refl in H3. cbn in H3. rewrite Hc. now apply Z.ltb_lt.
    + intros k1 s1 f [= <-] [= <-] Hf. exfalso. exact (global_builtin [] ltac:(discriminate) (cfg_of E_off) k f Hf).
  - destruct e as [k| |w|[t|]]; try exact I; [| | |discriminate].
    + intros shown -> _. now apply tab_gcarefulb_ok.
    + intros shown -> _. now apply tab_gcarefulb_ok.
    + intros t' [= <-]. now apply ordinary_textb_ok.
Qed.
Fixpoint along_there (y : isess Q) (es : list event) : bool :=
  match es with
  | [] => true
  | e :: es' => ordinary_thereb e y && match istep S_int U e y with Some y' => along_there y' es' | None => true end
  end.
Lemma along_there_ok es : forall y, along_there y es = true ->
  forall es1 e es2 z, es = es1 ++ e :: es2 -> irun S_int U es1 y = Some z -> ordinary_there S_int U always_shown e z.
Proof.
  induction es as [|e0 es IH]; intros y H es1 e es2 z He Hz; [destruct es1; discriminate|].
  cbn [along_there] in H. apply andb_true_iff in H as [H1 H2]. destruct es1 as [|e1 es1].
  - injection He as -> ->. cbn in Hz. injection Hz as <-. now apply ordinary_thereb_ok.
  - injection He as -> ->. cbn [irun] in Hz. destruct (istep S_int U e1 y) as [y1|]; [|discriminate]. exact (IH y1 H2 es1 e es2 z eq_refl Hz).
Qed.
Lemma tab_interact_ok default cur w cl es : match start S_int default cur w cl with Some x => along_there (ISess x) es | None => true end = true ->
  forall es1 e es2 y, es = es1 ++ e :: es2 -> ireadline S_int U default cur w cl es1 = Some y -> ordinary_there S_int U always_shown e y.
Proof. unfold ireadline. destruct (start S_int default cur w cl) as [x|]; [|discriminate]. intros H. exact (along_there_ok es _ H). Qed.
End Check.
Lemma int_sources : ordinary_sources S_int. Proof. exact (script_sources (SReturn CONTINUE)). Qed.
