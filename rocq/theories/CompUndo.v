(** UNDO after a replacement or a completion. *)
From Verif Require Import Base Utf8 Moji Color Prompt Buffer Commands KeyMap Session MojiFacts
  Abs AbsRef AbsSess AbsSafe AbsInv Safe SafeSess Plain Spec TextFacts Reach SafetyFacts CmdFacts WordFacts
  EditFacts EditProps LineInv EditMore UndoFacts Completion SpecComp CompFacts CompSafe CompProps Script SpecScript ScriptFacts.
Ltac lia := unfold rune in *; Lia.lia.

Lemma undo_replace S m s p w r t s1 s2 r2 : scripted S -> reached S (Running m s) ->
  at_split s (p ++ w) r -> w <> [] -> Forall (clean (cE (base S))) w ->
  ReplaceAndRepaint (base S) s (zlen p) t = Some s1 -> exec (base S) CUndo s1 = Some (s2, r2) ->
  at_split s2 (p ++ w) r /\ undoes s2 = undoes s /\ clip s2 = clip s /\ rest_kept s s2.
Proof.
  intros HS HR [Hl Hc] Hw Hcl H1 H2. pose proof (self_reached S _ HS HR) as Hself. cbn [buf_of] in Hself.
  rewrite Hl in Hself. apply Forall_app in Hself as [Hself _]. apply Forall_app in Hself as [_ Hself].
  assert (Hh : Forall (headok (cE (base S))) w) by (rewrite Forall_forall in *; intros x Hx; apply clean_head; auto).
  apply ReplaceAndRepaint_ref in H1. unfold areplace in H1. change (acur (abs s)) with (cursor s) in H1. rewrite Hc, zlen_app in H1.
  replace (zlen p + zlen w - zlen p) with (zlen w) in H1 by lia.
  assert (Hl' : aline (abs s) = p ++ w ++ r) by (change (aline (abs s)) with (line s); now rewrite Hl, <- app_assoc).
  rewrite (adelete_mid _ p w r Hl' Hw) in H1. rewrite (ains_mid _ p (units (cE (base S)) t) r) in H1 by reflexivity.
  set (u := units (cE (base S)) t) in *. injection H1 as H1. symmetry in H1.
  assert (Hun : aundo (abs s1) = mkUndo (zlen p) (zlen u) (text w) :: undoes s).
  { rewrite H1, aupdate_undo. unfold ajoin, join2. cbn [aundo aset_cur apush aset_undo aset_line u_pos u_del u_text]. rewrite Z.eqb_refl.
    cbn [negb]. replace (str_eqb [] []) with true by reflexivity. cbn [negb andb]. rewrite andb_false_r. cbn [Z.eqb].
    destruct (str_eqb (text w) []) eqn:Ht; [apply str_eqb_eq in Ht; apply text_nil_iff in Ht; contradiction|reflexivity]. }
  assert (Hln : aline (abs s1) = p ++ u ++ r) by (rewrite H1, aupdate_line, ajoin_line; reflexivity).
  apply exec_ref in H2 as [b H2]; [|exact I]. cbn [aexec] in H2. destruct (aUndo (base S) (abs s1)) as [a2|] eqn:H2a; [|discriminate].
  apply acont_some in H2 as [H2 _]. subst a2. unfold aUndo in H2a. rewrite Hun in H2a. cbn [u_del u_pos u_text] in H2a.
  assert (Hd : (if 0 <? zlen u then sliceDelete (aline (abs s1)) (zlen p) (zlen u) else Some (aline (abs s1))) = Some (p ++ r)).
  { rewrite Hln. destruct (0 <? zlen u) eqn:Hz; [apply sliceDelete_spec|]. destruct u as [|x u']; [reflexivity|]. rewrite zlen_cons in Hz. pose proof (zlen_nonneg u'). lia. }
  rewrite Hd in H2a. clear Hd. destruct (text w) as [|x tw] eqn:Ht; [apply text_nil_iff in Ht; contradiction|]. rewrite <- Ht in H2a.
  rewrite units_text in H2a by assumption. rewrite sliceInsert_spec in H2a. injection H2a as H2a. symmetry in H2a. apply abs_fields in H2a as F.
  pose proof (abs_fields _ _ H1) as F1.
  unfold at_split, rest_kept, history_untouched. rewrite (f_line _ _ F), (f_cursor _ _ F), (f_undoes _ _ F), (f_clip _ _ F), (f_modh _ _ F), (f_hptr _ _ F), (f_pending _ _ F).
  rewrite ?aupdate_line, ?aupdate_cur, ?aupdate_undo, ?aupdate_clip, ?aupdate_modh, ?aupdate_hptr, ?aupdate_pend.
  cbn [aline acur aclip amodh ahptr apend aundo aset_line aset_cur aset_pend apush aset_undo aset_clip].
  rewrite H1, ?aupdate_line, ?aupdate_cur, ?aupdate_undo, ?aupdate_clip, ?aupdate_modh, ?aupdate_hptr, ?aupdate_pend, ?ajoin_clip, ?ajoin_modh, ?ajoin_hptr, ?ajoin_pend.
  rewrite zlen_app, <- app_assoc. repeat split; reflexivity.
Qed.

Lemma split_loop_strict quotes del l : forall i st fs lws fs' lws',
  split_loop quotes del l i st fs lws = (fs', lws') -> (fs <> [] -> lws < i) ->
  match st with Some (start, _, _) => start < i | None => True end -> fs' <> [] -> lws' < i + zlen l.
Proof.
  induction l as [|c l IH]; intros i st fs lws fs' lws' H Hl Hs Hn.
  - cbn in H. change (zlen (@nil str)) with 0. destruct st as [[[start w] b]|]; injection H as H1 H2; subst; [lia|]. specialize (Hl Hn). lia.
  - rewrite zlen_cons. cbn [split_loop] in H. cbv zeta in H. destruct st as [[[start w] b]|].
    + destruct (0 <=? str_index quotes c); [apply IH in H; [lia|intros Hf; specialize (Hl Hf); lia|cbn; lia|exact Hn]|].
      destruct (_ && _); [apply IH in H; [lia|lia|exact I|exact Hn]|].
      destruct (_ && _); [apply IH in H; [lia|lia|exact I|exact Hn]|]. apply IH in H; [lia|intros Hf; specialize (Hl Hf); lia|cbn; lia|exact Hn].
    + destruct (str_contains blanks c); [apply IH in H; [lia|intros Hf; specialize (Hl Hf); lia|exact I|exact Hn]|].
      destruct (0 <=? str_index quotes c); [apply IH in H; [lia|intros Hf; specialize (Hl Hf); lia|cbn; lia|exact Hn]|].
      destruct (_ && _); [apply IH in H; [lia|lia|exact I|exact Hn]|].
      destruct (_ && _); [apply IH in H; [lia|lia|exact I|exact Hn]|]. apply IH in H; [lia|intros Hf; specialize (Hl Hf); lia|cbn; lia|exact Hn].
Qed.
Lemma split_line_strict quotes del s fs lws : split_line quotes del s = Some (fs, lws) -> fs <> [] -> 0 <= cursor s <= zlen (cells s) /\ 0 <= lws < cursor s.
Proof.
  intros H Hn. unfold split_line, slice in H. destruct (_ && _ && _) eqn:Hb; [|discriminate].
  destruct (split_loop quotes del (map cell_str _) 0 None [] 0) as [fs0 lws0] eqn:Hs. injection H as -> ->.
  pose proof (split_loop_bounds _ _ _ _ _ _ _ _ _ Hs ltac:(lia) I) as Hb1. apply split_loop_strict in Hs; [|congruence|exact I|exact Hn].
  rewrite zlen_map in Hs. unfold zlen in Hs at 1. rewrite firstn_length in Hs. lia.
Qed.

Section Completion.
Variables (up fold : rune -> rune).
(** What a completion does to the buffer: nothing, a bell, or one replacement of what
    stands before the cursor. *)
Lemma complete_shape C quotes del P postfix s s' l : complete up fold C quotes del P postfix s = Some (s', l) ->
  s' = s \/ s' = emit s [TBell] \/ exists pos t, 0 <= pos < cursor s /\ cursor s <= zlen (cells s) /\ ReplaceAndRepaint C s pos t = Some s' /\ l = [].
Proof.
  unfold complete. intros H. opt H. destruct (rev l0) as [|word r] eqn:Hr; [injection H as <- _; now left|].
  apply split_line_strict in Ev as [Hc Hz]; [|intros ->; discriminate].
  opt H. destruct l3 as [|x [|y l3]]; [injection H as <- _; now left| |].
  - destruct (EqualFold fold word x); [injection H as <- _; right; now left|]. opt H. injection H as <- <-. right. right. eexists _, _. split; [exact Hz|]. split; [apply Hc|]. split; [eassumption|reflexivity].
  - opt H. destruct (EqualFold fold word _); [injection H as <- _; right; now left|]. opt H. injection H as <- <-. right. right. eexists _, _. split; [exact Hz|]. split; [apply Hc|]. split; [eassumption|reflexivity].
Qed.

Lemma undo_complete S P postfix m s p q s1 l s2 r2 : scripted S -> reached S (Running m s) -> at_split s p q -> Forall (clean (cE (base S))) p ->
  complete up fold (base S) (Enclosures P) (Delimiters P) P postfix s = Some (s1, l) -> line s1 <> line s ->
  exec (base S) CUndo s1 = Some (s2, r2) -> at_split s2 p q /\ undoes s2 = undoes s /\ clip s2 = clip s /\ rest_kept s s2.
Proof.
  intros HS HR [Hl Hc] Hcl H1 Hne H2. apply complete_shape in H1 as [->|[->|(pos & t & Hp & Hz & H1 & _)]]; try (exfalso; apply Hne; reflexivity).
  rewrite Hc in Hp. set (k := Z.to_nat pos).
  assert (Hk : zlen (firstn k p) = pos) by (rewrite zlen_firstn; lia).
  rewrite <- (firstn_skipn k p) in Hl, Hc, Hcl |- *. apply Forall_app in Hcl as [_ Hcl]. rewrite <- Hk in H1.
  eapply (undo_replace S m s _ _ q t s1 s2 r2 HS HR (conj Hl Hc)); [|exact Hcl|exact H1|exact H2].
  intros Hn. apply (f_equal (@zlen moji)) in Hn. rewrite zlen_skipn in Hn. change (zlen (@nil moji)) with 0 in Hn. lia.
Qed.

(** A completion command is such a script. *)
Definition complete_script (C : cfg) (P : completion) (postfix : str) (more : list str -> script) : script :=
  let quotes := Enclosures P in let del := Delimiters P in
  SLook (fun s =>
    match split_line quotes del s with
    | None => SPanic
    | Some (fields, lws) =>
      match rev fields with
      | [] => more []
      | word :: _ =>
        match List_ P fields with
        | None => SPanic
        | Some (list0, base0) =>
          match removeUnmatches fold list0 (match base0 with [] => list0 | _ => base0 end) word with
          | None => SPanic
          | Some (l, bl) =>
            match l with
            | [] => more []
            | [str] =>
              if EqualFold fold word str then SDo (KWrite [TBell]) (more [])
              else SDo (KReplace lws ((match quotes, del with
                   | q :: _, _ :: _ => if contains_any str (blanks ++ del) then encode_rune q ++ str ++ encode_rune q else str
                   | _, _ => str
                   end) ++ postfix)) (more [])
            | _ =>
              match commonPrefix up l with
              | None => SPanic
              | Some prefix =>
                if EqualFold fold word prefix then SDo (KWrite [TBell]) (more bl)
                else SDo (KReplace lws (match quotes with
                   | q :: _ => if hasToInsertQuotation l (blanks ++ del) then encode_rune q ++ prefix else prefix
                   | _ => prefix
                   end)) (more [])
              end
            end
          end
        end
      end
    end).
Lemma complete_script_ok C P postfix more s : run_script C (complete_script C P postfix more) s =
  let* (s', l) := complete up fold C (Enclosures P) (Delimiters P) P postfix s in run_script C (more l) s'.
Proof.
  unfold complete_script, complete. cbn [run_script]. destruct (split_line _ _ s) as [[fields lws]|]; [|reflexivity].
  destruct (rev fields) as [|word r]; [reflexivity|]. destruct (List_ P fields) as [[l0 b0]|]; [|reflexivity].
  destruct (removeUnmatches _ _ _ _) as [[l bl]|]; [|reflexivity]. destruct l as [|x [|y l]]; [reflexivity| |].
  - destruct (EqualFold fold word x); [reflexivity|]. cbn [run_script do_call]. destruct (ReplaceAndRepaint _ _ _ _); reflexivity.
  - destruct (commonPrefix up _); [|reflexivity]. destruct (EqualFold fold word _); [reflexivity|]. cbn [run_script do_call]. destruct (ReplaceAndRepaint _ _ _ _); reflexivity.
Qed.
Lemma completion_script C P postfix f : CUser f = CmdCompletion up fold C P postfix -> exists p, forall s, f s = run_script C p s.
Proof.
  intros [= ->]. exists (complete_script C P postfix (fun _ => SReturn CONTINUE)). intros s. rewrite complete_script_ok. reflexivity.
Qed.
Lemma completion_list_script C box P postfix f : CUser f = CmdCompletionOrList up fold C box P postfix -> exists p, forall s, f s = run_script C p s.
Proof.
  intros [= ->]. exists (complete_script C P postfix (fun l => match l with [] => SReturn CONTINUE | _ => SDo (KWrite [TNewline; TAttr (box l)]) (SDo KAll (SReturn CONTINUE)) end)).
  intros s. rewrite complete_script_ok. destruct (complete _ _ _ _ _ _ _ s) as [[s' [|x l]]|]; try reflexivity.
Qed.
Lemma undo_completion S P postfix m s p q s1 r1 s2 r2 : scripted S -> reached S (Running m s) -> at_split s p q -> Forall (clean (cE (base S))) p ->
  exec (base S) (CmdCompletion up fold (base S) P postfix) s = Some (s1, r1) -> line s1 <> line s ->
  exec (base S) CUndo s1 = Some (s2, r2) -> at_split s2 p q /\ undoes s2 = undoes s /\ clip s2 = clip s /\ rest_kept s s2.
Proof.
  intros HS HR Hs Hcl H1 Hne H2. cbn [exec CmdCompletion] in H1. opt H1. injection H1 as <- _. eapply undo_complete; eauto.
Qed.
Lemma undo_completion_list S box P postfix m s p q s1 r1 s2 r2 : scripted S -> reached S (Running m s) -> at_split s p q -> Forall (clean (cE (base S))) p ->
  exec (base S) (CmdCompletionOrList up fold (base S) box P postfix) s = Some (s1, r1) -> line s1 <> line s ->
  exec (base S) CUndo s1 = Some (s2, r2) -> at_split s2 p q /\ undoes s2 = undoes s /\ clip s2 = clip s /\ rest_kept s s2.
Proof.
  intros HS HR Hs Hcl H1 Hne H2. cbn [exec CmdCompletionOrList] in H1. opt H1. destruct l as [|x l]; [injection H1 as <- _; eapply undo_complete; eauto|].
  opt H1. injection H1 as <- _. exfalso. apply Hne. apply RepaintAll_ref in Ev0. rewrite abs_emit in Ev0.
  apply abs_fields in Ev0. rewrite (f_line _ _ Ev0), aupdate_line. change (line b = line s).
  apply complete_shape in Ev as [->|[->|(pos & t & _ & _ & _ & Hl)]]; [reflexivity|reflexivity|discriminate].
Qed.
End Completion.
Lemma completing_scripted S up fold box : completing_editor S up fold box -> scripted S.
Proof.
  intros (H & _) k f Hk. destruct (H k f Hk) as (P & postfix & [Hf|Hf] & _); [eapply completion_script; eauto|eapply completion_list_script; eauto].
Qed.
Lemma unit_scripted S x m : scripted S -> reached S x -> In m (line (buf_of x)) -> split (cE (base S)) (write m) = [m].
Proof.
  intros HS HR Hm. pose proof (self_reached S x HS HR) as H. rewrite Forall_forall in H. specialize (H m Hm).
  unfold split. rewrite StringToMoji_units. destruct H as [Hv H]. unfold units. rewrite (runes_write _ m (conj Hv H)). exact H.
Qed.
