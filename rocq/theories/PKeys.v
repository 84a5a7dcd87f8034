(** Theorems on key input and key maps: C26, C27, C28, C29, C30, C31, C41. *)
From Verif Require Import Base Utf8 Moji Color Prompt Buffer Commands KeyMap Session Spec Sample SafetyFacts KeyInput Names SpecLib KeyFacts PilotFacts.

(** C26, for a terminal that reports no error and sends no surrogate without its partner:
    whatever Buffered answers, after any number of GetKey calls that returned keys, these
    keys followed by those kept for later are exactly the characters taken from the
    terminal, in order, and the remaining characters are still to come. *)
Theorem C26_order_partial : forall honest rs cs bs n ks m, characters rs cs ->
  tty8_keys honest n (mkTty8 (mkXtty (map Some rs) bs) []) = Some (ks, m) ->
  exists cs1 cs2 rs2, cs = cs1 ++ cs2 /\ List.concat ks ++ List.concat (buf8 m) = encode cs1 /\
    input (xt m) = map Some rs2 /\ characters rs2 cs2.
Proof. intros honest rs cs bs n ks m Hc H. exact (tty8_order honest n (mkTty8 (mkXtty (map Some rs) bs) []) rs cs ks m eq_refl Hc H). Qed.
Print Assumptions C26_order_partial.
(** C26: and every character is delivered, if Buffered is true only when there is input
    and the terminal sends no NUL. *)
Theorem C26_all_partial : forall rs cs bs, ~ In 0 rs -> characters rs cs ->
  exists n ks m, tty8_keys true n (mkTty8 (mkXtty (map Some rs) bs) []) = Some (ks, m) /\
    List.concat ks = encode cs /\ input (xt m) = [].
Proof.
  intros rs cs bs Hz Hc. unfold characters in Hc. fold (nz rs) in Hc. rewrite nz_id in Hc by exact Hz.
  destruct (tty8_all _ (mkTty8 (mkXtty (map Some rs) bs) []) rs cs (le_n _) eq_refl Hz Hc) as (n & ks & m & H1 & H2 & H3 & _).
  exists n, ks, m. exact (conj H1 (conj H2 H3)).
Qed.
Print Assumptions C26_all_partial.
(** GetKeys never runs out of the model's bound on its rounds. *)
Theorem C26_bound : forall honest t, GetKeys honest t <> None.
Proof. intros honest t. exact (keys_total honest _ t [] (le_n _)). Qed.
Print Assumptions C26_bound.
(** No key is empty, whatever the terminal sends and whether or not reads fail. *)
Theorem C26_nonempty : forall honest t n ks m, tty8_keys honest n (mkTty8 t []) = Some (ks, m) -> Forall (fun k => k <> []) ks.
Proof. intros honest t n ks m. exact (tty8_nonempty honest n (mkTty8 t []) ks m (Forall_nil _)). Qed.
Print Assumptions C26_nonempty.
(** C26 fails with read errors: the keys a and b have been read and are lost; and a
    surrogate without its partner takes the next character with it. *)
Theorem C26_refuted :
  (exists m, tty8_GetKey true (mkTty8 (mkXtty [Some 97; Some 98; None; Some 99] [true; true; true]) []) = Some (KeyErr, m) /\
     buf8 m = [] /\ input (xt m) = [Some 99]) /\
  (exists m, tty8_keys true 2 (mkTty8 (mkXtty [Some 55357; Some 97; Some 98] []) []) = Some ([encode [65533]; [98]], m)).
Proof. split; eexists; vm_compute; repeat split. Qed.
Print Assumptions C26_refuted.
(** An emoji as a surrogate pair with a NUL inside, an arrow key, a letter. *)
Example C26_case : characters [55357; 0; 56832; 27; 91; 65; 120] [128512; 27; 91; 65; 120] /\
  exists m, tty8_keys true 3 (mkTty8 (mkXtty (map Some [55357; 0; 56832; 27; 91; 65; 120]) [true; true; true; false; true]) [])
    = Some ([encode [128512]; [27; 91; 65]; [120]], m).
Proof.
  split; [|eexists; vm_compute; reflexivity]. unfold characters. cbn. apply (combined_pair 55357 56832); try lia.
  repeat (apply combined_one; [lia|]). constructor.
Qed.

(** C27: the key GetRawKey returns is one character, or ESC with exactly the characters
    behind it for which Buffered said so: true n times, then false (a list of answers that
    has come to its end answers false). *)
Theorem C27_grouping : forall rs cs bs k t, characters rs cs ->
  GetRawKey false (mkXtty (map Some rs) bs) = Got k t ->
  exists c ds cs2, cs = c :: ds ++ cs2 /\ k = encode (c :: ds) /\
    (c <> 27 -> ds = [] /\ buffered t = bs) /\
    (c = 27 -> (forall i, (i < List.length ds)%nat -> nth i bs false = true) /\ nth (List.length ds) bs false = false).
Proof.
  intros rs cs bs k t Hc H. destruct (raw_spec false rs bs [] false 0 cs k t (or_introl eq_refl) Hc H) as (c & ds & cs2 & _ & H1 & H2 & _ & _ & _ & _ & H6 & H7).
  exists c, ds, cs2. exact (conj H1 (conj H2 (conj (H6 eq_refl) (fun Hx => let '(conj A (conj B _)) := H7 eq_refl (or_intror Hx) in conj A B)))).
Qed.
Print Assumptions C27_grouping.
(** C27: so every key that GetKey hands out is one character other than ESC, or begins with
    ESC, whatever Buffered answers. *)
Theorem C27_keys : forall honest rs cs bs n ks m, characters rs cs ->
  tty8_keys honest n (mkTty8 (mkXtty (map Some rs) bs) []) = Some (ks, m) -> Forall one_key ks.
Proof. intros honest rs cs bs n ks m Hc. exact (tty8_shape honest n (mkTty8 (mkXtty (map Some rs) bs) []) rs cs ks m eq_refl Hc (Forall_nil _)). Qed.
Print Assumptions C27_keys.
Example C27_case : GetRawKey false (mkXtty (map Some [27; 91; 66; 97]) [true; true; false; true]) = Got [27; 91; 66] (mkXtty [Some 97] [true]) /\
  GetRawKey false (mkXtty (map Some [12354; 97]) [true]) = Got (encode [12354]) (mkXtty [Some 97] [true]).
Proof. split; vm_compute; reflexivity. Qed.

(** C28: however the bytes are chunked, the keys concatenate to the bytes read. *)
Theorem C28_bytes : forall n chunks ks m, tty10_keys n (mkTty10 [] chunks) = Some (ks, m) ->
  exists used, chunks = map Some used ++ reads m /\ List.concat ks ++ buf10 m = List.concat used.
Proof. intros n chunks ks m H. exact (tty10_order n (mkTty10 [] chunks) ks m H). Qed.
Print Assumptions C28_bytes.
(** C28: a chunk of whole characters gives one key per character, and from ESC on one key
    with all the rest.  Missing: characters divided between two reads (C28_refuted). *)
Theorem C28_characters_partial : forall cs chunks, cs <> [] -> Forall (fun c => valid_rune c = true /\ c <> 27) cs ->
  tty10_keys (List.length cs) (mkTty10 [] (Some (encode cs) :: chunks)) = Some (map encode_rune cs, mkTty10 [] chunks).
Proof. exact tty10_read. Qed.
Print Assumptions C28_characters_partial.
Theorem C28_escape_partial : forall cs b chunks, Forall (fun c => valid_rune c = true /\ c <> 27) cs ->
  tty10_keys (List.length cs + 1) (mkTty10 [] (Some (encode cs ++ 27 :: b) :: chunks))
  = Some (map encode_rune cs ++ [27 :: b], mkTty10 [] chunks).
Proof. exact tty10_escape. Qed.
Print Assumptions C28_escape_partial.
(** A character divided between two reads becomes three keys. *)
Theorem C28_refuted : exists b1 b2 m, encode [12354] = b1 ++ b2 /\
  tty10_keys 3 (mkTty10 [] [Some b1; Some b2]) = Some ([[227]; [129]; [130]], m).
Proof. exists [227; 129], [130]. eexists. vm_compute. split; reflexivity. Qed.
Print Assumptions C28_refuted.
Example C28_case : tty10_keys 3 (mkTty10 [] [Some (encode [97; 12354]); Some [27; 91; 65]; None])
  = Some ([[97]; encode [12354]; [27; 91; 65]], mkTty10 [] [None]).
Proof. vm_compute. reflexivity. Qed.

(** C29: after any sequence of BindKey calls on any map, Lookup finds the command bound
    last (nothing, if that was nil), and keys not bound are as before. *)
Theorem C29_last : forall km ops1 k f ops2, ~ In k (map fst ops2) ->
  Lookup (fold_left (fun m o => BindKey m (fst o) (snd o)) (ops1 ++ (k, f) :: ops2) km) k = f.
Proof. exact binds_last. Qed.
Print Assumptions C29_last.
Theorem C29_others : forall km ops k, ~ In k (map fst ops) ->
  Lookup (fold_left (fun m o => BindKey m (fst o) (snd o)) ops km) k = Lookup km k.
Proof. intros km ops k. exact (binds_other ops km k). Qed.
Print Assumptions C29_others.
(** C29: the editor's own map first, then the global one, then the key itself. *)
Theorem C29_command : forall km gm k,
  (forall f, Lookup km k = Some f -> LookupCommand km gm k = f) /\
  (forall f, Lookup km k = None -> Lookup gm k = Some f -> LookupCommand km gm k = f) /\
  (Lookup km k = None -> Lookup gm k = None -> LookupCommand km gm k = CSelfInsert k).
Proof. intros km gm k. unfold LookupCommand. repeat split; [intros f ->|intros f -> ->|intros -> ->]; reflexivity. Qed.
Print Assumptions C29_command.
Example C29_case : let km := fold_left (fun m o => BindKey m (fst o) (snd o)) [([1], Some CUndo); ([2], Some CYank); ([1], Some CKillLine); ([2], None)] [] in
  Lookup km [1] = Some CKillLine /\ Lookup km [2] = None /\ LookupCommand km GlobalKeyMap [2] = CBackwardChar /\
  LookupCommand km GlobalKeyMap [97] = CSelfInsert [97].
Proof. vm_compute. repeat split. Qed.

(** C30: names are the same exactly if they differ only in case and in '-' for '_'. *)
Theorem C30_names : forall up a b, ascii a -> ascii b -> NormalizeName up a = NormalizeName up b <-> same_name a b.
Proof. exact normalize_same. Qed.
Print Assumptions C30_names.
(** C30: normalising is idempotent on all strings, for a unicode.ToUpper that is idempotent,
    agrees with ASCII and gives characters. *)
Theorem C30_idempotent : forall up s, (forall r, up (up r) = up r) -> (forall r, 0 <= r < 128 -> up r = ascii_up r) ->
  (forall r, valid_rune r = true -> valid_rune (up r) = true) -> bytes_ok s ->
  NormalizeName up (NormalizeName up s) = NormalizeName up s.
Proof. exact normalize_idem. Qed.
Print Assumptions C30_idempotent.
(** C30: BindKeyFunc binds exactly the code of the named key, or fails without a change. *)
Theorem C30_bind : forall up km key f km' ok, BindKeyFunc up km key f = (km', ok) ->
  (ok = true /\ exists name code, In (name, code) NameToCode /\ name = NormalizeName up key /\ (ascii key -> same_name key name) /\
     Lookup km' code = f /\ forall k, k <> code -> Lookup km' k = Lookup km k) \/
  (ok = false /\ km' = km /\ ~ In (NormalizeName up key) (map fst NameToCode) /\
     (ascii key -> forall name code, In (name, code) NameToCode -> ~ same_name key name)).
Proof. exact bind_named. Qed.
Print Assumptions C30_bind.
(** C30: every spelling of a name in the table is accepted. *)
Theorem C30_accepts : forall up km key f, ascii key ->
  (exists name code, In (name, code) NameToCode /\ same_name key name) -> snd (BindKeyFunc up km key f) = true.
Proof. exact bind_names_ok. Qed.
Print Assumptions C30_accepts.
(** C30 is false of BindKeySymbol: with the commands of the library it always fails. *)
Theorem C30_symbol_refuted : forall up km key fn, BindKeySymbol up NameToFunc km key fn = (km, false).
Proof. exact symbol_fails. Qed.
Print Assumptions C30_symbol_refuted.
Example C30_case : ascii (s2l "c-UnderBar") /\ same_name (s2l "c-UnderBar") (s2l "C_UNDERBAR") /\
  (exists km, BindKeyFunc ascii_up [] (s2l "c-UnderBar") (Some CUndo) = (km, true) /\ Lookup km [31] = Some CUndo) /\
  GetFunc ascii_up NameToFunc (s2l "kill-line") = Some CKillLine /\
  snd (BindKeySymbol ascii_up NameToFunc [] (s2l "C_K") (s2l "KILL_LINE")) = false.
Proof.
  assert (A : forall s, forallb (fun b => (0 <=? b) && (b <? 128)) s = true -> ascii s).
  { intros s H. rewrite forallb_forall in H. apply Forall_forall. intros x Hx. apply H in Hx. lia. }
  split; [now apply A|]. split; [apply (normalize_same ascii_up); [now apply A|now apply A|vm_compute; reflexivity]|].
  split; [eexists; vm_compute; split; reflexivity|]. split; vm_compute; reflexivity.
Qed.

(** C31 holds for all names but those listed: a name outside [shared_names] shares its code
    with no other name, and a name outside [odd_names] has a code that starts with a control
    character, more than one byte long only if that is ESC. *)
Theorem C31_distinct_partial : forall n1 c1 n2 c2, In (n1, c1) NameToCode -> In (n2, c2) NameToCode -> n1 <> n2 ->
  ~ In n1 shared_names -> c1 <> c2.
Proof. exact codes_distinct. Qed.
Print Assumptions C31_distinct_partial.
Theorem C31_control_partial : forall n c, In (n, c) NameToCode -> ~ In n odd_names ->
  exists b t, c = b :: t /\ (0 <= b < 32 \/ (b = 127 /\ t = [])) /\ (t <> [] -> b = 27).
Proof. exact codes_control. Qed.
Print Assumptions C31_control_partial.
(** C31 is false of F13, whose code is the character |; of F17, whose code is a byte that
    never comes alone; of CTRL_DOWN, which is DOWN; of M_BACKSPACE, which is BACKSPACE. *)
Theorem C31_refuted : In (s2l "F13", s2l "|") NameToCode /\ In (s2l "F17", [128]) NameToCode /\
  (exists c, In (s2l "CTRL_DOWN", c) NameToCode /\ In (s2l "DOWN", c) NameToCode) /\
  (exists c, In (s2l "M_BACKSPACE", c) NameToCode /\ In (s2l "BACKSPACE", c) NameToCode).
Proof.
  assert (A : forall n c, aget str_eqb NameToCode n = Some c -> In (n, c) NameToCode) by (intros n c; exact (aget_in NameToCode n c)).
  split; [apply A; vm_compute; reflexivity|]. split; [apply A; vm_compute; reflexivity|].
  split; eexists; split; apply A; vm_compute; reflexivity.
Qed.
Print Assumptions C31_refuted.
(** Binding F13 by name takes the character | away from the line. *)
Theorem C31_bar_refuted : exists km, BindKeyFunc ascii_up [] (s2l "F13") (Some CKillWholeLine) = (km, true) /\
  text_of (readline (mkScfg (base S_off) km GlobalKeyMap) [] 0 80 None (keys "ls | wc" ++ [key 13])) = Some (s2l " wc").
Proof. exists [([124], CKillWholeLine)]. split; vm_compute; reflexivity. Qed.
Print Assumptions C31_bar_refuted.

(** C41: a Pilot hands out its script in order, then Enter for ever. *)
Theorem C41_keys : forall n script i, (i < n)%nat -> nth i (Pilot_keys n script) [] = nth i script [13].
Proof. exact pilot_keys. Qed.
Print Assumptions C41_keys.
(** C41: with Enter bound to ACCEPT_LINE, ReadLine on a Pilot has returned at the latest two
    keys after the end of the script (or has crashed). *)
Theorem C41_ends : forall S d cur w cl script x, bound S [13] CAcceptLine ->
  readline S d cur w cl (map EKey (Pilot_keys (List.length script + 2) script)) = Some x ->
  exists s t e, x = Finished s t e.
Proof. exact pilot_over. Qed.
Print Assumptions C41_ends.
(** C41: and it does return, for simple text, at the Pilot's width of 80 columns. *)
Theorem C41_returns : forall S d cur cl script, simple_editor S -> bound S [13] CAcceptLine ->
  simple_text (cE (base S)) d -> simple_clip (cE (base S)) cl -> 0 <= cur -> prompt_width (base S) + 11 < 80 ->
  Forall (simple_event S) (map EKey (Pilot_keys (List.length script + 2) script)) ->
  exists s t e, readline S d cur 80 cl (map EKey (Pilot_keys (List.length script + 2) script)) = Some (Finished s t e).
Proof.
  intros S d cur cl script H1 H2 H3 H4 H5 H6 H7. destruct (simple_safe S d cur 80 cl _ H1 H3 H4 H7 H5 H6) as (x & Hx & _).
  destruct (pilot_over _ _ _ _ _ _ _ H2 Hx) as (s & t & e & ->). exact (ex_intro _ s (ex_intro _ t (ex_intro _ e Hx))).
Qed.
Print Assumptions C41_returns.
(** A script that ends in the middle of an incremental search. *)
Example C41_case :
  simple_editor S_off /\ bound S_off [13] CAcceptLine /\ Forall (simple_event S_off) (map EKey (Pilot_keys 6 [[97]; [18]; [108]; [115]])) /\
  text_of (readline S_off [] 0 80 None (map EKey (Pilot_keys 6 [[97]; [18]; [108]; [115]]))) = Some (s2l "ls -l").
Proof.
  split; [exact simple_off|]. split; [vm_compute; reflexivity|]. split; [apply simple_eventb_ok; vm_compute; reflexivity|]. vm_compute. reflexivity.
Qed.
