(** Colouring (C39) and the columns units occupy (C44). *)
From Verif Require Import SpecScript.
From Verif Require Import Base Utf8 Moji Color Prompt Buffer Commands KeyMap Session Spec SpecTerm SpecPaint Sample TermSample.
From Verif Require MojiFacts LineInv TermFacts PaintFacts.

(** * C39: the colouring sees the text *)
(** What painting the cells [a..b) puts out: those cells in order, each in the colour it
    has got, no colour set twice in a row, the default colour at the end. *)
Theorem C39_painted : forall C s a b s', puts C s a b = Some s' ->
  Forall (fun c => c_color c <> -1) (cells s') -> c_init (ccol C) <> -1 ->
  exists ts seg, out s' = out s ++ ts /\ slice (cells s') a b = Some seg /\
    coloured None ts = map (fun c => (c_moji c, Some (c_color c))) seg /\
    last_colour None ts = Some (c_init (ccol C)) /\ thrifty None ts.
Proof. exact PaintFacts.puts_tokens. Qed.
Print Assumptions C39_painted.
(** The colour of a unit is what the colouring answers to its last character, having heard
    the characters of the line up to there, with the marker at the cursor.  Missing: units
    that are painted differently from how they are written (see C39_refuted). *)
Theorem C39_colours_partial : forall C s a b s', puts C s a b = Some s' ->
  Forall MojiFacts.moji_valid (line s) -> Forall (fun m => heard_as_is m = true) (line s) ->
  forall k c, nth_error (cells s') k = Some c -> c_color c = answer (ccol C) (marked (cursor s) (firstn (Datatypes.S k) (line s))).
Proof. exact PaintFacts.puts_colours. Qed.
Print Assumptions C39_colours_partial.
(** All that the colouring hears, with the marker at the end if the cursor is there. *)
Theorem C39_heard_partial : forall C s l h, refresh_loop C (cursor s) 0 0 [] (cells s) = Some (l, h) ->
  Forall MojiFacts.moji_valid (line s) -> Forall (fun m => heard_as_is m = true) (line s) ->
  rev h = marked (cursor s) (line s) ++ (if cursor s =? zlen (line s) then [marker] else []).
Proof. exact PaintFacts.all_heard. Qed.
Print Assumptions C39_heard_partial.
(** Every line that can be reached meets the condition on the characters. *)
Theorem C39_reached_valid : forall S x, scripted S -> reached S x -> Forall MojiFacts.moji_valid (line (buf_of x)).
Proof. exact TermFacts.reached_valid. Qed.
Print Assumptions C39_reached_valid.
(** A character with a variation selector: the colouring hears more than the text. *)
Theorem C39_refuted : exists C s l h, only_builtin (mkScfg C [] GlobalKeyMap) /\ reached (mkScfg C [] GlobalKeyMap) (Running MNormal s) /\
  refresh_loop C (cursor s) 0 0 [] (cells s) = Some (l, h) /\
  rev h <> marked (cursor s) (line s) ++ (if cursor s =? zlen (line s) then [marker] else []).
Proof. exact heard_more. Qed.
Print Assumptions C39_refuted.

(** A line with the cursor before its third unit, painted from its second: no colour is -1,
    the units are heard as they are, and the colours are how much had been heard before. *)
Example C39_example :
  match readline S_count (s2l "abc" ++ encode [128104; 8205; 128105]) 2 80 (Some []) [] with
  | Some (Running _ s) =>
    forallb heard_as_is (line s) = true /\ c_init (ccol cfg_count) = 7 /\
    marked (cursor s) (line s) = [97; 98; marker; 99; 128104; 8205; 128105] /\
    option_map (fun s' => map c_color (cells s')) (puts cfg_count s 1 4) = Some [0; 1; 3; 6]
  | _ => False
  end.
Proof. vm_compute. repeat split; try discriminate. Qed.

(** * C44: the columns a unit occupies *)
(** On a terminal that agrees with the configured widths, the units of any stretch of a
    line that can be reached, printed one after the other, move the cursor by the sum of
    their widths.  Missing: joined characters over a unit that is not painted as written or
    over a control character (see C44_refuted). *)
Theorem C44_columns_partial : forall S x tw other a b q bs, scripted S -> reached S x -> agrees (cE (base S)) tw ->
  map c_moji (cells (buf_of x)) = a ++ b ++ q ->
  Forall (fun m => honest m = true /\ (joined_unit m = true -> no_controls (write m) = true)) b ->
  prints (cE (base S)) b = Some bs -> advances tw other bs (columns (cE (base S)) b).
Proof. exact TermFacts.reached_columns. Qed.
Print Assumptions C44_columns_partial.
(** A control character shows as ^ and the letter 64 above it. *)
Theorem C44_control : forall E r pos, 0 <= r < 32 -> r <> 9 ->
  print E (rune2moji E r pos) = Some [94; r + 64] /\ width E (rune2moji E r pos) = 2.
Proof. exact TermFacts.ctrl_shown. Qed.
Print Assumptions C44_control.
(** A character without width, outside the ruled lines, shows as its number in hexadecimal. *)
Theorem C44_escaped : forall E r pos, 32 <= r -> valid_rune r = true -> ~ 9472 <= r <= 9599 -> rw E r = 0 ->
  exists h, print E (rune2moji E r pos) = Some ([60] ++ h ++ [62]) /\ hex_value h = r /\ Forall hex_char h /\
    zlen h + 2 = width E (rune2moji E r pos).
Proof. exact TermFacts.esc_shown. Qed.
Print Assumptions C44_escaped.
(** A tab that is repainted shows as one to four spaces, up to a column of the line that is
    a multiple of four. *)
Theorem C44_tabs : forall C s a b s', sane_widths (cE C) -> puts C s a b = Some s' ->
  forall p t q, map c_moji (cells s') = p ++ MTab t :: q -> columns (cE C) p < 32768 ->
  exists n, print (cE C) (MTab t) = Some (repeat 32 (Z.to_nat n)) /\ width (cE C) (MTab t) = n /\ 1 <= n <= 4 /\
    columns (cE C) (p ++ [MTab t]) mod 4 = 0.
Proof. exact PaintFacts.tabs_shown. Qed.
Print Assumptions C44_tabs.
(** A line feed joined to a letter is sent to the terminal as it is. *)
Theorem C44_refuted : exists S x m bs tw, only_builtin S /\ reached S x /\ agrees (cE (base S)) tw /\
  In m (map c_moji (cells (buf_of x))) /\ print (cE (base S)) m = Some bs /\ In 10 bs /\
  exists other, ~ advances tw other bs (width (cE (base S)) m).
Proof. exact raw_newline. Qed.
Print Assumptions C44_refuted.
(** A mathematical letter with a modifier is counted one column too wide. *)
Theorem C44_bold_refuted : only_builtin S_bold /\ agrees E_bold bold_tw /\ (exists x, reached S_bold x /\ map c_moji (cells (buf_of x)) = [bold_unit]) /\
  width E_bold bold_unit = 4 /\ exists bs, print E_bold bold_unit = Some bs /\ bs = write bold_unit /\ forall other, advances bold_tw other bs 3.
Proof. exact bold_wrong. Qed.
Print Assumptions C44_bold_refuted.

(** A tab after a letter, a control character, an escaped one, a flag half, a letter with a
    variation selector and a joined pair. *)
Example C44_example :
  match readline S_term (encode [97; 9; 1; 769; 127462; 98; 65039; 128104; 8205; 128105]) 0 80 (Some []) [] with
  | Some x =>
    let b := map c_moji (cells (buf_of x)) in
    forallb (fun m => honest m && (negb (joined_unit m) || no_controls (write m))) b = true /\
    existsb joined_unit b = true /\ nth_error b 1 = Some (MTab 1) /\
    columns (cE (base S_term)) b = 1 + 3 + 2 + 5 + 2 + width (cE (base S_term)) (MVar (MRaw 98) (MRaw 65039)) + 5 /\
    match prints (cE (base S_term)) b with
    | Some bs => fst (tshow term_tw (fun _ st => st) (runes bs) (7, 0)) = 7 + columns (cE (base S_term)) b
    | None => False
    end
  | None => False
  end.
Proof. vm_compute. repeat split. Qed.
