# Formal model of go-readline-ny in Coq — design

The model is `rocq/theories/`.  The list of properties is `properties.jsonl`, the state of
each one `MANIFEST.json`, the seeded bugs and what caught them `seeded/LOG.jsonl`.

## 1. Files

### 1.1 The model

Every definition cites the lines of /repo it models and says where it simplifies.

| file | models | source |
|---|---|---|
| `Base.v` | Go slices and strings as lists, run-time panics as `None`, association lists for maps, int16 | `slice.go`, language |
| `Utf8.v` | decoding and encoding of runes at byte level, surrogate pairs | Go standard library |
| `Moji.v` | editing units, widths, `WriteTo`, `PrintTo`, `StringToMoji`, `MojiWidthAndCountInString` | `internal/moji` |
| `WidthCache.v` | the width cache | `internal/moji/width.go` |
| `Writer.v` | `WriteTo` on writers that may fail | `internal/moji`, `color.go` |
| `Color.v` | `ColorSequence` as a 64-bit word, `VimBatch` | `color.go`, `coloring/` |
| `Prompt.v` | `cutEscapeSequenceAndOldLine`, prompt width, last line of the prompt | `main.go`, `repaints.go` |
| `Buffer.v` | `Buffer`, view, undo records, painting as a list of output tokens | `buffer.go`, `repaints.go` |
| `Commands.v` | every built-in command | `gommand.go`, `history.go` |
| `KeyMap.v` | key maps, the default bindings, `LookupCommand` | `keymap.go`, `main.go` |
| `Names.v` | key codes, key names, command names, `NormalizeName` | `keys/`, `nameutils/`, `gommand.go` |
| `Session.v` | `ReadLine` as a state machine, one step per key or resize; quoted insert and incremental search are modes of it | `main.go`, `isearch.go`, `gommand.go` |
| `KeyInput.v` | `GetRawKey`, `GetKey`, `tty8` and `tty10` key reading, `auto.Pilot` | `getkey.go`, `tty8.go`, `tty10/`, `auto/` |
| `Completion.v` | word splitting, common prefix, completion commands, file names | `completion/` |
| `Repl.v` | `simplehistory.Container` and the loop that calls ReadLine | `simplehistory/main.go`, `examples/example3.go`, `main.go` |
| `Terminal.v` | ReadLine and the loop that calls it, fed by a terminal | `main.go`, `tty8.go`, `tty10/`, `auto/` |
| `Script.v` | user commands as programs of calls of the public methods; `examples/example4.go` | `keymap.go`, `buffer.go`, `repaints.go`, `examples/` |
| `TermCheck.v` | settings from environment variables, widths of the build `orgxwidth` | `internal/moji/termcheck.go`, `orgxwidth.go` |
| `Interact.v` | user commands that read keys with `GetKey`, suspended at each key | `buffer.go`, `keymap.go`, `main.go` |
| `TtyMode.v` | the terminal's mode during `GetKey`, step by step, while the user types | `tty10/main.go` |
| `Restore.v` | the terminal's settings from before `ReadLine` to after it | `tty8.go`, `tty10/`, `main.go` |
| `Reuse.v` | the editor's mutex over several `ReadLine`s, with panics the application recovers from | `main.go` |
| `Settings.v` | ReadLine while the application changes the editor's fields between the keys | `main.go`, `keymap.go`, `moji.go` |
| `Sched.v` | key loop and resize goroutine with the mutex, in small steps | `main.go`, `tty8.go`, `tty10/` |
| `Setup.v` | `Editor.Init`, assignments to `Writer` and `Out` | `main.go` |
| `Shell.v` | the tiny shell, the predictor without blanks, `strings.Fields` and `TrimSpace` | `examples/example2.go`, `example160.go` |
| `Life.v` | `ReadLine` from call to return as calls of the terminal, with the deferred ones; `tty10` open and close | `main.go`, `tty10/` |

### 1.2 Specifications

`Spec.v` (line, units, text, reachable states, simple text), `SpecLib.v` (colours, prompts,
key input, names), `SpecNames.v` (what the command names mean), `SpecSched.v`,
`SpecLife.v`, `SpecComp.v` (words, quotes, completion), `SpecScreen.v` (a terminal row of
units), `SpecTerm.v` (a terminal row at the level of characters), `SpecPaint.v` (colouring), `SpecIndep.v` (what a
user can tell without the picture), `SpecScript.v`, `SpecTabScript.v` and `SpecInteract.v` (careful user commands), `SpecSettings.v` (settings that may follow),
`SpecRepl.v` (where browsing keys lead),
`SpecTty.v` (typed characters and lines), `SpecTabs.v` (text with tabs, short lines), `SpecUndo.v` (lines halfway through an edit),
`SpecKeyboard.v` (what an xterm's keys send), `SpecTtyMode.v` (what was typed and in which mode),
`SpecReuse.v` (calls on editors of their own), `SpecSetup.v` (fields with defaults, where output
leads), `SpecShell.v` (words of a line), `SpecCost.v` (how much is written),
`SpecEditor.v` (the whole editor on paper), `SpecSlip.v` (the same with predictions), `SpecUndoOnly.v` (a session that crashes in UNDO), `SpecPromptRow.v` (the prompt on the row), `SpecTabInk.v`, `SpecVtTabInk.v` (colours on a row with tabs).
These files use of the model only its data types, `write`/`width` of a unit, and the state
machine.

### 1.3 Proofs

`Abs.v` is the line editor without a display.  `AbsRef.v`/`AbsSess.v` prove that every
command and every step of a session refines it, whatever the widths, colours and terminal
are.  `AbsSafe.v`, `AbsInv.v`, `Safe.v`, `SafeSess.v`, `Plain.v` prove that nothing panics.
`*Facts.v`, `*Props.v` and the `Screen*.v` files hold the remaining lemmas; `Sample.v`,
`CompSample.v`, `TermSample.v`, `*Witness.v` and `*Cases.v` the concrete configurations.
`P*.v` with a capital second letter (`PText`, `PEdit`, `PSession`, `PUndo`, `PSafety`,
`PColor`, `PKeys`, `PNames`, `PPrompt`, `PSched`, `PLife`, `PComp`, `PScreen`, `PPaint`, `PIndep`,
`PScript`, `PInteract`, `PSettings`, `PRepl`, `PTty`, `PEtiq`, `PPrompts`, `PVt`, `PTabs`, `PKeyboard`, `PTtyMode`, `PReuse`, `PRestore`, `PEnv`, `PSetup`, `PShell`, `PInk`, `PVtInk`, `PTabScreen`, `PTabScroll`, `PVtTabs`, `PWhole`, `PSchedScreen`, `PCost`, `PEditor`, `PSelector`, `PAnyKeys`, `PInject`, `PSupply`, `POpposite`, `PShortcut`, `PPredShown`, `PLeave`, `PSchedPred`, `PSchedPredTabs`, `PWindow`)
hold the property theorems, each closed by `exact`, with `Print Assumptions` beneath and an
example of its hypotheses nearby.  Names: `Cnn_...` belongs to property Cnn; `_partial` is
weaker than the English; `_refuted` exhibits a reachable counterexample to the English.

### 1.4 Conventions

A Go `string` is a list of bytes in `Z`; a run-time panic is `None`; a `Buffer` is a
record, and a method that changes it returns the new record; a slice is a list (no two live
slices of the modelled code share memory observably, except that painting writes colours
and tab positions through the shared array, which the model does explicitly).  `int` is
unbounded; `int16` tab positions and the `int64` colour word wrap explicitly.  Loops whose
end is not structural take fuel, and running out of it is an error value, never a default.

External code is a parameter with no assumed behaviour unless a theorem says so: the rune
width function, the table of variation selectors and enclosing marks, `GetZWJSWidth`,
`unicode.ToUpper`, case folding, the user's `Coloring`, `Predictor` and prompt, the
clipboard, the directory listing, `Buffered`.

## 2. Properties: what is modelled and how each is proved

- C01 `StringToMoji` and `WriteTo` on bytes; induction on the decoded runes.  The exact
  output for every byte string is characterised; the full claim is false with joiners
  switched on (U+200C becomes U+200D, a trailing joiner gains U+FFFD): witness.
- C02 list-level model of `append`/`copy`; algebra.
- C03 session machine; induction on the key list through the refinement to `Abs.v`; for keys
  of any bytes (`SpecAnyKeys.v`) by what C01 says of each key's text.
- C04 invariant over the session machine, once by conditions on the events alone, once by
  a condition on the lines of the run, once for tabs by the length of the lines (`Tabs.v`: a
  tab takes at most eight columns, so 16 bits are enough for 800 characters); witnesses for the crashes outside.  Through the
  editor on paper of C72 (`SpecExact.v`) the crashes are characterised: the display-free editor makes
  every step but an UNDO that does not fit, and only SWAPCHAR at the end of the text leaves one.
  With predictions, tabs and joined characters too, nothing but UNDO crashes (`SpecUndoOnly.v`, `PUndoOnly.v`): an invariant on cursor
  positions of the display-free editor that every command but UNDO keeps; with predictions and simple text
  exactly the UNDOs that do not fit on the paper of C80 (`PSlip.v`).
- C05, C06 undo-chain invariant on the abstract machine, transported by refinement; edits in two steps (history browsing, attaching keys) add their halfway lines to the trail (SpecUndo.v).
- C07–C09, C12, C13, C15, C47 functional specification of each command, for every state.
- C10 case analysis over the session step.
- C11 composition of two commands; guard: re-splitting the killed text is stable.
- C14, C46 specification of quoted words as a fold independent of the loop.
- C16 lookup/save algebra on the modified-history map; the general claim is false
  (stale entry after reverting an edit; cycling stores under the wrong key): witness.
- C17 the model's `At` panics out of range; the pointer is an invariant.
- C18, C19 search mode of the session machine; scanning loops characterised.
- C20 prediction; the general claim is false (stale after kill or browsing): witness.
- C21, C22 bit packing over `Z`; a seventh code of 128 or more and the returned count are
  refuted.
- C23 two accumulators run in lock step; false with tabs after sequences: witness.
- C24 refinement of the cache to a map.
- C25 a prompt grammar, its rendering, and the state machine of the code.
- C26, C27, C28, C41 key readers against arbitrary schedules.
- C29–C31, C50 association lists; finite tables by computation; C50 joins the table of
  names to the effects proved for C07–C15 and to the default keys.
- C32–C34 completion: the word at the cursor specified by a grammar of quoted words, the
  prefix by a universal property, the file list by membership; witnesses for the crash on
  an empty word, on case mappings that change the number of bytes, and for the endless
  descent into an empty directory.  No crash in lines with tabs (`SpecCompTabs.v`,
  `CompTabs.v`): both commands keep the invariant of `TabScript.v`.
- C35 interleavings of the key loop and the resize callback with an explicit lock; every
  command and the callback may be divided into atomic steps in any way.  Simulation by the
  sequential session; a crash of a schedule is shown to be one of such a session.  That no change of the size is lost (`C35_last_size`) is an
  invariant of its own over the steps (`WindowSched.v`).
- C36 trace of the calls `ReadLine` makes, on every path, panics included.
- C37, C38 a terminal row on which the output tokens act; invariant over sessions.  What the
  terminal makes of the prompt and of half overwritten units is an arbitrary function.
  Lines with tabs (`SpecTabScreen.v`, `PTabScreen.v`): as long as the line fits the row, a second invariant
  in which the tab positions in the cells may be out of date (they are set anew by every
  painting) and only bound the widths.  Lines with tabs that scroll (`SpecTabScroll.v`,
  `PTabScroll.v`): a third invariant on a row as long as need be, with and without predictions;
  of the widths the commands measure it needs only that a prediction is painted after all of
  the line or vanishes under it.  On a real row it can fail, as `C38_tabs_scroll_refuted` shows.
  The width in the editor's state, which these statements use, is the one it was told last and the row begins after the prompt (`SpecWindow.v`, `PWindow.v`): each command keeps both.
- C39 the colouring as a function of the runes fed to it since `Init`; what `puts` emits.
- C40 VimBatch as a state machine against a table of codes.
- C42 initial state.  C43 typed versus pasted sequences.
- C44 characters on a terminal row (`SpecTerm.v`); what is printed for a unit moves the
  cursor by its width, for every unit on a reachable line, by the shape of such units; the
  width of a character with a variation selector by cases on the selector.
- C45 string rewriting against a separately specified unquoting.
- C48 interleavings of `Close` with the goroutine of the terminal.
- C49 the output tokens between the last flush and a wait.
- C51 two runs related by a simulation on the display-free editor, up to the way each
  character is shown.
- C52 the two undo records of a replacement and their merge; completions as scripts.
- C53 induction over scripts with the invariants of C04, without and with tabs; witnesses for commands that set the
  cursor without drawing and for `examples/example4.go`.
- C54 an invariant of browsing (every position still splits as its entry did) along any
  word of browsing keys; induction over the calls of the loop.
- C55 composition of C26/C28, C03, C04 and the loop of calls; what a terminal has read ahead
  and not yet delivered is its invariant.
  A terminal that fails: the error ends the call under way (C55_tty10_error, C55_default_error);
  a burst of the default terminal that ends in the error is lost (C55_burst_error_refuted).
- C56 every function's output is a calm extension of what was written before (no change of
  the cursor's visibility, ends in the default colour and without the look of predictions);
  invariant over the events.
- C57 each event comes with the text the prompt writer would write (`Prompts.v`); everything
  but RepaintAll and RepaintLastLine is shown not to look at the prompt, then the proofs of
  C04 (without tabs, and with tabs in `PromptsTabs.v`) and C51.
- C58 a terminal that reads bytes (`SpecVt.v`: UTF-8, escape sequences, a row of characters);
  it is shown to follow the terminal of C37, whose arbitrary functions are chosen to be what
  the byte terminal does at each step.  With tabs (`PVtTabs.v`): the same simulation over the
  screen of `TabScreen.v`; every tab written is one that could be printed.  When the line
  scrolls, over that of `TabScroll.v`; a read error in the search is a counterexample.
- C59 a command is a function from places and keys to straight programs; C53's induction for
  each piece, an invariant of line and cursor at each place; QUOTED_INSERT by comparing steps.
  With tabs (`SpecTabInteract.v`, `TabInteract.v`): the invariants of `TabScript.v`.
- C60 every event has its own settings; the invariants of C04 and C51 are shown to carry
  over to settings that may follow (with tabs: `SettingsTabs.v`); both refutations are sessions.
- C61 the code table against a separate table of xterm's keys; for the table, C26/C28/C30.
- C62 system calls and typing as interleaved actions; invariants of mode and bytes; two
  sessions in which the terminal's usual mode has turned Enter into a line feed.
- C63 the session machine with the mutex; it is free at every wait of the loop and at every
  return; it stays taken by a panic, and a call that finds it taken serves no key.
- C64 the switches as functions of the variables; without them nothing joins, so that
  splitting is code point by code point and C04 with tabs applies to every text; a crash in
  Windows Terminal as a session.
- C65 what Open, GetKey and Close do to the settings, folded over the trace of C36; an
  invariant per phase of C36's protocol; two calls that leave the terminal raw.
- C66 `Init` as a function on records of optional fields; ReadLine after it is ReadLine of the
  other properties; induction over assignments and calls; a Writer set between two calls
  without Out is not used.
- C67 texts cut into code points with their bytes, cuts are kept by taking parts; induction
  over the turns; a prediction after a blank has a blank too many.
- C68 the row of C37 with the ink of each unit (`SpecInk.v`); the colours of a prefix depend
  on the prefix alone, so that what a command leaves unpainted keeps its colour; two sessions
  with stale colours (a colouring that uses the marker; SWAPCHAR and one that minds order).
  With tabs (`SpecTabInk.v`, `TabInk.v`, `PTabInk.v`): the second invariant of C37 with ink.
  With tabs, predictions and lines that scroll (`SpecScrollInk.v`, `ScrollInk.v`,
  `ScrollInkSess.v`, `PScrollInk.v`): the third invariant of C37 with ink, every command again.
- C69 the terminal of C58 with all colour codes received so far and, per column, those
  received when it was written (`SpecVtInk.v`); it follows the row of C68 write by write;
  the marker of the cursor again.  With tabs (`SpecVtTabInk.v`, `PVtTabInk.v`): the same terminal beside the row of C68 with tabs; scrolling
  and with predictions, `SpecVtScrollInk.v` and `PVtScrollInk.v`, under every schedule `PSchedScrollInk.v`.
- C70 composition of C35 (every schedule is a sequence of whole commands and callbacks), C03,
  C04, C58, C69, C73 and C78 (`PSchedPred.v`); an invariant over the typed keys with sizes between them.
- C71 counting over every command: at most four movements of the cursor and one colour per
  unit; with C38 each stretch between two movements is at most a row wide.
- C72 a simulation between `Abs.v` and an editor on code points (`SpecEditor.v`), command by
  command; the records for UNDO are related to the texts they lead back to.
- C73 every token but the prompt, clearing and line breaks keeps to the right of the prompt (`PromptTok.v`);
  the prompt's pieces of C25 are followed on the terminal of C58; a witness for narrow terminals.
- C74 an invariant over every command: each unit on the line, in the prediction and in the
  output comes out of a text (`InjectTok.v`); the bytes painted for such a unit, by its shape.
  Witnesses with a zero width joiner.
- C75 for an arbitrary set of characters, an invariant of the display-free editor: all of the
  line, undo records, kept history lines, clipboard, prediction and the text waiting to be
  joined is in the set (`Alphabet.v`), carried to sessions with user commands and to schedules
  (`SupplyFacts.v`); the exceptions of joined characters are shown to be real.
- C76 from C03, C08 and C09 by induction over the keys (`OppositeFacts.v`).
- C77 where a sequence of keys leads to, as a cut of the line at the cursor; two sequences that
  lead to the same cut (`ShortcutFacts.v`); a witness for the clipboard after killing nothing.
- C78 the model of the row of C37, with what is missing there: `shows` lets the prediction be
  left out, `shows_prediction` does not (all of it, or up to the first unit that does not fit).
  Every event of `predicts_anew` ends in `repaint`; `repaint` paints the prediction it has just
  asked for, and C37's invariant gives the rest of the row.  With tabs (`PredTabs.v`, and on
  bytes `VtPredTabs.v`) the cut is made with widths from before the last edit, so the theorem
  asks for three columns more for each tab and then has all of the prediction; `PredCut.v` and `VtPredCut.v` have
  predictions of any length, the place of the cut up to three columns for each tab of the line, and `PredExact.v` the
  exact cut after events that bring no tab: the tabs before the cursor then already have their places; in general (`counted`) the text the event brings is counted with its tabs as wide as in that text by itself.  `PSchedPredTabs.v` has the cut theorem at every
  wait of every schedule in which the keys edit the text (`SpecSchedPred.v`).  Refuted for
  END_OF_LINE (and with it for the moves that come to the end of the line without scrolling,
  for the history keys and for KILL_LINE), which erase the prediction or never paint it.
- C79 `leaves` says for each way to end what the row shows before the line feed.  Every end has
  the same shape (`ends_shape`: the state, the last paint if there was a prediction, the line
  feed); the last paint is one more repaint for the invariants of C37, with tabs for those of
  `TabScroll.v`, and on bytes for the simulation of C58.
- C80 the editor on paper of C72 with a slip (`SpecSlip.v`): what a command does to text, cursor, records and clipboard is
  what it does with predictions off (`SlipFacts.v`, command by command), so C72 applies to that part; which commands ask the
  Predictor is shown beside it (`SlipSess.v`, `PSlip.v`).  Paper does not know whether FORWARD_WORD scrolled: it is told
  from the run (`scrolled`: had the row room for the place the cursor went to), and any answer will do where the command is not used.  Only runs that do not crash (C04).

Theorems that are about what holds in every reachable state (C05, C11, C17, C18, C20's off
part, C32, C36, C39, C44, C46, C49) allow user commands made of public calls
(`SpecScript.scripted`); those that compare two runs or two states allow built-in commands
only, because a user command may look at everything, the picture included.

## 3. Trusted base

- Coq 8.16.1: its kernel, and the virtual machine for `vm_compute` in examples, witnesses
  and finite tables.  Only the standard library is used.
- Axioms: `Print Assumptions` says "Closed under the global context" for every theorem of
  the P files.  `coqchk` of the whole development lists seven constants of
  `Coq.ssr.ssrunder.Under_rel`, which belong to a module of the standard library that is
  loaded but that no theorem uses.
- The correspondence of the definitions to the Go text, which is by reading: the code
  was neither built nor run.  `RepoTests.v` replays the project's own unit tests (`*_test.go`)
  on the model: it gives the results their authors expect.
- The behaviour of the Go standard library as far as it is modelled: `utf8`, `utf16`,
  `strings` (`Index`, `Contains`, `TrimRight`, `TrimSpace`, `Fields`, `Replace`, `EqualFold` through a representative of
  the folding class), `unicode.IsSpace`/`IsControl`, `fmt` `%d` and `%X`, `filepath.Base`
  for `/`.

## 4. Not modelled, or simplified

- `ReadLine` does not look at its `context.Context`; it only hands it to the commands, and so
  the model has none.
- The prompt is a constant text during a call except in `Prompts.v` (C57); a prompt writer
  that does more than write is not modelled.
- No error of writing to the terminal is looked at after the first prompt, so the model
  records what was to be written; the failing first write is in `Prompts.v`, failing
  writers under units and colours in `Writer.v`.
- The predictor is a function of the text and the cursor; the history and the other
  settings change during one call of `ReadLine` only in `Settings.v`, between two events; the clipboard changes only by the editor or by `EClip`
  events (constant in `Sched.v`).
- `Editor` fields other than those of `cfg` (for example `Tty`, `LineFeedWriter` effects)
  are fixed during a call.
- A user command that reads keys (`Interact.v`) is a program with places at which it waits; it calls no other command that reads keys.
- The terminal driver outside raw mode (`TtyMode.v`) is a function on bytes: no echo, line editing or signals.
- go-tty and x/term (`Restore.v`): opening or `MakeRaw` keeps the settings and switches to raw
  mode, closing or `Restore` puts the kept settings back; the message on stderr after a read
  error in the incremental search is left out.
- `Raw`/`MakeRaw` succeed; errors of `Open`, `Size` and `GetKey` are modelled.
- `Sched.v` has interleavings only: no weak memory, no data race inside `bufio.Writer`;
  it starts at the first wait for a key.
- The terminal row of C37/C38 takes a unit to occupy `Width()` columns; C44 is what says
  when it does, and C58 joins the two.  The terminal's reaction to the prompt is arbitrary.
- `completion`: the separator is `/`, the file system is constant during one call, the bits
  of open quotes are an unbounded integer (at most 64 kinds of quotes), the table printed
  by go-box is an arbitrary text.
- `termcheck.go` and `orgxwidth.go` are modelled in `TermCheck.v` (C64); elsewhere the switches
  of `env` are arbitrary.  `test/` and the `main` of the
  examples other than `example2.go`, `example3.go` and `example4.go` are not modelled; running
  commands (`os/exec`) is a record of the words.
- The default width function (go-runewidth or x/text) is the parameter `rw`.

## 5. Seeded bugs

`seeded/LOG.jsonl` has one line per attempt.  The model is edited in a scratch copy and rebuilt; a
proof that no longer goes through is replaced by `Admitted` there, and `theorems_failed` lists the
property theorems whose proofs use such a proof, as far as the run went (the later runs stop once a property theorem is
reached; the 169 attempts of round 4 stopped at the first failing lemma and list none).

How to read it: a theorem in `theorems_failed` lost its proof.  That does not say that its claim is false of the
edited program.  Only part of the attempts of round 3 (12 of the 29 on `Buffer.v`, `Commands.v`, `Session.v`)
changed the display-free editor (`Abs.v`) together with the model, and none of rounds 5 to 11 did.  So an edited
command is often noticed first by the refinement between the two, and every theorem above it is listed.  An earlier
version of this section said otherwise; that was wrong.  A weak theorem can hide behind such an entry: C80 first left
open when FORWARD_WORD asks the Predictor, and this measure would not have shown it.

The entries for which nothing but the refinement layer failed (`first_lemmas_failed` all in `Abs*.v`) were therefore tested
again without proofs, field `semantic`: the definitions alone are compiled with the edit, and the statements of C72, C80
and of the exact crash theorems of C04 are evaluated at every wait of 260 random sessions, with and without predictions and
cyclic history.  The unedited model agrees in all of them.  A disagreement shows the statement false of the edited program.
An agreement shows nothing (the edit may change only the picture, or nothing, or need another session).
Entries that agreed were run again on 31 directed sessions, with an empty history, against the row at every wait (C37) and at the end
(C79), and a few on 11 more sessions.  The result for the 87 entries: in 81 one of these statements is false of the edited
program.  Not distinguished: r4-002 (how far FORWARD_CHAR scrolls), r4-052 (NEXT_HISTORY with an empty history), r7-05
(joining two parts one of which is empty), r7-09 (where a word begins without a word; these sessions do not complete),
r7-75 (an UNDO record at the end one off), r8-17 (needs joined characters).  For round 10 (16 edits around predictions)
`theorems_failed` lists only theorems seen false in this way: 15 edits are seen, r10-12 (UNDO asks the Predictor with nothing to undo) is not.  Round 11 (24 edits) does the same for
C78 beside tabs (r11-15 showed that no theorem said which width the editor goes by; `C38_window` now does), at the waits of 120 random sessions; whether the sessions of the edited program meet the condition `calm_scroll` was not evaluated.  The entries
for which a lemma outside the refinement layer failed were not tested again.
