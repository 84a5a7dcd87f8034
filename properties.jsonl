{"id": "C01", "title": "Text survives the split into editing units", "statement": "Splitting a string into editing units with StringToMoji and writing the units back with WriteTo yields the same string, for every valid UTF-8 string; for arbitrary bytes it yields the string with each undecodable byte replaced by U+FFFD and nothing else changed. Splitting the written-back text again yields the same units.", "quantifier": "every byte string, every setting of the surrogate-pair / zero-width-joiner / variation / modifier switches, every character-width function", "why_tests_cant": "the input space is all byte strings times all switch settings; the existing test covers two strings", "anchors": ["internal/moji/moji.go: StringToMoji, _ZeroWidthJoinSequence.WriteTo", "internal/moji/codepoint.go: rune2moji, writeRune", "buffer.go: StringToMoji, cell2string"]}
{"id": "C02", "title": "InsertString and Delete splice exactly", "statement": "Buffer.InsertString(pos,s) makes the line the units before pos, then the units of s, then the units from pos on, leaves cursor and everything else but the undo stack alone, and returns the number of inserted units; it panics only when pos is outside the line. Buffer.Delete(pos,n) removes exactly the units pos..pos+n-1, and does nothing when n<=0 or the range runs past the end of the line.", "quantifier": "every line, position, count and inserted string", "why_tests_cant": "every position/length combination including the ones at and past the ends", "anchors": ["buffer.go: insert, insertString, InsertString, Delete", "slice.go: sliceInsert, sliceDelete"]}
{"id": "C03", "title": "What is typed is what is returned", "statement": "If the user presses any sequence of keys that are not bound to commands and then Enter, ReadLine returns exactly the concatenation of the typed keys (after Editor.Default, which the cursor position may split) and a nil error, whatever the terminal width, colouring, prompt or prediction settings.", "quantifier": "every sequence of unbound keys, every Default/Cursor, every configuration in which the painting code does not crash", "why_tests_cant": "unbounded key sequences", "anchors": ["main.go: ReadLine, LookupCommand", "gommand.go: SelfInserter.Call, cmdAcceptLine"]}
{"id": "C04", "title": "Editing never crashes on a wide enough terminal", "statement": "For every sequence of keys, resizes and clipboard changes, no built-in command panics with an index or slice error, and between commands 0 <= ViewStart <= Cursor <= len(Buffer) holds, as long as every unit on the line is narrower than the visible width and the line is shorter than 32768 columns.", "quantifier": "every finite sequence of key, resize and clipboard events from a fresh ReadLine", "why_tests_cant": "needs an invariant over unbounded event histories", "anchors": ["gommand.go: all cmd* functions", "buffer.go: ResetViewStart, getView2", "repaints.go: repaint, ReplaceAndRepaint", "history.go", "isearch.go"]}
{"id": "C05", "title": "Undo reverts the last edit", "statement": "After any single editing command (typing, backspace, delete, kill line, kill whole line, word rubout, line discard, yank, swap), running UNDO restores the line text that was there before the command.", "quantifier": "every line, cursor position, undo history and every editing command", "why_tests_cant": "each command times every reachable state", "anchors": ["gommand.go: cmdUndo, cmdSwapChar and all editing commands", "buffer.go: insert, Delete, joinUndo"]}
{"id": "C06", "title": "Undo unwinds the whole session", "statement": "In any reachable state of a ReadLine, running UNDO until the stack is empty succeeds and ends with the empty line (the line before Default was inserted); every intermediate UNDO restores some line text that existed earlier in the session, in reverse order.", "quantifier": "every finite history of commands since ReadLine began", "why_tests_cant": "it is an invariant of unbounded histories of a stack", "anchors": ["gommand.go: cmdUndo", "buffer.go: joinUndo, insert, Delete", "repaints.go: ReplaceAndRepaint", "main.go: ReadLine"]}
{"id": "C07", "title": "Cursor movement never alters the text", "statement": "BACKWARD_CHAR, FORWARD_CHAR (with no prediction to accept), BEGINNING_OF_LINE, END_OF_LINE, BACKWARD_WORD, FORWARD_WORD, CLEAR_SCREEN, REPAINT_ON_NEWLINE and terminal resizes leave the line's units, the undo stack, the clipboard and the history edits unchanged.", "quantifier": "every state and configuration", "why_tests_cant": "every state", "anchors": ["gommand.go: cmdBackwardChar, cmdForwardChar, cmdBeginningOfLine, cmdEndOfLine, cmdBackwardWord, cmdForwardWord, cmdClearScreen", "main.go: onResize"]}
{"id": "C08", "title": "Cursor movement lands where documented", "statement": "BACKWARD_CHAR and FORWARD_CHAR move the cursor by one unit and stop at the ends of the line; BEGINNING_OF_LINE and END_OF_LINE move to position 0 and to the end; BACKWARD_WORD moves to the start of the nearest word to the left and FORWARD_WORD to the start of the next word (or the end of the line).", "quantifier": "every line and cursor position", "why_tests_cant": "every arrangement of blanks, words and quotes", "anchors": ["gommand.go: cmdBackwardChar, cmdForwardChar, cmdBeginningOfLine, cmdEndOfLine, cmdBackwardWord, cmdForwardWord", "internal/moji/codepoint.go: IsSpaceMoji"]}
{"id": "C09", "title": "Deleting commands remove exactly the documented range", "statement": "BACKWARD_DELETE_CHAR removes the unit left of the cursor, DELETE_CHAR the unit under the cursor, KILL_LINE everything from the cursor on, UNIX_LINE_DISCARD everything before the cursor, KILL_WHOLE_LINE everything; all other units are kept in order and the cursor stays between the same two neighbours. At the ends of the line they do nothing.", "quantifier": "every line, cursor and configuration", "why_tests_cant": "every line and cursor position", "anchors": ["gommand.go: cmdBackwardDeleteChar, cmdDeleteChar, cmdKillLine, cmdKillWholeLine, cmdUnixLineDiscard"]}
{"id": "C10", "title": "How ReadLine ends", "statement": "Enter returns the line and a nil error; Ctrl-C returns the empty string and CtrlC; Ctrl-D on an empty line returns the empty string and io.EOF and on a non-empty line never ends the input; a key-reading error returns the empty string and that error; no other default key ends ReadLine.", "quantifier": "every reachable state and every key", "why_tests_cant": "every key in every state", "anchors": ["main.go: ReadLine", "gommand.go: cmdAcceptLine, cmdInterrupt, cmdDeleteOrAbort", "keymap.go: GlobalKeyMap"]}
{"id": "C11", "title": "Kill and yank are inverse", "statement": "Text removed with KILL_LINE, UNIX_LINE_DISCARD or UNIX_WORD_RUBOUT goes to the clipboard verbatim, and an immediately following YANK puts the same text back so that the line is what it was, provided the clipboard works.", "quantifier": "every line and cursor, every clipboard content", "why_tests_cant": "every line/cursor/killed text", "anchors": ["gommand.go: cmdKillLine, cmdUnixLineDiscard, cmdUnixWordRubout, cmdYank"]}
{"id": "C12", "title": "Swap exchanges two neighbouring units", "statement": "SWAPCHAR exchanges the units on either side of the cursor and moves right (at the end of the line, the last two), leaves every other unit alone, and does nothing if there are not two units to swap.", "quantifier": "every line and cursor", "why_tests_cant": "every line and cursor position", "anchors": ["gommand.go: cmdSwapChar"]}
{"id": "C13", "title": "Word rubout removes the word before the cursor", "statement": "UNIX_WORD_RUBOUT removes the blanks left of the cursor and the word before them (a quoted stretch counts as part of one word), keeps every unit before that word and every unit at or after the old cursor, puts the cursor at the word's start and the removed text in the clipboard.", "quantifier": "every line, cursor, quote arrangement", "why_tests_cant": "every arrangement of quotes and blanks", "anchors": ["gommand.go: cmdUnixWordRubout", "buffer.go: CurrentWordTop"]}
{"id": "C14", "title": "CurrentWord is the word before the cursor", "statement": "CurrentWord returns a position p <= Cursor and exactly the text between p and the cursor; that stretch contains no blank outside quotes, and it is maximal: p is 0 or the unit before p is an unquoted blank.", "quantifier": "every line and cursor", "why_tests_cant": "every arrangement of quotes and blanks", "anchors": ["buffer.go: CurrentWordTop, CurrentWord, SubString"]}
{"id": "C15", "title": "History browsing shows the right entry", "statement": "PREVIOUS_HISTORY replaces the line by the entry before the current one and NEXT_HISTORY by the entry after it (or by what the user typed, past the newest entry), with the cursor at the end; at the oldest entry PREVIOUS_HISTORY does nothing, or with HistoryCycling wraps to the newest position; past the newest entry NEXT_HISTORY does nothing.", "quantifier": "every history, every pointer position and line, cycling on or off", "why_tests_cant": "every history and browsing path", "anchors": ["history.go: cmdPreviousHistory, cmdNextHistory, getHistory"]}
{"id": "C16", "title": "Edits to history entries survive browsing", "statement": "Leaving a history position with PREVIOUS_HISTORY or NEXT_HISTORY and coming back shows exactly the text that was on the line when the position was left, until ReadLine returns; other positions are not affected.", "quantifier": "every history and every sequence of browsing and editing commands", "why_tests_cant": "unbounded browsing histories", "anchors": ["history.go: saveModifiedHistory, getHistory"]}
{"id": "C17", "title": "History is only read inside its bounds", "statement": "In every execution each call History.At(i) made by browsing, searching or predicting satisfies 0 <= i < History.Len(), and browsing keeps its position between 0 and Len().", "quantifier": "every event sequence and every history (also empty)", "why_tests_cant": "every event sequence", "anchors": ["history.go", "isearch.go", "buffer.go: predictByHistory"]}
{"id": "C18", "title": "Incremental search finds the newest match", "statement": "After every change of the search text the shown entry is the most recent history entry containing it case-insensitively, or empty if there is none; Ctrl-R and Ctrl-S move to an older / newer entry that contains the text and differs from the shown one; Enter replaces the whole line by the shown entry.", "quantifier": "every history, every sequence of search keys", "why_tests_cant": "unbounded key sequences over all histories", "anchors": ["isearch.go: cmdISearchBackward, caseInsensitiveStringContains"]}
{"id": "C19", "title": "Cancelling a search changes nothing", "statement": "Leaving incremental search with Ctrl-C, Ctrl-G, Escape or a read error leaves line, cursor, view, undo stack, clipboard and history edits exactly as they were when the search began, and every search key press terminates.", "quantifier": "every history and search key sequence", "why_tests_cant": "termination and frame condition for all inputs", "anchors": ["isearch.go: cmdISearchBackward"]}
{"id": "C20", "title": "Prediction completes to a history entry", "statement": "With prediction on, the predicted suffix appended to the current line is the most recent history entry that has the line as prefix; pressing FORWARD_CHAR at the end of the line makes the line equal to that entry. With prediction off nothing is ever inserted by FORWARD_CHAR.", "quantifier": "every history, line and command sequence", "why_tests_cant": "staleness depends on the command history", "anchors": ["buffer.go: predictByHistory, updateSuffix, Suffix", "gommand.go: cmdForwardChar"]}
{"id": "C21", "title": "Colour codes round-trip", "statement": "A ColorSequence built from ColorSequence(0) with Add (or by SGR1..SGR4, or joined by Chain) and written with WriteTo emits ESC[ c1;c2;...;cn m with exactly the codes in order.", "quantifier": "every list of codes 0..255 that fits", "why_tests_cant": "all code lists; bit packing", "anchors": ["color.go: Add, Chain, SGR1..SGR4, WriteTo"]}
{"id": "C22", "title": "WriteTo reports the bytes it wrote", "statement": "ColorSequence.WriteTo and Moji.WriteTo return the number of bytes written (the io.WriterTo contract).", "quantifier": "every colour sequence, every unit", "why_tests_cant": "all values", "anchors": ["color.go: WriteTo", "internal/moji/codepoint.go: WriteTo", "internal/moji/moji.go: WriteTo"]}
{"id": "C23", "title": "Width and count functions agree with the split", "statement": "GetStringWidth(s) is the sum of Width() over StringToMoji(s), and MojiCountInString(s) is its length.", "quantifier": "every string and switch setting", "why_tests_cant": "all strings and settings", "anchors": ["internal/moji/moji.go: MojiWidthAndCountInString, StringToMoji", "buffer.go: GetStringWidth, MojiCountInString"]}
{"id": "C24", "title": "Character width overrides", "statement": "After any sequence of SetCharWidth, ResetCharWidth and width queries, a query returns the width last set for that character since the last reset, or the terminal default; queries never change later answers.", "quantifier": "every sequence of set/reset/query operations", "why_tests_cant": "caching over unbounded histories", "anchors": ["internal/moji/width.go: getWidth, SetCharWidth, ResetCharWidth"]}
{"id": "C25", "title": "Prompt width counts only what is visible", "statement": "For a prompt made of printable text, CSI sequences ESC[...letter, title sequences ESC]...BEL, and line breaks, the computed prompt width is the width of the printable text after the last line break; backspaces rub out the preceding character.", "quantifier": "every prompt built from those pieces", "why_tests_cant": "all prompts", "anchors": ["main.go: cutEscapeSequenceAndOldLine, callPromptWriter"]}
{"id": "C26", "title": "No key input is lost or reordered", "statement": "Whatever the timing of input (the answers of Buffered()), the keys returned by successive GetKey calls, concatenated, are exactly the characters delivered by the terminal, in order, NULs dropped and surrogate pairs combined.", "quantifier": "every input stream and every schedule of buffering answers", "why_tests_cant": "every schedule", "anchors": ["getkey.go: GetRawKey, GetKeys", "tty8.go: _Tty.GetKey"]}
{"id": "C27", "title": "Key grouping", "statement": "A character other than ESC is always delivered as a key of its own; ESC is delivered together with exactly the characters that were already buffered behind it.", "quantifier": "every input stream and schedule", "why_tests_cant": "every schedule", "anchors": ["getkey.go: GetRawKey"]}
{"id": "C28", "title": "Raw-byte terminals keep characters whole", "statement": "For the tty10 terminal, the keys returned by successive GetKey calls concatenate to the bytes read, in order, however the reads were chunked, and a multi-byte character is one key.", "quantifier": "every byte stream and every chunking", "why_tests_cant": "every chunking", "anchors": ["tty10/main.go: GetKey, getKey"]}
{"id": "C29", "title": "Key maps behave like maps", "statement": "After any sequence of BindKey calls, Lookup returns the command last bound to that key, a nil binding removes it, other keys are unaffected; LookupCommand prefers the editor's map, then the global map, then inserts the key itself.", "quantifier": "every sequence of bind operations and every key", "why_tests_cant": "unbounded histories", "anchors": ["keymap.go: BindKey, Lookup", "main.go: LookupCommand"]}
{"id": "C30", "title": "Binding by name", "statement": "NormalizeName ignores case and treats '-' as '_' (it is idempotent); BindKeyFunc binds exactly the code of the named key or fails without change; BindKeySymbol(km,key,name) binds the named key to the named function.", "quantifier": "every key name, function name and key map", "why_tests_cant": "all strings", "anchors": ["nameutils/main.go", "keys/naming.go: NormalizeName, NameToCode"]}
{"id": "C31", "title": "Key codes do not clash with text", "statement": "Distinct named keys have distinct codes and no named function key has a printable character as its code, so that binding a key by name affects only that key.", "quantifier": "every pair of named keys", "why_tests_cant": "finite but pairwise (whole table)", "anchors": ["keys/code.go", "keys/naming.go: NameToCode"]}
{"id": "C32", "title": "Completion only replaces the word at the cursor", "statement": "A completion command leaves the text before the completed word and the text after the cursor unchanged; the inserted text extends what was typed (ignoring case and quotes); it never crashes.", "quantifier": "every line, cursor and candidate list", "why_tests_cant": "all lines and candidate lists", "anchors": ["completion/main.go: complete, split, removeUnmatches"]}
{"id": "C33", "title": "Common prefix is right", "statement": "With several candidates, completion inserts a string that is, ignoring case, a prefix of every candidate and cannot be extended.", "quantifier": "every non-empty candidate list", "why_tests_cant": "all candidate lists", "anchors": ["completion/main.go: commonPrefix"]}
{"id": "C34", "title": "File completion terminates with the matching entries", "statement": "completion.File lists exactly the directory entries whose names start (ignoring case) with the typed base name, and always returns.", "quantifier": "every directory tree and typed word", "why_tests_cant": "all directory contents", "anchors": ["completion/file.go: List"]}
{"id": "C35", "title": "Resizing is safe at any time", "statement": "Terminal-resize notifications arriving at any moment during ReadLine run atomically with respect to key commands: they never change the line, the cursor or the result, and never crash on a wide enough terminal.", "quantifier": "every interleaving of the key loop and the resize goroutine", "why_tests_cant": "schedules", "anchors": ["main.go: ReadLine, onResize, mutex", "tty8.go: Open", "tty10/main.go: Open"]}
{"id": "C36", "title": "Terminal life cycle", "statement": "On every path out of ReadLine (open error, size error, key error, normal end) the cursor is made visible again and the output flushed, and the terminal is closed exactly once if and only if it was opened; no key is read before open or after close.", "quantifier": "every path and every error point", "why_tests_cant": "every crash/error point", "anchors": ["main.go: ReadLine"]}
{"id": "C37", "title": "The screen shows the line", "statement": "After every command the terminal row shows, from the prompt's end, the units of the line from ViewStart on up to a point at or after the cursor, which is the end of the line unless the row is used up, nothing else but a prediction, and the terminal cursor stands exactly where the edit cursor is.", "quantifier": "every command sequence, starting from a painted line", "why_tests_cant": "needs an invariant over histories", "anchors": ["repaints.go", "gommand.go", "buffer.go: getView, puts"]}
{"id": "C38", "title": "Painting stays inside the row", "statement": "Repainting never writes into the last three columns of the row, so the terminal never wraps; the cursor is always inside the visible window.", "quantifier": "every reachable state", "why_tests_cant": "all states", "anchors": ["buffer.go: getView, ResetViewStart, forbiddenWidth", "repaints.go"]}
{"id": "C39", "title": "Colouring sees the text", "statement": "On each repaint the Coloring object gets Init once and then Next for exactly the characters of the line in order, with the marker U+E000 just before the unit at the cursor (or at the end); each unit is painted in the colour returned for it and the default colour is restored afterwards.", "quantifier": "every line, cursor and colouring", "why_tests_cant": "all lines and colourings", "anchors": ["repaints.go: refreshColor", "buffer.go: puts"]}
{"id": "C40", "title": "VimBatch colours", "statement": "VimBatch paints %...% stretches cyan including both percent signs, quoted stretches magenta including both quotes (percent wins), ideographic spaces on red, '&' outside them dark yellow and everything else in the default colour, and does not depend on earlier lines.", "quantifier": "every line", "why_tests_cant": "all lines", "anchors": ["coloring/vimbatch.go"]}
{"id": "C41", "title": "Scripted input", "statement": "auto.Pilot hands out its Text entries in order, then Enter for ever, so that ReadLine on a Pilot always returns.", "quantifier": "every script", "why_tests_cant": "all scripts", "anchors": ["auto/main.go", "main.go: ReadLine"]}
{"id": "C42", "title": "A new ReadLine starts fresh", "statement": "Each ReadLine begins with the line Default, the cursor at min(Editor.Cursor,len), an empty undo-able history of just that insertion, no pending input, no history edits, and positioned after the newest history entry, independent of earlier ReadLine calls.", "quantifier": "every editor state left by earlier calls", "why_tests_cant": "histories of calls", "anchors": ["main.go: ReadLine"]}
{"id": "C43", "title": "Joined characters typed piecewise equal the pasted character", "statement": "Typing the code points of a joined character (zero-width-joiner, variation-selector or modifier sequence) one key at a time at any cursor position gives the same line as inserting the whole string at once, and no typed character is lost.", "quantifier": "every base character and every sequence of joiners/selectors", "why_tests_cant": "all sequences", "anchors": ["gommand.go: SelfInserter.Call", "internal/moji/moji.go"]}
{"id": "C44", "title": "Tab stops and control display", "statement": "Each unit's PrintTo output occupies exactly Width() columns: ^X for control characters, <HEX> for escaped ones, spaces up to the next multiple of four for tabs.", "quantifier": "every unit", "why_tests_cant": "all runes and positions", "anchors": ["internal/moji/codepoint.go", "internal/moji/moji.go", "internal/moji/width.go: lenEscaped"]}
{"id": "C45", "title": "Yank with quotes", "statement": "YANK_WITH_QUOTE inserts the clipboard text unchanged if it has no space or already begins with a double quote, and otherwise wrapped in double quotes with inner quotes doubled so that un-quoting gives the text back, and with every CR LF outside the quotes.", "quantifier": "every clipboard text", "why_tests_cant": "all strings", "anchors": ["gommand.go: cmdYankWithQuote"]}
{"id": "C46", "title": "Blank characters separate words", "statement": "Every character that unicode.IsSpace accepts separates words for word movement, word rubout and CurrentWord.", "quantifier": "every blank character", "why_tests_cant": "all characters", "anchors": ["internal/moji/codepoint.go: IsSpaceMoji, MojiToRune", "buffer.go: CurrentWordTop"]}
{"id": "C47", "title": "Quoted insert is literal", "statement": "QUOTED_INSERT inserts the next key itself even if it is bound to a command (for a two-byte ESC+x key, x), and changes nothing else; on a read error nothing changes.", "quantifier": "every key and state", "why_tests_cant": "all keys", "anchors": ["gommand.go: cmdQuotedInsert, SelfInserter.Call"]}
{"id": "C48", "title": "Closing the tty10 terminal", "statement": "Closing a tty10 terminal stops its size-polling goroutine without deadlock whatever that goroutine is doing, and closing again is harmless.", "quantifier": "every interleaving of ticker, resize callback and Close", "why_tests_cant": "schedules", "anchors": ["tty10/main.go: Open, Close"]}
{"id": "C49", "title": "Nothing painted is held back", "statement": "Whenever ReadLine starts to wait for a key, everything it has written so far has been flushed to the terminal.", "quantifier": "every session and every wait", "why_tests_cant": "ranges over all event sequences", "anchors": ["buffer.go: GetKey", "main.go: ReadLine, onResize", "repaints.go: RepaintLastLine"]}
{"id": "C50", "title": "Command names mean what they say", "statement": "A command obtained with GetFunc by a registered name, in any spelling (case, - for _), does what its documentation says (BACKWARD_CHAR moves one character back, KILL_LINE removes the text from the cursor on, ...); a key that the application binds to it does in every state exactly what the command's default keys do; other names give an error and other keys have no command by default", "quantifier": "every name and spelling, every state of the line, every key binding", "why_tests_cant": "ranges over all lines, cursors and spellings; a test checks single cases of the table", "anchors": ["gommand.go: NewGoCommand, NameToFunc", "nameutils/main.go: GetFunc", "keymap.go: GlobalKeyMap"]}
{"id": "C51", "title": "The outcome does not depend on the display", "statement": "With prediction off, two ReadLines that get the same keys, default text, history and clipboard show the same line, cursor and search state at every wait and return the same text and error, whatever the terminal widths, the moments of resizes, the prompts, the colourings and the character widths are (as long as neither crashes).", "quantifier": "every pair of editors that differ only in the display, every pair of event sequences equal up to resizes", "why_tests_cant": "relates two arbitrary executions", "anchors": ["main.go: ReadLine", "gommand.go", "repaints.go", "internal/moji/width.go"]}
{"id": "C52", "title": "One UNDO takes back a replacement or a completion", "statement": "After ReplaceAndRepaint over a word that is not empty, and after a completion command that changed the line, one UNDO brings back the line, the cursor and the older undo history as they were; nothing else changes.", "quantifier": "every editor whose user commands use the public methods, every reachable state with a line of ordinary units, every position, word, replacement text, completion and candidate list", "why_tests_cant": "the delete and the insert are two records that have to be merged into one, for every line and every older history of records", "anchors": ["buffer.go: joinUndo, Delete, InsertString", "repaints.go: ReplaceAndRepaint", "completion/main.go: complete, CmdCompletion.Call, CmdCompletionOrList.Call", "gommand.go: cmdUndo"]}
{"id": "C53", "title": "User commands written with the public methods keep the editor going", "statement": "A user command may look at the whole buffer and call the exported methods in any order. If its positions lie inside the line, and it puts cursor and view in place before it draws, runs another command or returns, no later key of the session crashes, and cursor and view stay inside the line.", "quantifier": "every editor with any number of such commands, every sequence of calls, every session of keys, resizes, clipboard changes and read errors with text without tabs and joiners, every width larger than the prompt by more than 11", "why_tests_cant": "commands compose: a crash can surface many keys after the command that caused it", "anchors": ["keymap.go: AnonymousCommand.Call", "gommand.go: GoCommand.Call", "buffer.go: InsertString, Delete, ResetViewStart", "repaints.go: InsertAndRepaint, ReplaceAndRepaint, DrawFromHead, RepaintAfterPrompt, RepaintAll, RepaintLastLine, GotoHead", "examples/example4.go: cmdStartEditor"]}
{"id": "C54", "title": "Lines of earlier calls can be recalled", "statement": "A program calls ReadLine again and again and adds each returned line to a simplehistory.Container that is the editor's History. In a later call, after any editing that does not browse, k presses of PREVIOUS_HISTORY show the line returned k calls ago with the cursor at its end, and Enter returns it again byte for byte; any mixture of PREVIOUS_HISTORY and NEXT_HISTORY leads to the position it should and shows the entry there, or, at the end, the line that was being typed.", "quantifier": "every number of calls, everything done in each of them, every editing before browsing and every sequence of browsing keys, with and without cycling", "why_tests_cant": "ranges over all sequences of calls and keys", "anchors": ["simplehistory/main.go: Container", "examples/example3.go", "history.go: cmdPreviousHistory, cmdNextHistory, saveModifiedHistory, getHistory"]}
{"id": "C55", "title": "Lines from the terminal arrive whole and in order", "statement": "When a program calls ReadLine again and again, lines of printable characters that are typed, pasted or typed ahead on the terminal (in raw mode, see C62), each ended by Enter, are returned one per call, unchanged and in order, and no key is lost between two calls: with the default terminal however the input comes in bursts, with the tty10 terminal when reads end between characters, and with the auto.Pilot. When reading the terminal fails, the lines already given by it have been returned and the call that was under way returns the error and no text.", "quantifier": "every list of lines of printable characters, every division into bursts or reads, every history and number of calls", "why_tests_cant": "ranges over all texts and all ways the operating system may divide them", "anchors": ["main.go: ReadLine", "getkey.go: GetRawKey, GetKeys", "tty8.go: GetKey", "tty10/main.go: GetKey, getKey", "auto/main.go: Pilot", "examples/example3.go"]}
{"id": "C56", "title": "ReadLine leaves the terminal tidy", "statement": "Whenever ReadLine waits for a key, and when it returns with a line or an error, the text cursor is switched on, the colour is the default one of the colouring and the look of predictions is switched off, whatever was edited, searched, predicted, resized or failed before; the line feed writer is called exactly once, at the return and with the result, and not at all when reading a key failed.", "quantifier": "every history of keys, resizes, clipboard changes and read errors, every colouring, prediction colour, prompt and width", "why_tests_cant": "depends on every order of hiding and showing the cursor, of colour changes and of early returns", "anchors": ["main.go: ReadLine", "repaints.go: repaintWithoutUpdateSuffix", "buffer.go: puts", "isearch.go: cmdISearchBackward", "gommand.go: cmdQuotedInsert"]}
{"id": "C57", "title": "Changing or failing prompts do not change the outcome", "statement": "The prompt writer may write a different text each time it is called (a clock, a state), and writing to the terminal may fail: without predictions the line, the cursor, the clipboard and the returned value are the same as with a prompt that never changes, and ReadLine does not crash while every prompt leaves room for editing.", "quantifier": "every sequence of prompts, failures of the first write, keys, resizes and clipboard changes", "why_tests_cant": "ranges over all moments at which the prompt is written again and all widths it can have", "anchors": ["main.go: ReadLine, callPromptWriter", "repaints.go: RepaintAll, RepaintLastLine", "gommand.go: cmdClearScreen, cmdRepaintOnNewline"]}
{"id": "C58", "title": "The bytes written show the line on an ordinary terminal", "statement": "After every key, resize, clipboard change or read error, the bytes ReadLine has written so far, given to a terminal that understands UTF-8, CSI G, K, m, s, u, ?25h and ?25l, ESC 7 and ESC 8, leave on the row after the prompt exactly the characters of the visible part of the line, which goes on to the line's end unless the row is used up (control characters as ^A, unprintable ones in hexadecimal, ambiguous ones in two columns), perhaps followed by the beginning of the prediction, and nothing else; the terminal's cursor is visible and stands at the unit the editor's cursor is on; in the incremental search the row shows the search line. This does not depend on what was on the screen before, on what the terminal does with half overwritten characters or with other sequences.", "quantifier": "every terminal of this kind that counts columns as the program does, every initial state of it, every prompt and colouring, every session of single-character text without tabs on a wide enough terminal", "why_tests_cant": "ranges over all sessions and all terminals; a screen dump shows one", "anchors": ["repaints.go: repaintWithoutUpdateSuffix, GotoHead", "buffer.go: puts, eraseline, ReplaceAndRepaint", "internal/moji: PrintTo", "color.go: WriteTo", "isearch.go: cmdISearchBackward", "main.go: ReadLine"]}
{"id": "C59", "title": "User commands that read keys", "statement": "A user command may read further keys with GetKey, any number of them, and keep local variables between them; resizes wait meanwhile and the clipboard may change. If the command is careful (C53) between the keys, whatever it reads and also when reading fails, no key of the session crashes and cursor and view are in place whenever no command waits; everything written is on the terminal while it waits. QUOTED_INSERT is such a command: written by a user it gives the same sessions, to the last byte written.", "quantifier": "every editor with any number of such commands and any local state, every sequence of keys, read errors, resizes and clipboard changes", "why_tests_cant": "a command is suspended at every key and resumed with any other key; ranges over all programs, places and keys", "anchors": ["buffer.go: GetKey", "keymap.go: BindKey", "gommand.go: GoCommand.Call, cmdQuotedInsert", "main.go: ReadLine"]}
{"id": "C60", "title": "Settings that change during ReadLine", "statement": "While ReadLine waits, the application may bind keys, change colours and the prediction, set character widths (SetCharWidth) and add lines to the history. Nothing crashes, cursor and view stay inside the line, and, without predictions, changes of the display alone (widths, colouring, prompt) do not change the line, the cursor, the clipboard or the returned value.", "quantifier": "every sequence of keys, resizes, clipboard changes and read errors, each with its own settings", "why_tests_cant": "ranges over all histories of settings and keys; tests set the settings once", "anchors": ["main.go: ReadLine", "buffer.go: SetCharWidth", "keymap.go: BindKey, Lookup", "history.go: getHistory, saveModifiedHistory", "isearch.go: cmdISearchBackward"]}
{"id": "C61", "title": "Key names name the keys of the keyboard", "statement": "A command bound to a key by its name (BindKeyFunc), in any spelling, runs when the user presses that key on an xterm: what the terminal sends is read as one key and looked up as the named key, and the other keys keep their commands; without bindings the keys known from Emacs and PC keyboards (Ctrl-A, the arrows, Home, Delete, ...) run the commands they are known for.", "quantifier": "every key of the keyboard, every spelling, every command and every key map", "why_tests_cant": "ranges over all key maps, keys and spellings", "anchors": ["keys/code.go", "keys/naming.go: NameToCode", "nameutils/main.go: BindKeyFunc", "tty8.go: GetKey", "tty10/main.go: GetKey", "keymap.go: GlobalKeyMap"]}
{"id": "C62", "title": "Keys typed ahead arrive as they were typed", "statement": "What the user types while the program is busy - between two GetKey calls or between two ReadLines - is handed to the line editor later, unchanged and in order, so that a line typed ahead with its Enter is returned; each GetKey leaves the terminal in the mode it had.", "quantifier": "every interleaving of the user's typing with the program's steps, every number of bytes a read returns, every failing read", "why_tests_cant": "ranges over all interleavings of typing and system calls", "anchors": ["tty10/main.go: GetKey, getKey", "tty8.go: Open, Close", "main.go: ReadLine", "keymap.go: GlobalKeyMap"]}
{"id": "C63", "title": "One editor for many ReadLines", "statement": "An Editor can be used for any number of ReadLines, one after another or from inside a command, and also after a panic the application has recovered from: each works as on an Editor of its own.", "quantifier": "every sequence of calls, whatever happens in each of them", "why_tests_cant": "ranges over all sequences of calls and over all points at which a command can panic", "anchors": ["main.go: Editor, ReadLine"]}
{"id": "C64", "title": "The terminal found out from the environment is safe to type on", "statement": "The environment variables decide which sequences of code points are edited as one character. On a terminal that is not one of Windows Terminal, WezTerm and Contour every code point is a character of its own, characters beyond U+FFFF show as their number, no character takes more columns than its number needs, and no session crashes, whatever bytes are typed, pasted, predicted or in the history; on the known ones joined sequences are one character.", "quantifier": "every environment, every table of character widths and kinds, every session of keys, resizes, clipboard changes and read errors", "why_tests_cant": "ranges over all environments and over all text, valid or not", "anchors": ["internal/moji/termcheck.go", "internal/moji/orgxwidth.go: newRuneWidth", "internal/moji/codepoint.go: rune2moji", "internal/moji/moji.go: StringToMoji, GetZWJSWidth", "main.go: ReadLine"]}
{"id": "C65", "title": "The settings of the terminal are put back", "statement": "However ReadLine ends - with a line, Ctrl-C, end of file, an error of the terminal or a panic that passes through it - the settings of the terminal (raw mode, console mode) are those from before the call, so that what the program or the shell does next works as before; also after any number of ReadLines.", "quantifier": "every sequence of calls, every terminal of the module, every way and moment in which a call can end, every user command made of public calls", "why_tests_cant": "ranges over all points at which a call can end, and over what the operating system answers", "anchors": ["main.go: Editor.ReadLine", "tty8.go: _Tty.Open, _Tty.Close", "tty10/main.go: Tty.Open, Tty.getKey, Tty.Close", "tty10/main_windows.go: enable", "getkey.go: GetKeys"]}
{"id": "C66", "title": "Fields of Editor left unset get working defaults", "statement": "ReadLine works on an Editor of which any fields are left unset, in any combination: fields that are set are used as they are, the others as documented (standard output, the default terminal, no history, one colour, predictions from the history), calling it again changes nothing more, and what ReadLine writes goes to the Writer that was set last.", "quantifier": "every combination of set and unset fields, every session, every order of setting Writer and Out and calling Init and ReadLine", "why_tests_cant": "ranges over all combinations of fields and all sequences of assignments and calls", "anchors": ["main.go: Editor, Init, ReadLine", "README.md"]}
{"id": "C67", "title": "The example programs do what they say", "statement": "The tiny shell of the examples runs each entered line as the words of the line, records exactly the lines it has run, ignores lines without words and stops at the first error; the predictor of example160 continues the line as the newest history line that begins with it, blanks at the ends aside, and accepting its prediction gives that line.", "quantifier": "every sequence of calls with everything done in them, every text in UTF-8 or not, every history", "why_tests_cant": "ranges over all texts with all kinds of blanks, all histories and sequences of calls", "anchors": ["examples/example2.go", "examples/example160.go: predictByHistory", "simplehistory/main.go: Container"]}
{"id": "C68", "title": "The colours on the screen are those of the line as it is now", "statement": "After every key, resize, clipboard change or read error, every character of the line that can be seen on the row stands in the colour the Coloring gives it for the line and cursor as they are now (also when a character typed, deleted, transposed, undone or recalled somewhere else in the line has changed its colour), and the prediction stands in PredictColor.", "quantifier": "every Coloring, every session of keys, resizes, clipboard changes and read errors, every prompt, width and terminal, whatever was on the screen before", "why_tests_cant": "some commands repaint only a part of the row: ranges over all sequences of commands and all colourings", "anchors": ["color.go: Coloring", "buffer.go: RefreshColor, puts", "repaints.go: repaintWithoutUpdateSuffix", "gommand.go: cmdForwardChar, cmdEndOfLine, cmdSwapChar, cmdKillLine, keyFuncInsertSelf", "coloring/vimbatch.go"]}
{"id": "C69", "title": "The colours of the bytes on an ordinary terminal", "statement": "After every key, resize, clipboard change or read error, the bytes ReadLine has written so far, given to a terminal as in C58 that also keeps the colour codes (CSI m), show every visible character of the line written with the codes of the colour the Coloring gives it for the line and cursor as they are now; with the colouring that comes with the library these are the codes of its table (C40). The prediction was written after PredictColor. This does not depend on the colours set before, by the prompt or by other programs.", "quantifier": "every terminal of this kind that counts columns as the program does, every initial state of it, every prompt and Coloring, every session", "why_tests_cant": "ranges over all sessions, colourings and terminals; some commands write only a part of the row", "anchors": ["color.go: Coloring, ColorSequence.WriteTo", "buffer.go: RefreshColor, puts", "repaints.go: repaintWithoutUpdateSuffix", "gommand.go: cmdForwardChar, keyFuncInsertSelf", "coloring/vimbatch.go"]}
{"id": "C70", "title": "Typing while the window is resized", "statement": "While a line of printable characters that stand alone is typed and the window changes its size at any moments, in every order in which the two goroutines of ReadLine can run (from the first wait for a key on, sizes leaving at least twelve columns beside the prompt): nothing crashes; whenever ReadLine waits for a key, the line is what has been typed so far with the cursor at its end, and the bytes written so far show it on an ordinary terminal as in C58, after the prompt (C73), with the colouring of the library in its colours (C69), and with predictions switched on followed by the prediction for it, as far as that fits (C78); and after Enter exactly the typed line is returned.", "quantifier": "every line, every sequence of sizes, every interleaving of typing, command steps and resize callbacks, every division of both into atomic steps, every width, history, prediction, colouring and terminal", "why_tests_cant": "the interleavings cannot be enumerated and a race shows only in rare ones; a test has one schedule and one terminal", "anchors": ["main.go: ReadLine, onResize", "tty8.go: Tty", "repaints.go: RepaintLastLine, repaint", "buffer.go: GetKey, puts"]}
{"id": "C71", "title": "What a key makes ReadLine write is bounded by the width of the terminal", "statement": "However long the line, the history, the clipboard and the prediction are, one key, resize, clipboard change or read error writes at most a few rows' worth of characters (five times the columns of the row), and beside them at most one colour change per character and seventeen other sequences; starting with a default text writes at most three rows' worth. So a long line or a large paste does not slow down typing over a slow connection.", "quantifier": "every session of keys, resizes, clipboard changes and read errors, every line, history, clipboard, prediction, prompt and colouring, every width", "why_tests_cant": "ranges over all lengths of line, history and paste; a test has one line and does not count", "anchors": ["buffer.go: puts, ResetViewStart, GetViewWidth", "repaints.go: repaint, repaintWithoutUpdateSuffix", "gommand.go: cmdForwardChar, cmdKillLine, cmdYank, keyFuncInsertSelf", "main.go: ReadLine"]}
{"id": "C72", "title": "ReadLine is a line editor one could run on paper", "statement": "There is a small editor on paper - a text of code points cut in two at the cursor, a clipboard, the history with the edits made to its lines, the texts UNDO goes back to, the state of the incremental search - that knows nothing of terminals, widths, colours, prompts or scrolling, and whatever the keys, read errors, changes of the clipboard and resizes of the window, ReadLine has the text, the cursor, the clipboard, the search text and the entry found, and returns the text and the error, that the editor on paper has and returns for the same events.  (No prediction; no code point that joins its neighbour, which with joining switched off is every text; commands that are built in.)", "quantifier": "every default text and place of the cursor, clipboard, history, key binding to built-in commands, sequence of keys, read errors, clipboard changes and resizes; every width function, colouring, prompt and width of the terminal", "why_tests_cant": "one statement that fixes the meaning of all commands together over whole sessions of any length; unit tests look at single commands from a few states", "anchors": ["main.go: ReadLine", "gommand.go", "history.go", "isearch.go", "buffer.go: InsertString, Delete", "repaints.go: ReplaceAndRepaint"]}
{"id": "C73", "title": "The prompt stays on the screen", "statement": "While ReadLine waits for a key the row of an ordinary terminal begins with the last line of the prompt, and the line that is edited begins right after it, whatever was typed, deleted, searched, predicted, cleared or repainted before and whatever the sizes the window had; prompts of several lines are shown with their last line after a resize as at first.  (Prompts of printable characters, colour sequences, titles and line breaks; a terminal wide enough for the prompt and at least three columns.)", "quantifier": "every such prompt, every sequence of keys, read errors, clipboard changes and resizes on text without joined characters; every terminal that reads UTF-8, CSI G, K, m, CR and LF, whatever it does with half characters and other sequences", "why_tests_cant": "everything that was painted since must have stayed to the right of the prompt, over histories of any length; a test sees one screen", "anchors": ["main.go: callPromptWriter, ReadLine", "repaints.go: RepaintAll, RepaintLastLine", "buffer.go: GotoHead", "gommand.go: CmdClearScreen, CmdRepaintOnNewline"]}
{"id": "C74", "title": "Text does not control the terminal", "statement": "Nothing that is typed, pasted, in the history, predicted, searched for, given as the default or put in by a user command can send the terminal a control character: what the terminal is sent consists of the editor's own sequences, the texts of the settings (prompt, prediction colours, line feed) and printable characters; control characters of the text are shown as ^A or <9B>.", "quantifier": "every text and every sequence of keys, read errors, clipboard changes and resizes, every history, predictor, colouring, prompt and keymap whose user commands do not write to the terminal themselves", "why_tests_cant": "a test shows that one hostile text is escaped; that no text gets through must hold of every text, wherever it comes from and however it is edited", "anchors": ["internal/moji/moji.go: StringToMoji, _ZeroWidthJoinSequence.PrintTo, _VariationSequence.PrintTo", "internal/moji/codepoint.go: rune2moji, _CtrlCodePoint.PrintTo, _EscCodePoint.PrintTo", "buffer.go: puts", "repaints.go: repaintWithoutUpdateSuffix", "isearch.go: cmdISearchBackward"]}
{"id": "C75", "title": "No character comes from nowhere", "statement": "Every character of the text ReadLine returns, of the line whenever it waits for a key, and of the clipboard it leaves was supplied to it: it was in the default text, the history, the clipboard, a prediction, the text a user command put in, or a key that inserts itself (or follows QUOTED_INSERT). YANK_WITH_QUOTE adds double quotes. The one exception is joining: on a terminal that joins characters a text with U+200C or U+200D in it is written with U+200D, and one that ends with it is given U+FFFD; keys that are not UTF-8 may then join to other characters. Keys that are bound to other commands leave nothing in the line.", "quantifier": "any set of characters; any default text, cursor, width, clipboard, history, key bindings, settings, user commands, predictor, keys, resizes and schedule", "why_tests_cant": "Undo, kill and yank, history, predictions, incremental search and joined characters all move text through different buffers; a stray byte needs one order of keys out of all, and tests look at chosen texts.", "anchors": ["main.go: Editor.ReadLine", "main.go: Editor.LookupCommand", "gommand.go: CmdYank, CmdYankWithQuote, CmdKillLine, CmdUndo, SelfInserter.Call", "buffer.go: Buffer.InsertString, Buffer.Delete", "internal/moji/moji.go: StringToMoji", "isearch.go: CmdISearchBackward", "history.go: CmdPreviousHistory"]}
{"id": "C76", "title": "Opposite keys take each other back", "statement": "Typing any characters and then as many BACKSPACEs leaves the line, the cursor, the clipboard and the history as they were; so do n steps to the right and n to the left (or left and right) inside the line; DELETE and the deleted character typed again give the same line. A character that attaches to the one before it is not a character of its own and BACKSPACE takes both.", "quantifier": "any state, settings and bindings; any list of characters of any length, any number of steps; keys that insert themselves and do not begin with a code point that attaches (those are the exception named)", "why_tests_cant": "The statement is about every line, every cursor position and every sequence typed in between; the tests type a few fixed characters.", "anchors": ["gommand.go: CmdBackwardDeleteChar, CmdForwardChar, CmdBackwardChar, CmdDeleteChar, SelfInserter.Call", "buffer.go: Buffer.InsertString, Buffer.Delete"]}
{"id": "C77", "title": "Two ways to the same line", "statement": "HOME is LEFT pressed to the beginning and END is RIGHT pressed to the end; KILL_LINE is DELETE to the end and UNIX_LINE_DISCARD is BACKSPACE to the beginning; DELETE is RIGHT and BACKSPACE, BACKSPACE is LEFT and DELETE; killing the whole line is going to the beginning and killing, or going to the end and discarding: line, cursor and history are the same either way, and the clipboard is the same where both ways kill the same text. HOME, END and KILL_WHOLE_LINE pressed twice do what one does, and so do KILL_LINE and UNIX_LINE_DISCARD, which should leave the killed text in the clipboard.", "quantifier": "every state with the cursor inside the line, every text (joined characters and tabs included), all settings and bindings, every width", "why_tests_cant": "The equalities are about every line and cursor position; tests look at a few fixed lines and at one command at a time.", "anchors": ["gommand.go: CmdBeginningOfLine, CmdEndOfLine, CmdForwardChar, CmdBackwardChar, CmdDeleteChar, CmdBackwardDeleteChar, CmdKillLine, CmdUnixLineDiscard, CmdKillWholeLine"]}
{"id": "C78", "title": "The prediction is shown", "statement": "When PredictColor is set and the cursor is at the end of a line that is not empty, the row shows after the line what the Predictor gives for the line as it is now - all of it, or as many characters as fit before the last three columns, in order and cut at the first that does not fit - as soon as ReadLine waits for the first key, and again after every key that types a character, deletes to the left or at the cursor, pastes, undoes, takes over the prediction, clears the screen or accepts a search, and after every resize.", "quantifier": "every history, Predictor, default text, terminal width and sequence of events; any terminal contents before", "why_tests_cant": "a test looks at one line, one prediction and one width; the claim is for every line after every history of edits, and for predictions of any length against any width", "anchors": ["buffer.go: updateSuffix, Suffix", "repaints.go: repaint, repaintWithoutUpdateSuffix", "gommand.go: cmdForwardChar"]}
{"id": "C79", "title": "What ReadLine leaves on the row", "statement": "When a key ends ReadLine, the row just before the line feed shows: after Enter the line that is returned, as far as it is visible, without the prediction, whatever was predicted; at the end of input (Ctrl-D on an empty line) nothing after the prompt; after Ctrl-C, for which the empty text is returned, the line as it was or, if a prediction had been asked for, nothing. After the line feed (or what the LineFeedWriter, which is told how ReadLine ended, writes instead) nothing but making the cursor visible is sent.", "quantifier": "every history of keys, read errors, resizes and clipboard changes before the key, every prompt, prediction, width and previous content of the screen", "why_tests_cant": "a test ends one session on one terminal; the claim is about the last paint after every history, with the prediction and the scroll position it happens to have", "anchors": ["main.go: ReadLine", "repaints.go: repaintWithoutUpdateSuffix", "gommand.go: cmdAcceptLine, cmdInterrupt, cmdDeleteOrAbort"]}
{"id": "C80", "title": "With predictions ReadLine is a line editor on paper with a slip beside it", "statement": "Take the editor on paper of C72 and lay a slip beside it that holds what the Predictor said when it was last asked (nothing, if the line was empty). The Predictor is asked, about the line and the cursor as they then are: when ReadLine begins and when the window changes; by self-insertion and quoted keys, DELETE_CHAR, DELETE_OR_ABORT, UNIX_WORD_RUBOUT, UNIX_LINE_DISCARD, BEGINNING_OF_LINE, BACKWARD_WORD, CLEAR_SCREEN and REPAINT_ON_NEWLINE; by BACKWARD_CHAR and BACKWARD_DELETE_CHAR if there is something before the cursor; by the YANKs if the clipboard can be read, by UNDO if there is something to undo, by FORWARD_CHAR if it takes over a prediction, by FORWARD_WORD if it makes the line scroll, and by Enter in a search. No other built-in command asks it (KILL_LINE, KILL_WHOLE_LINE, SWAPCHAR, END_OF_LINE, the history), so the slip may be about an earlier line. FORWARD_CHAR at the end of the line inserts what is on the slip, and nothing else uses it. Whatever the events, unless it crashes (C04), ReadLine has the text, the cursor, the clipboard and the search, has ready to take over, and returns, what this editor on paper does.", "quantifier": "every Predictor that is a function of the text and the cursor, default text, history, clipboard, key binding to built-in commands, sequence of keys, read errors, clipboard changes and resizes that does not crash; any terminal width, prompt, colouring; no code point that joins its neighbour (with joining switched off: every text)", "why_tests_cant": "what FORWARD_CHAR inserts depends on which of the keys before it asked the Predictor, and about which line; tests try one key after one line", "anchors": ["gommand.go: cmdForwardChar, cmdForwardWord, cmdKillLine, cmdEndOfLine", "buffer.go: updateSuffix", "repaints.go: repaint, ReplaceAndRepaint", "isearch.go: cmdISearchBackward", "main.go: ReadLine, PredictColor, Predictor"]}
