{
 "claims": [
  {
   "property": "C01",
   "status": "partial",
   "theorems": [
    "C01_roundtrip_valid_partial",
    "C01_roundtrip_bytes_partial",
    "C01_sanitized_unique",
    "C01_changes_only_joiners",
    "C01_resplit",
    "C01_roundtrip_refuted"
   ],
   "note": "Re-splitting and the exact change are proved without condition. The round trip is proved when joiners are off or the text has no U+200C and no final joiner; outside that it is refuted with a witness."
  },
  {
   "property": "C02",
   "status": "proved",
   "theorems": [
    "C02_insert",
    "C02_insert_panic",
    "C02_delete",
    "C02_delete_nothing",
    "C02_delete_panic"
   ],
   "note": "Exact results of InsertString and Delete for every position and count."
  },
  {
   "property": "C03",
   "status": "partial",
   "theorems": [
    "C03_any_partial",
    "C03_typed_partial",
    "C03_returned_partial",
    "C03_no_default_partial",
    "C03_returns_partial",
    "C03_refuted"
   ],
   "note": "Proved for every configuration for keys that are unbound, valid UTF-8, not ESC plus one byte and not beginning with a joining code point (C43 covers those); on simple text and a wide terminal ReadLine is shown to return. C03_any_partial gives the returned text for unbound keys of any bytes (ESC plus one byte stands for that byte, bytes that are not UTF-8 become U+FFFD, joiners change as in C01). Refuted for a key that is not valid UTF-8 and for ESC plus one byte."
  },
  {
   "property": "C04",
   "status": "partial",
   "theorems": [
    "C04_exact_partial",
    "C04_exact_room_partial",
    "C04_swap_inside_partial",
    "C04_no_crash_simple_partial",
    "C04_no_crash_guarded_partial",
    "C04_narrow_refuted",
    "C04_swap_undo_refuted",
    "C04_joiner_undo_refuted",
    "C04_tab_refuted",
    "C04_cursor_refuted",
    "C04_exact_prediction_partial",
    "C04_no_crash_tabs_partial",
    "C04_only_undo_partial",
    "C04_without_undo_partial",
    "C04_only_undo_room_partial"
   ],
   "note": "Proved for all event sequences over tab-free, joiner-free text by conditions on events alone, for text with tabs and with SWAPCHAR inside the line as long as no line is longer than 800 characters at a wait, and for all text under a condition on the lines of the run. Without predictions and joined characters the crashes are characterised exactly (C04_exact_partial, C04_exact_room_partial): ReadLine crashes if and only if UNDO is pressed for a change that lies beyond the end of the text, which only SWAPCHAR at the end of the text leaves behind (C04_swap_inside_partial). With predictions, tabs, joined characters and SWAPCHAR anywhere, on terminals wide enough, nothing but a key that runs UNDO crashes, and without such keys nothing does (C04_only_undo_partial, C04_without_undo_partial, C04_only_undo_room_partial). With predictions and simple text on terminals wide enough the crashes are again exactly the UNDOs that do not fit on paper (C04_exact_prediction_partial). The crashes outside these conditions are exhibited: a terminal too narrow for the prompt, UNDO after swapping at the end of the line, UNDO of an insertion whose units were since joined, a tab beyond column 32767 (16-bit positions), and a negative Editor.Cursor."
  },
  {
   "property": "C05",
   "status": "partial",
   "theorems": [
    "C05_undo_partial",
    "C05_joiner_refuted",
    "C05_yank_refuted",
    "C05_swap_refuted",
    "C05_clean_refuted"
   ],
   "note": "Proved for every reachable state and every editing command that changes the line, with four real exceptions, each refuted separately: keys that attach to the previous character (two undo records), a paste right where text was just deleted (joined into one record), SWAPCHAR at the end of the line (UNDO crashes), lines with a unit that begins with a joining code point."
  },
  {
   "property": "C06",
   "status": "partial",
   "theorems": [
    "C06_trail_partial",
    "C06_steps_partial",
    "C06_unwinds_partial",
    "C06_refuted"
   ],
   "note": "Trail theorem (every UNDO restores an earlier line of the session, in reverse order, ending with the empty line) for all sessions without history browsing and attaching keys, SWAPCHAR inside the line included. C06_steps_partial is the same for every key: the trail may then also stop halfway through an edit in two steps (the empty line of a history browsing, the line without the unit an attaching key was to join). SWAPCHAR at the end of the line is excluded (its record is wrong, C05_swap_refuted). Unwinding theorem: UNDO never fails and ends at the empty line. Refuted for history browsing: it makes two undo records."
  },
  {
   "property": "C07",
   "status": "proved",
   "theorems": [
    "C07_moves",
    "C07_resize"
   ],
   "note": "All listed commands and resizes."
  },
  {
   "property": "C08",
   "status": "proved",
   "theorems": [
    "C08_backward_char",
    "C08_backward_char_start",
    "C08_forward_char",
    "C08_forward_char_end",
    "C08_beginning_of_line",
    "C08_end_of_line",
    "C08_backward_word",
    "C08_forward_word"
   ],
   "note": "Every listed command, for every line and cursor."
  },
  {
   "property": "C09",
   "status": "proved",
   "theorems": [
    "C09_backward_delete",
    "C09_backward_delete_start",
    "C09_delete_char",
    "C09_delete_char_end",
    "C09_kill_line",
    "C09_line_discard",
    "C09_kill_whole_line"
   ],
   "note": "Every listed command. The cursor stays between the same neighbours; clipboard, history state and pending input are as stated."
  },
  {
   "property": "C10",
   "status": "proved",
   "theorems": [
    "C10_enter",
    "C10_ctrl_c",
    "C10_ctrl_d_empty",
    "C10_ctrl_d_text",
    "C10_key_error",
    "C10_nothing_else",
    "C10_default",
    "C10_default_keys"
   ],
   "note": "Each way of ending, and that nothing else ends it, for any key map of built-in commands and for the default keys in particular."
  },
  {
   "property": "C11",
   "status": "partial",
   "theorems": [
    "C11_yank",
    "C11_kill_yank_partial",
    "C11_refuted"
   ],
   "note": "What is copied and what yank inserts is exact. The line is restored unless the text ends in CR, LF or NUL (refuted there) or a unit begins with a joining code point."
  },
  {
   "property": "C12",
   "status": "proved",
   "theorems": [
    "C12_swap",
    "C12_swap_end",
    "C12_swap_none"
   ],
   "note": "All three cases."
  },
  {
   "property": "C13",
   "status": "partial",
   "theorems": [
    "C13_general",
    "C13_rubout_partial",
    "C13_refuted"
   ],
   "note": "The exact effect is proved for every line; the claim itself when no composite unit or tab is before the cursor; refuted for a joined character at the start of the word, which stays."
  },
  {
   "property": "C14",
   "status": "partial",
   "theorems": [
    "C14_general",
    "C14_word_partial",
    "C14_refuted"
   ],
   "note": "The exact result is proved for every line; the claim itself when no composite unit or tab is before the cursor; refuted for a joined character at the start of a word."
  },
  {
   "property": "C15",
   "status": "proved",
   "theorems": [
    "C15_previous",
    "C15_next",
    "C15_oldest",
    "C15_newest",
    "C15_wrap"
   ],
   "note": "Every pointer position; the wrap of HistoryCycling included."
  },
  {
   "property": "C16",
   "status": "partial",
   "theorems": [
    "C16_come_back_partial",
    "C16_come_back_text_partial",
    "C16_refuted"
   ],
   "note": "Coming back shows the line that was left, for every sequence in between; the two situations in which the code forgets an edit are excluded by guards and refuted."
  },
  {
   "property": "C17",
   "status": "proved",
   "theorems": [
    "C17_pointer",
    "C17_save",
    "C17_get",
    "C17_search"
   ],
   "note": ""
  },
  {
   "property": "C18",
   "status": "proved",
   "theorems": [
    "C18_typed",
    "C18_backspace",
    "C18_ctrl_r",
    "C18_ctrl_s",
    "C18_enter",
    "C18_ignored",
    "C18_begin",
    "C18_first_ctrl_r"
   ],
   "note": "Every change of the search text, Ctrl-R, Ctrl-S and Enter; the first Ctrl-R of a search starts below the newest entry, which C18_first_ctrl_r records."
  },
  {
   "property": "C19",
   "status": "proved",
   "theorems": [
    "C19_cancel",
    "C19_during",
    "C19_ends"
   ],
   "note": "Any sequence of search keys and resizes, ended by any of the cancelling keys or a read error. Termination of each search key is C17_search."
  },
  {
   "property": "C20",
   "status": "partial",
   "theorems": [
    "C20_by_history",
    "C20_current_partial",
    "C20_accept_partial",
    "C20_off",
    "C20_refuted"
   ],
   "note": "The history predictor is exact. The held prediction is current unless the last line-changing commands were among those that do not ask the predictor again (refuted there)."
  },
  {
   "property": "C21",
   "status": "proved",
   "theorems": [
    "C21_add",
    "C21_chain",
    "C21_sgr",
    "C21_constants",
    "C21_refuted"
   ],
   "note": "Proved for every list that fits: at most seven codes 0..255, the seventh below 128 (the word is 64 bits wide), for Add, Chain, SGR1..SGR4 and the predefined colours. C21_refuted shows that the bound is needed: longer lists lose codes."
  },
  {
   "property": "C22",
   "status": "partial",
   "theorems": [
    "C22_unit",
    "C22_color_partial",
    "C22_color_full",
    "C22_refuted"
   ],
   "note": "Proved for text units on every writer, failing ones included. False of colours: WriteTo does not count the two bytes ESC [ and overwrites earlier errors (C22_refuted); C22_color_partial says what is counted."
  },
  {
   "property": "C23",
   "status": "partial",
   "theorems": [
    "C23_count",
    "C23_width_partial",
    "C23_width_refuted"
   ],
   "note": "Count proved for every string. Width proved unless a tab follows a joining code point; refuted there."
  },
  {
   "property": "C24",
   "status": "proved",
   "theorems": [
    "C24_query"
   ],
   "note": "Proved for every sequence of calls; the default width function is a fixed parameter."
  },
  {
   "property": "C25",
   "status": "partial",
   "theorems": [
    "C25_width",
    "C25_default",
    "C25_forms_refuted"
   ],
   "note": "Proved for every prompt of the stated grammar (printable text without tabs, so that the width is the sum of the widths of the units); C25_forms_refuted shows forms outside it (title ended by ESC backslash, U+FFFD under a backspace) that are measured wrongly."
  },
  {
   "property": "C26",
   "status": "partial",
   "theorems": [
    "C26_order_partial",
    "C26_all_partial",
    "C26_bound",
    "C26_nonempty",
    "C26_refuted"
   ],
   "note": "Proved for terminals without read errors and lone surrogates: order for every schedule of Buffered, completeness if Buffered is honest and no NULs come. Read errors lose keys already read, and a lone surrogate takes the next character (C26_refuted)."
  },
  {
   "property": "C27",
   "status": "proved",
   "theorems": [
    "C27_grouping",
    "C27_keys"
   ],
   "note": "Proved for GetRawKey/GetKey and every sequence of answers of Buffered."
  },
  {
   "property": "C28",
   "status": "partial",
   "theorems": [
    "C28_bytes",
    "C28_characters_partial",
    "C28_escape_partial",
    "C28_refuted"
   ],
   "note": "Byte order proved for every chunking. One key per character holds for chunks of whole characters (partial); a character divided between reads becomes several keys (C28_refuted)."
  },
  {
   "property": "C29",
   "status": "proved",
   "theorems": [
    "C29_last",
    "C29_others",
    "C29_command"
   ],
   "note": "Proved."
  },
  {
   "property": "C30",
   "status": "partial",
   "theorems": [
    "C30_names",
    "C30_idempotent",
    "C30_bind",
    "C30_accepts",
    "C30_symbol_refuted"
   ],
   "note": "NormalizeName and BindKeyFunc proved; BindKeySymbol looks up the key name as a function name and always fails (C30_symbol_refuted)."
  },
  {
   "property": "C31",
   "status": "partial",
   "theorems": [
    "C31_distinct_partial",
    "C31_control_partial",
    "C31_refuted",
    "C31_bar_refuted"
   ],
   "note": "Holds for all names but those in shared_names and odd_names (partial); C31_refuted and C31_bar_refuted give the clashes."
  },
  {
   "property": "C32",
   "status": "partial",
   "theorems": [
    "C32_effect",
    "C32_list_effect",
    "C32_units",
    "C32_no_crash_partial",
    "C32_no_crash_tabs_partial",
    "C32_no_crash_refuted",
    "C32_between_words_refuted"
   ],
   "note": "C32_effect and C32_list_effect give the exact outcome for a cursor at the end of a word, for every provider of candidates. No crash is proved for providers that always answer (text without joiners, as many short names as names, case that keeps byte lengths): C32_no_crash_partial without tabs, C32_no_crash_tabs_partial with tabs in the line and in the names (lines of at most 800 characters, names of at most 400). The _refuted theorems give crashes without these, and show that after a blank the previous word is completed and the blank dropped."
  },
  {
   "property": "C33",
   "status": "partial",
   "theorems": [
    "C33_common_partial",
    "C33_refuted",
    "C33_erases_refuted"
   ],
   "note": "Proved for candidates in which upper-casing keeps the number of bytes; C33_refuted: otherwise a crash, or text that is no common beginning. C33_erases_refuted: candidates are chosen by strings.EqualFold but compared by unicode.ToUpper; where the two disagree (Greek theta), completing erases the word."
  },
  {
   "property": "C34",
   "status": "partial",
   "theorems": [
    "C34_unreadable",
    "C34_list",
    "C34_in_dir",
    "C34_command",
    "C34_empty_dir_refuted",
    "C34_empty_word_refuted"
   ],
   "note": "The candidates are exactly the matching entries, with the entries of the only directory added; refuted: the call never returns for a unique empty directory, and panics on an empty (quoted) word. The file system is constant during a call; the separator is '/'."
  },
  {
   "property": "C35",
   "status": "partial",
   "theorems": [
    "C35_atomic_partial",
    "C35_atomic_inner_partial",
    "C35_atomic_end_partial",
    "C35_same_line_partial",
    "C35_same_result_partial",
    "C35_exclusive",
    "C35_no_deadlock",
    "C35_no_crash_partial",
    "C35_crash_partial",
    "C35_no_crash_tabs_partial",
    "C35_opened",
    "C35_start_refuted",
    "C35_prediction_refuted",
    "C35_flush_refuted",
    "C35_last_size"
   ],
   "note": "C35_crash_partial reduces a crash of any schedule before ReadLine's return to the crash of a session without goroutines with the same keys and sizes in order; C35_no_crash_tabs_partial applies it to the conditions of C04 with tabs. C35_last_size: at a wait with no callback under way the editor goes by the last size announced."
  },
  {
   "property": "C36",
   "status": "proved",
   "theorems": [
    "C36_protocol",
    "C36_cursor",
    "C36_session",
    "C36_errors"
   ],
   "note": "For the built-in commands, every path including a panic inside a command."
  },
  {
   "property": "C37",
   "status": "partial",
   "theorems": [
    "C37_screen_simple_partial",
    "C37_screen_calm_partial",
    "C37_enter_partial",
    "C37_search_error_refuted",
    "C37_tabs_partial",
    "C37_tabs_enter_partial",
    "C37_tab_swap_refuted",
    "C37_tabs_scroll_partial"
   ],
   "note": "Proved on an abstract terminal row (units occupy their Width columns, wide characters vanish as a whole, reaction to prompt/line feed/clear arbitrary) for every session with simple text, and for sessions with joined characters and SWAPCHAR under a condition on the lines of the run; the visible part reaches the line's end unless the row is used up; also the search line in search mode and the row just before Enter's line feed. With tabs: for every session whose lines fit the row (C37_tabs_partial), each tab up to the next multiple of four columns; for lines that scroll, with and without predictions, on a row taken to be as long as need be (C37_tabs_scroll_partial). Missing: that predictions beside tabs fit the row; FORWARD_CHAR scrolling over units wider than two columns and SWAPCHAR of non-single-width units when scrolling (C38 refutations show they break); SWAPCHAR with a tab loses text from the screen (C37_tab_swap_refuted); a read error during search leaves the search line (refuted)."
  },
  {
   "property": "C38",
   "status": "partial",
   "theorems": [
    "C38_view_width",
    "C38_inside_simple_partial",
    "C38_inside_calm_partial",
    "C38_start_partial",
    "C38_forward_refuted",
    "C38_tab_refuted",
    "C38_swap_refuted",
    "C38_tabs_partial",
    "C38_tabs_start_partial",
    "C38_tabs_scroll_refuted",
    "C38_window",
    "C38_row_start",
    "C38_row_width",
    "C38_inside_window_partial",
    "C38_tabs_window_partial"
   ],
   "note": "Proved for the same sessions as C37 (with tabs as long as the line fits the row): every unit written ends at least three columns before the edge, and (in C37's 'shows') the cursor is inside the visible part. C38_window, C38_row_start and C38_row_width: the width the editor goes by is the one it was told last, the row begins after the prompt; C38_inside_window_partial and C38_tabs_window_partial are the claim with that width. False in general: FORWARD_CHAR onto wide units or tabs (repeated over tabs it passes the terminal's last column, C38_tabs_scroll_refuted), SWAPCHAR with two-column units."
  },
  {
   "property": "C39",
   "status": "partial",
   "theorems": [
    "C39_painted",
    "C39_colours_partial",
    "C39_heard_partial",
    "C39_reached_valid",
    "C39_refuted"
   ],
   "note": "C39_painted, C39_colours_partial and C39_heard_partial cover every line whose units are painted as written or shown to the colouring as one character. C39_refuted: for a character with a variation selector the colouring also gets the escape sequences and spaces painted for it."
  },
  {
   "property": "C40",
   "status": "proved",
   "theorems": [
    "C40_vimbatch",
    "C40_table"
   ],
   "note": "Proved for an object in any earlier state; the table vim_codes is functional (C40_table)."
  },
  {
   "property": "C41",
   "status": "proved",
   "theorems": [
    "C41_keys",
    "C41_ends",
    "C41_returns"
   ],
   "note": "Proved; that ReadLine returns is proved without condition up to a crash (C41_ends), and with the conditions of C04 without crash (C41_returns)."
  },
  {
   "property": "C42",
   "status": "proved",
   "theorems": [
    "C42_start"
   ],
   "note": "ReadLine's only input from earlier calls is Editor.Cursor, which the theorem quantifies over."
  },
  {
   "property": "C43",
   "status": "partial",
   "theorems": [
    "C43_typed_partial",
    "C43_refuted"
   ],
   "note": "Typing the pieces equals pasting, for complete sequences; a sequence ending in the joiner loses its base character (refuted)."
  },
  {
   "property": "C44",
   "status": "partial",
   "theorems": [
    "C44_columns_partial",
    "C44_control",
    "C44_escaped",
    "C44_tabs",
    "C44_refuted",
    "C44_bold_refuted",
    "C44_selector",
    "C44_flag"
   ],
   "note": "C44_columns_partial: any stretch of any reachable line, on any terminal that agrees with the configured widths. C44_control, C44_escaped, C44_tabs, C44_selector and C44_flag give the displayed forms. C44_refuted: a control character joined by a zero width joiner is sent raw; C44_bold_refuted: a mathematical letter with a modifier is counted one column too wide. Tab positions beyond column 32767 wrap (int16) and are not covered."
  },
  {
   "property": "C45",
   "status": "proved",
   "theorems": [
    "C45_inserted"
   ],
   "note": "Unquoting is specified separately; CR LF pairs end up outside the quotes but are preserved."
  },
  {
   "property": "C46",
   "status": "partial",
   "theorems": [
    "C46_blank_partial",
    "C46_spaces",
    "C46_refuted"
   ],
   "note": "All spaces but the tab; refuted for the tab."
  },
  {
   "property": "C47",
   "status": "proved",
   "theorems": [
    "C47_quoted",
    "C47_read_error"
   ],
   "note": "For every key whose first code point does not join."
  },
  {
   "property": "C48",
   "status": "partial",
   "theorems": [
    "C48_close_partial",
    "C48_twice_refuted",
    "C48_locked_refuted"
   ],
   "note": "Proved for one Close while the editor does not hold its mutex. Closing twice panics and closing with the mutex held can wait for ever; both are exhibited."
  },
  {
   "property": "C49",
   "status": "proved",
   "theorems": [
    "C49_flushed",
    "C49_resize_refuted"
   ],
   "note": "Proved at the start of every wait. C49_resize_refuted is about another moment: what a resize paints during the wait is not flushed until the next key."
  },
  {
   "property": "C50",
   "status": "proved",
   "theorems": [
    "C50_effect",
    "C50_default_key",
    "C50_key_effect",
    "C50_unknown",
    "C50_other_keys"
   ],
   "note": "UNDO, QUOTED_INSERT and ISEARCH_BACKWARD are tied to their default keys only (their effects are C05, C47 and C17-C19); the other 22 names have a direct effect. The comments for CmdUndo (Ctrl-U) and CmdISearchBackward (Ctrl-I) name other keys than the keymap does; the theorem uses the keymap (Ctrl-Z, Ctrl-_ and Ctrl-R)."
  },
  {
   "property": "C51",
   "status": "proved",
   "theorems": [
    "C51_same",
    "C51_prediction_refuted"
   ],
   "note": "For the built-in commands. C51_prediction_refuted shows why prediction is excluded: FORWARD_WORD asks the predictor again only when it scrolls, so the width of the terminal decides what FORWARD_CHAR accepts."
  },
  {
   "property": "C52",
   "status": "proved",
   "theorems": [
    "C52_replace",
    "C52_completion",
    "C52_list",
    "C52_scripted",
    "C52_nothing_refuted"
   ],
   "note": "Proved for every editor whose user commands are scripts of public calls, which includes all completion commands (C52_scripted). The line may not contain units that begin with a joiner in the replaced part. The refuted theorem shows why the replaced word may not be empty: joinUndo then merges the insertion with an older record."
  },
  {
   "property": "C53",
   "status": "partial",
   "theorems": [
    "C53_no_crash_partial",
    "C53_no_crash_tabs_partial",
    "C53_units",
    "C53_cursor_refuted",
    "C53_example4_refuted",
    "C53_example4_partial"
   ],
   "note": "C53_no_crash_tabs_partial: the same with tabs and SWAPCHAR while lines have at most 800 characters."
  },
  {
   "property": "C54",
   "status": "proved",
   "theorems": [
    "C54_browse",
    "C54_recall",
    "C54_reenter",
    "C54_same_start_refuted"
   ],
   "note": "For editors with the built-in commands. Byte for byte under the guard that no unit of the line begins with a joiner (C54_reenter); what is shown needs no guard. The refuted theorem records that Editor.Cursor carries over from call to call, so the same Default and keys need not give the same line twice."
  },
  {
   "property": "C55",
   "status": "partial",
   "theorems": [
    "C55_default",
    "C55_tty10_partial",
    "C55_pilot",
    "C55_printable",
    "C55_global",
    "C55_long_paste_refuted",
    "C55_tty10_error",
    "C55_default_error",
    "C55_burst_error_refuted"
   ],
   "note": "End to end: terminal, keys, editing, return value, next call; includes that nothing crashes. Printable characters that do not attach to their neighbour (C55_printable), terminals wide enough, no resize meanwhile (with resizes: C70), Buffered true only while there is input, keys typed while the terminal is in raw mode (C62). tty10: false when a read divides a character, which happens in every paste longer than 1024 bytes (C55_long_paste_refuted). A read error ends the call under way with that error; on the default terminal the keys of a burst that runs into the error are lost, even a whole line (C55_burst_error_refuted)."
  },
  {
   "property": "C56",
   "status": "proved",
   "theorems": [
    "C56_waiting",
    "C56_returned"
   ],
   "note": "Counts what the library writes itself: escape sequences in the prompt or in the line's characters are not its doing. Built-in commands; nothing is said after a panic."
  },
  {
   "property": "C57",
   "status": "partial",
   "theorems": [
    "C57_same",
    "C57_no_crash_partial",
    "C57_first",
    "C57_no_crash_tabs_partial",
    "C57_wide_refuted"
   ],
   "note": "C57_same: predictions off (C51 shows why). C57_first: what is written first (prompt, new line when it leaves no room, error text and \"$ \" after a failed prompt). C57_no_crash_partial and C57_no_crash_tabs_partial: conditions as for C04 (without and with tabs), for the widest prompt. C57_wide_refuted: a prompt wider than the terminal is put on its own line at the start but not by CLEAR_SCREEN, after which END_OF_LINE crashes on an empty line."
  },
  {
   "property": "C58",
   "status": "partial",
   "theorems": [
    "C58_tabs_schedules_partial",
    "C58_tabs_scroll_schedules_partial",
    "C58_bytes_partial",
    "C58_search_error_refuted",
    "C58_tabs_partial",
    "C58_tabs_scroll_partial",
    "C58_schedules_partial"
   ],
   "note": "C58_bytes_partial: at every wait of a session of single-character text without tabs, on every byte terminal of SpecVt.v that counts columns like the program. C58_schedules_partial: the same whatever the order in which typing and resize callbacks run. C58_tabs_partial: the same with tabs and SWAPCHAR away from tabs, as long as the line fits the row and without predictions (C58_tabs_schedules_partial: for schedules). C58_tabs_scroll_partial: for lines that scroll, with and without predictions, on a row as long as need be (C58_tabs_scroll_schedules_partial: for schedules). Missing: joined characters, that predictions beside tabs fit the row. C58_search_error_refuted: false after a read error in the incremental search; that a scrolled line with tabs fits the row is false too (C38_tabs_scroll_refuted)."
  },
  {
   "property": "C59",
   "status": "partial",
   "theorems": [
    "C59_no_crash_partial",
    "C59_no_crash_tabs_partial",
    "C59_swap_undo_refuted",
    "C59_units",
    "C59_flushed",
    "C59_quoted",
    "C59_scripts"
   ],
   "note": "C59_no_crash_partial: missing are tabs and joiners (as C04, where they can crash). C59_no_crash_tabs_partial: with tabs, in lines of at most 800 characters. C59_swap_undo_refuted: careful commands do not keep SWAPCHAR and UNDO from crashing. C59_units, C59_flushed, C59_quoted and C59_scripts have no such restriction."
  },
  {
   "property": "C60",
   "status": "partial",
   "theorems": [
    "C60_no_crash_partial",
    "C60_no_crash_tabs_partial",
    "C60_same",
    "C60_history_refuted",
    "C60_search_refuted"
   ],
   "note": "No crash for text of ordinary units, with tabs in C60_no_crash_tabs_partial, when the switches for joined characters stay and zero-width characters stay so, the prompt keeps its width and the history only grows (an empty one stays empty); the outcome is the same under display changes without predictions. Refuted: lines added to the history while ReadLine waits are hidden by the line being typed; an incremental search begun on an empty history never ends after a line was added."
  },
  {
   "property": "C61",
   "status": "partial",
   "theorems": [
    "C61_pressed_partial",
    "C61_default",
    "C61_refuted",
    "C61_escape_refuted",
    "C61_taken",
    "C61_names",
    "C61_constants",
    "C61_misnamed_refuted"
   ],
   "note": "Proved for all keys but nine. CTRL_DOWN, M_BACKSPACE, F1 to F4 and F6 to F8 stand for other codes than xterm's: F6 runs what is bound to F7, F7 what is bound to F8, and F1 bound by name types its escape sequence. Assumes that the bytes of one key come in one burst."
  },
  {
   "property": "C62",
   "status": "partial",
   "theorems": [
    "C62_mode",
    "C62_typed_partial",
    "C62_raw_program",
    "C62_refuted",
    "C62_between_refuted"
   ],
   "note": "For every interleaving of typing with GetKey, Open and Close: the mode kept on return and every byte in order, when the keys are typed in raw mode. Refuted: keys typed between two GetKeys (tty10) or between two ReadLines (the default terminal) go through the terminal's usual mode, Enter becomes a line feed, and that key is not bound to ACCEPT_LINE."
  },
  {
   "property": "C63",
   "status": "partial",
   "theorems": [
    "C63_reuse_partial",
    "C63_last_partial",
    "C63_panic_refuted",
    "C63_after_panic",
    "C63_stays_taken",
    "C63_nested_refuted"
   ],
   "note": "Any number of calls that return work as on fresh editors, with the history of that moment. Refuted: after a recovered panic the editor's mutex stays taken and the next call stops at its first key; a ReadLine nested in a command of the same editor serves no key. C63_after_panic: this is so for every panic past the start of a call and all later calls; C63_stays_taken: no number of calls frees the mutex."
  },
  {
   "property": "C64",
   "status": "partial",
   "theorems": [
    "C64_switches",
    "C64_widths",
    "C64_units",
    "C64_joined",
    "C64_escaped",
    "C64_no_crash_partial",
    "C64_joiner_refuted"
   ],
   "note": "With any text on unknown terminals (C64_no_crash_partial); missing are lines of more than 800 characters, SWAPCHAR at the end of the line, very narrow terminals and user commands. C64_joiner_refuted: in Windows Terminal a session of a skin tone typed before its letter crashes. The widths of the default build (go-runewidth) are a parameter between 0 and 2."
  },
  {
   "property": "C65",
   "status": "partial",
   "theorems": [
    "C65_restored_partial",
    "C65_many_partial",
    "C65_meanwhile",
    "C65_waits",
    "C65_close_again",
    "C65_size_refuted",
    "C65_forever_refuted"
   ],
   "note": "C65_waits: every wait for a key is a wait in raw mode. C65_close_again: closing the default terminal once more changes nothing."
  },
  {
   "property": "C66",
   "status": "partial",
   "theorems": [
    "C66_filled",
    "C66_again",
    "C66_readline",
    "C66_output_partial",
    "C66_first",
    "C66_output_refuted"
   ],
   "note": "C66_output_partial: for programs that set Out to nil whenever they set Writer. C66_output_refuted: setting Writer alone after Init or a ReadLine has no effect, because Out still leads to the old one. C66_first: the Writer set before the first call is used."
  },
  {
   "property": "C67",
   "status": "partial",
   "theorems": [
    "C67_shell",
    "C67_predict",
    "C67_accept_partial",
    "C67_accept_refuted"
   ],
   "note": "C67_accept_partial: for lines that do not end in a blank. C67_accept_refuted: after \"git \" the prediction begins with another blank, accepting gives \"git  status\"."
  },
  {
   "property": "C68",
   "status": "partial",
   "theorems": [
    "C68_simple_partial",
    "C68_colours_partial",
    "C68_vimbatch",
    "C68_marker_refuted",
    "C68_swap_refuted",
    "C68_tabs_scroll_partial",
    "C68_tabs_partial"
   ],
   "note": "every visible unit in its current colour for colourings that do not use the cursor marker (VimBatch is one), also on lines with tabs, whatever their length, and beside predictions (C68_tabs_scroll_partial, on a row taken to be as long as need be); false for those that use the marker (FORWARD_CHAR paints before it moves) and for order-dependent ones after SWAPCHAR in the middle; variation selectors not covered"
  },
  {
   "property": "C69",
   "status": "partial",
   "theorems": [
    "C69_schedules_partial",
    "C69_tabs_scroll_schedules_partial",
    "C69_tabs_scroll_vimbatch_schedules_partial",
    "C69_bytes_partial",
    "C69_vimbatch_partial",
    "C69_marker_refuted",
    "C69_tabs_scroll_partial",
    "C69_tabs_scroll_vimbatch_partial",
    "C69_tabs_partial",
    "C69_tabs_vimbatch_partial"
   ],
   "note": "Proved for colourings that do not use the marker of the cursor, texts of single-character units, on every byte terminal, with VimBatch down to the codes of C40's table, and whatever the order in which typing and resize callbacks run (C69_schedules_partial); with tabs, SWAPCHAR, predictions and lines of any length in C69_tabs_scroll_partial and, whatever the schedule, C69_tabs_scroll_schedules_partial. Missing: joined characters, steady (C37). Refuted for a colouring that uses the marker (FORWARD_CHAR)."
  },
  {
   "property": "C70",
   "status": "proved",
   "theorems": [
    "C70_prediction",
    "C70_prompt",
    "C70_colours",
    "C70_no_crash",
    "C70_line",
    "C70_screen",
    "C70_result"
   ],
   "note": "C70_no_crash, C70_line, C70_screen, C70_result, and with the prompt, the colours and the prediction on the row C70_prompt, C70_colours, C70_prediction: for every way of cutting commands and the callback into atomic steps. The time before the first wait is left out (C35_start_refuted), and what a resize paints is seen when it is flushed, at the next key (C49)."
  },
  {
   "property": "C71",
   "status": "partial",
   "theorems": [
    "C71_marks",
    "C71_simple_partial",
    "C71_calm_partial",
    "C71_tabs_partial",
    "C71_start_partial",
    "C71_refuted",
    "C71_window_partial",
    "C71_tabs_window_partial"
   ],
   "note": "C71_marks holds for every session of built-in commands and every state. The bound in columns (of the window, C71_window_partial and C71_tabs_window_partial) is proved under the conditions of C37/C38 (simple, calm, tabs that fit, first painting); C71_refuted: FORWARD_CHAR over wide joined characters lets the row grow (C38_forward_refuted), and CTRL-L writes all of it. Counted are units, columns and sequences, not bytes: a joined character can have any number of code points in its columns."
  },
  {
   "property": "C72",
   "status": "proved",
   "theorems": [
    "C72_paper",
    "C72_unjoined"
   ],
   "note": "C72_paper: every session of built-in commands with joining switched off and no prediction; C72_unjoined: the same with joining on while no code point joins its neighbour. Only sessions in which the code does not crash are compared (SWAPCHAR at the end of the line followed by UNDO crashes, see C06/C29). With predictions: C80."
  },
  {
   "property": "C73",
   "status": "partial",
   "theorems": [
    "C73_simple_partial",
    "C73_tabs_partial",
    "C73_narrow_refuted",
    "C73_schedules_partial",
    "C73_tabs_schedules_partial"
   ],
   "note": "Proved for text without joined characters, with and without tabs and predictions, on every terminal that knows CR, LF, CSI 1;1H and CSI 2J besides the sequences of C58, for prompts of printable characters, colour sequences, titles and line breaks; also for schedules (C73_schedules_partial, C73_tabs_schedules_partial). On a terminal too narrow for the prompt that is then made wider the line is written over the prompt (C73_narrow_refuted)."
  },
  {
   "property": "C74",
   "status": "partial",
   "theorems": [
    "C74_safe",
    "C74_schedules",
    "C74_joined_partial",
    "C74_refuted",
    "C74_clear_refuted"
   ],
   "note": "C74_safe: where nothing joins (terminals that are not known to join, C64), for every text from every source, every event and every silent user command. C74_joined_partial: with joining switched on a piece with a joining code point is the only other thing that can be sent. C74_refuted and C74_clear_refuted: with the zero width joiner a pasted control character is sent raw, and a pasted text can clear the screen."
  },
  {
   "property": "C75",
   "status": "proved",
   "theorems": [
    "C75_returned",
    "C75_waiting",
    "C75_schedule",
    "C75_end_refuted",
    "C75_non_joiner_refuted",
    "C75_keys_refuted"
   ],
   "note": "Proved as stated in properties.jsonl (C75_returned, C75_waiting, C75_schedule, for any set of characters). The three refuted theorems show that the exceptions named in the statement are real."
  },
  {
   "property": "C76",
   "status": "proved",
   "theorems": [
    "C76_backspace",
    "C76_backspace_units",
    "C76_right_left",
    "C76_left_right",
    "C76_retype",
    "C76_attached_refuted"
   ],
   "note": "The refuted theorem is the exception named in the statement (a character that attaches to the one before it)."
  },
  {
   "property": "C77",
   "status": "partial",
   "theorems": [
    "C77_home",
    "C77_end",
    "C77_kill",
    "C77_discard",
    "C77_delete",
    "C77_backspace",
    "C77_empty",
    "C77_whole",
    "C77_twice",
    "C77_twice_kill_partial",
    "C77_twice_refuted"
   ],
   "note": "Proved for every state with the cursor inside the line. Missing (refuted): KILL_LINE or UNIX_LINE_DISCARD pressed once too often, with nothing left to kill, replaces the killed text in the clipboard by the empty text."
  },
  {
   "property": "C78",
   "status": "partial",
   "theorems": [
    "C78_simple_partial",
    "C78_calm_partial",
    "C78_start_partial",
    "C78_bytes_partial",
    "C78_tabs_partial",
    "C78_tabs_bytes_partial",
    "C78_tabs_cut_partial",
    "C78_tabs_start_partial",
    "C78_tabs_cut_bytes_partial",
    "C78_tabs_start_bytes_partial",
    "C78_tabs_exact_partial",
    "C78_tabs_exact_bytes_partial",
    "C78_tabs_counted_partial",
    "C78_tabs_counted_bytes_partial",
    "C78_end_refuted",
    "C78_tabs_schedules_partial"
   ],
   "note": "Whole sessions, any screen before, also the bytes on ordinary terminals. Joined characters under C78_calm_partial; tabs in line and prediction: C78_tabs_partial and C78_tabs_bytes_partial for predictions that fit with three columns to spare for each tab, C78_tabs_cut_partial and C78_tabs_cut_bytes_partial for predictions of any length (C78_tabs_start_partial, C78_tabs_start_bytes_partial: before the first key; C78_tabs_schedules_partial: under every schedule), C78_tabs_exact_partial and C78_tabs_exact_bytes_partial with the exact place of the cut when the event brings no tab, C78_tabs_counted_partial and C78_tabs_counted_bytes_partial with the exact place by the code's count when it does. Partial: after an event that brings a tab the code counts with a width the tab does not have, so up to three columns for each tab may stay unused; tabs with keys that attach to the character before them only by C78_tabs_cut_partial. Refuted for END_OF_LINE, which erases the prediction although FORWARD_CHAR still takes it over."
  },
  {
   "property": "C79",
   "status": "partial",
   "theorems": [
    "C79_simple_partial",
    "C79_calm_partial",
    "C79_tabs_partial",
    "C79_bytes_partial"
   ],
   "note": "Whole sessions, any screen before, with tabs and on byte terminals. Partial: the histories C37 leaves out (steady/steady_scroll); with tabs the row is taken to be as long as need be. Ctrl-C leaves the line standing unless a prediction had been asked for, then it is taken off the row."
  },
  {
   "property": "C80",
   "status": "proved",
   "theorems": [
    "C80_paper",
    "C80_unjoined",
    "C80_without_forward_word"
   ],
   "note": "C80_paper: joining switched off, every text; C80_unjoined: joining on while nothing joins. Paper is told, from the run, whether the row had room for the place each FORWARD_WORD went to (scrolled); C80_without_forward_word: where it is not used any answers do. All are about runs that do not crash (C04). C80_stale shows a slip about another line: after \"ca\", BACKWARD_CHAR, KILL_LINE, END_OF_LINE the line is \"c\", and FORWARD_CHAR makes it \"ct readme\"."
  }
 ]
}