{"claims": [
 {"property": "C01", "status": "proved", "theorems": ["C01_names_roundtrip"], "note": ""},
 {"property": "C02", "status": "proved", "theorems": ["C02_parser_exact"], "note": ""},
 {"property": "C03", "status": "proved", "theorems": ["C03_opponent_and_flip"], "note": ""},
 {"property": "C04", "status": "proved", "theorems": ["C04_equality_fieldwise"], "note": ""},
 {"property": "C05", "status": "proved", "theorems": ["C05_immutability"], "note": "Over a heap of objects with shared dictionaries; field values are immutable in the model."},
 {"property": "C06", "status": "proved", "theorems": ["C06_freeze_lossless"], "note": ""},
 {"property": "C07", "status": "proved", "theorems": ["C07_flip_involution"], "note": ""},
 {"property": "C08", "status": "proved", "theorems": ["C08_exclusive_actions"], "note": ""},
 {"property": "C09", "status": "partial", "theorems": ["C09_bearoff_rule_partial", "C09_bearoff_rule_refuted"], "note": "REFUTED as stated: with n+1 < die the code answers true for a point without a chequer. The partial theorem is the exact answer of the code."},
 {"property": "C10", "status": "partial", "theorems": ["C10_bearoff_search_partial", "C10_bearoff_search_refuted"], "note": "REFUTED as stated: the last loop never reaches point 0, so a legal bear-off from the ace point with a die above 1 is not found. Soundness and everything else proved exactly."},
 {"property": "C11", "status": "proved", "theorems": ["C11_seat_independent"], "note": ""},
 {"property": "C12", "status": "partial", "theorems": ["C12_double_legality_partial", "C12_seat_refuted", "C12_owner_refuted"], "note": "REFUTED as stated: the score test uses <= for one seat and < for the other, and the cube owner is never looked at. The partial theorem is the exact answer of the code."},
 {"property": "C13", "status": "proved", "theorems": ["C13_move_conserves"], "note": ""},
 {"property": "C14", "status": "proved", "theorems": ["C14_undo_restores"], "note": ""},
 {"property": "C15", "status": "proved", "theorems": ["C15_bookkeeping"], "note": ""},
 {"property": "C16", "status": "partial", "theorems": ["C16_scored_once_partial", "C16_scored_once_refuted"], "note": "REFUTED as stated: dropping or accepting twice scores twice. Proved: after the end nobody can roll, move or double and only a further drop/accept changes the score."},
 {"property": "C17", "status": "partial", "theorems": ["C17_take_refuted"], "note": "REFUTED on every board: a take leaves the cube value and owner as they were and no later double is legal in the session."},
 {"property": "C18", "status": "proved", "theorems": ["C18_refused_resignation"], "note": "The offer field is reset to none; it equals the board before the offer when no other offer was pending."},
 {"property": "C19", "status": "proved", "theorems": ["C19_dice_pool"], "note": ""},
 {"property": "C20", "status": "proved", "theorems": ["C20_normal_same_effect"], "note": "For lists of distinct objects whose plays all succeed."},
 {"property": "C21", "status": "proved", "theorems": ["C21_no_cancelling_pair"], "note": ""},
 {"property": "C22", "status": "partial", "theorems": ["C22_dice_conserved_partial", "C22_dance_refuted"], "note": "REFUTED as stated: two equal dances cancel each other in the list and both cost a die. Proved for every list without dances."},
 {"property": "C23", "status": "partial", "theorems": ["C23_append_exact_partial", "C23_failure_partial", "C23_atomic_refuted"], "note": "REFUTED as stated: the move list keeps the move whose die was missing. Proved: board and pool are unchanged on failure, and the exact effect of a success."},
 {"property": "C24", "status": "proved", "theorems": ["C24_from_source"], "note": ""},
 {"property": "C25", "status": "partial", "theorems": ["C25_from_dest_partial", "C25_raises_refuted", "C25_missed_refuted", "C25_pool_refuted"], "note": "REFUTED as stated in three ways: IndexError when a die reaches beyond the bar, a bear-off from the ace point is missed, the pool passed in is consumed. The partial theorem is the exact answer otherwise."},
 {"property": "C26", "status": "partial", "theorems": ["C26_multiple_sound", "C26_complete_partial", "C26_bearoff_refuted"], "note": "REFUTED for bearing off: some multi-die bear-offs are not found. Soundness proved for all targets, completeness for all points."},
 {"property": "C27", "status": "partial", "theorems": ["C27_undoes_partial", "C27_board_refuted"], "note": "REFUTED as stated: the board of the factory is changed. The partial theorem says exactly to what."},
 {"property": "C28", "status": "partial", "theorems": ["C28_making_point_partial", "C28_making_point_refuted"], "note": "REFUTED as stated: one single die may be used twice, and the board is changed."},
 {"property": "C29", "status": "partial", "theorems": ["C29_pickup_query_partial", "C29_pickup_query_refuted"], "note": "REFUTED as stated: the query may leave the board rewound to the start of the turn. The partial theorem says when."},
 {"property": "C30", "status": "proved", "theorems": ["C30_signed_byte"], "note": ""},
 {"property": "C31", "status": "proved", "theorems": ["C31_position_code"], "note": ""},
 {"property": "C32", "status": "proved", "theorems": ["C32_distance_metric"], "note": "Also: strings of different length are compared on the common prefix only. Uses the axioms of Coq's reals (square root)."},
 {"property": "C33", "status": "proved", "theorems": ["C33_db_roundtrip"], "note": "For the positions the byte code can hold (C31)."},
 {"property": "C34", "status": "proved", "theorems": ["C34_position_id"], "note": ""},
 {"property": "C35", "status": "partial", "theorems": ["C35_id_length_partial", "C35_id_length_refuted"], "note": "REFUTED as stated: 12 characters when 6, 14 or 22 chequers are left in all. The partial theorem gives the exact length for at most 30 chequers."},
 {"property": "C36", "status": "partial", "theorems": ["C36_decoder_partial", "C36_decoder_refuted"], "note": "REFUTED as stated: the padding loop never ends when the number of base64 characters is 1 modulo 4. The partial theorem gives the exact outcome for every string."},
 {"property": "C37", "status": "proved", "theorems": ["C37_match_id"], "note": ""},
 {"property": "C38", "status": "partial", "theorems": ["C38_full_board_partial", "C38_full_board_refuted"], "note": "REFUTED for running money sessions with a point scored, which decode rejects. Proved for every other board in range."},
 {"property": "C39", "status": "proved", "theorems": ["C39_xgid_position"], "note": ""},
 {"property": "C40", "status": "partial", "theorems": ["C40_xgid_decode_partial", "C40_other_exceptions_refuted"], "note": "REFUTED as stated: InconsistentData for out of range values, and TypeError when a score is not a number (the error message itself is wrong). The partial theorem says exactly which strings are accepted, with which board, and how the others fail."},
 {"property": "C41", "status": "partial", "theorems": ["C41_gnu_partial", "C41_gnu_refuted", "C41_xgid_partial", "C41_xgid_refuted"], "note": "REFUTED as stated for both formats: fields read before the error stay changed. The partial theorems say which fields can change."},
 {"property": "C42", "status": "partial", "theorems": ["C42_fibs_line_partial", "C42_his_turn_refuted"], "note": "REFUTED as stated: every line in which you are not on turn ends in NameError. The partial theorem gives the exact board when you are on turn, and what is changed when not. A stale doubled flag is never cleared."},
 {"property": "C43", "status": "proved", "theorems": ["C43_get_dice"], "note": ""},
 {"property": "C44", "status": "proved", "theorems": ["C44_perfect_index"], "note": ""},
 {"property": "C45", "status": "partial", "theorems": ["C45_nori_keys_partial", "C45_fifteen_refuted"], "note": "REFUTED as stated: with all fifteen chequers on the board k2t ends in AssertionError. Proved: t2k is one-to-one onto 0..54263 and k2t inverts it for up to fourteen chequers. For every C_Hash/C_RHash meeting hash_spec (tonic is not in the repository)."},
 {"property": "C46", "status": "proved", "theorems": ["C46_number_of_positions"], "note": ""},
 {"property": "C47", "status": "proved", "theorems": ["C47_backward_count"], "note": "An empty side raises IndexError."},
 {"property": "C48", "status": "proved", "theorems": ["C48_chances"], "note": "Floats are modelled as real numbers."},
 {"property": "C49", "status": "proved", "theorems": ["C49_gains"], "note": "Floats are modelled as real numbers."},
 {"property": "C50", "status": "proved", "theorems": ["C50_one_round"], "note": "For every shuffle and all drawn numbers; says exactly who loses a life."},
 {"property": "C51", "status": "proved", "theorems": ["C51_tourney_ends"], "note": ""},
 {"property": "C52", "status": "partial", "theorems": ["C52_order_refuted", "C52_order_partial"], "note": "REFUTED: an empty first line makes the match length optional. The partial theorem says exactly which sequences are accepted: each line may follow the last line before it that is not a line of results, and moves are numbered consecutively from 1."},
 {"property": "C53", "status": "proved", "theorems": ["C53_size_limit"], "note": "Exact: also says that a file whose length equals the limit is refused, that the returned hash is of the whole content, and that the only exception is ValueError."},
 {"property": "C54", "status": "partial", "theorems": ["C54_chop_refuted", "C54_chop_raises_refuted", "C54_chop_partial"], "note": "REFUTED: a line of results after an empty line is dropped, and a record accepted without match length makes chop raise TypeError. Proved for records that begin with the match length and whose lines of results follow moves."},
 {"property": "C55", "status": "proved", "theorems": ["C55_protocol"], "note": "For every order in which Python may list the class attributes. The cookie is one whose pattern fits, or the state's default when none fits."},
 {"property": "C56", "status": "partial", "theorems": ["C56_history_refuted", "C56_history_partial"], "note": "REFUTED: several patterns fit the same message and the pattern that matched last is tried first. The partial theorem bounds the effect: two histories can differ only on the 29 listed pairs of cookies of the run state, and each pair does share a message."},
 {"property": "C57", "status": "partial", "theorems": ["C57_dispatch_refuted", "C57_dispatch_partial"], "note": "REFUTED: a handler that unregisters its own subscriber makes the next one be skipped. The partial theorem covers every dispatch during which nothing is unregistered and no handler raises; subscribers registered meanwhile are called too, at the end."},
 {"property": "C58", "status": "partial", "theorems": ["C58_close_refuted", "C58_event_refuted", "C58_close_partial"], "note": "REFUTED: when a handler closes the session the rest of the subscribers are still called; and when the listener finds the session inactive at the top of its loop the event is never set. Proved: no dispatch starts after close has returned, no handler at all is called after close by another thread, and the event is set when the listener receives anything after the close."},
 {"property": "C59", "status": "proved", "theorems": ["C59_escape"], "note": "all strings"},
 {"property": "C60", "status": "partial", "theorems": ["C60_attributes_refuted", "C60_attributes_partial"], "note": "REFUTED: html.escape leaves quotation marks alone, so a value with a quotation mark ends the value and adds attributes of its own (witness: title a\" onclick=\"b). Proved: no value whatever ends the tag, and values without quotation marks are read back exactly"},
 {"property": "C61", "status": "proved", "theorems": ["C61_balanced"], "note": "all operation sequences; docutils is assumed to give balanced output; nodes of the table of contents are not modelled"},
 {"property": "C62", "status": "partial", "theorems": ["C62_content_refuted", "C62_content_partial"], "note": "REFUTED for texts: append_text adds a text to any node (witness: a text in a table row). Proved for every other node"},
 {"property": "C63", "status": "partial", "theorems": ["C63_text_refuted", "C63_text_kept_partial", "C63_text_order_partial"], "note": "REFUTED: an element that the current node does not hold is put further up, but leaving it returns to the old current node, so later text comes before it (witness). Proved: no character is lost or added when nothing is removed, and the order is kept when what is entered is held by the current node"},
 {"property": "C64", "status": "partial", "theorems": ["C64_block_refuted", "C64_block_partial"], "note": "REFUTED: a line of the form #!name inside the block chooses a processor and is not shown (witness: a shell script). Proved for every block without such lines, whatever comes before and after it"},
 {"property": "C65", "status": "proved", "theorems": ["C65_selector"], "note": "for rules and paths that are not empty; Rule.is_match asserts this"},
 {"property": "C66", "status": "partial", "theorems": ["C66_cascade_refuted", "C66_cascade_partial"], "note": "REFUTED: the second rule that gives an element an image or a font raises AttributeError, because the attribute made by the first has no path of its style sheet (css_path is lost in __setattr__). Proved for every sheet that loads and every board: if no exception is raised the tree is styled as described"},
 {"property": "C67", "status": "partial", "theorems": ["C67_inherit_refuted", "C67_inherit_partial"], "note": "REFUTED: fill of a point whose ancestors do not have it raises AttributeError although the attribute has a default, because the ancestors do not know the attribute. Proved for all other attributes, and for fill where the element has it itself"},
 {"property": "C68", "status": "proved", "theorems": ["C68_visit"], "note": ""},
 {"property": "C69", "status": "partial", "theorems": ["C69_shown_refuted", "C69_resign_refuted", "C69_shown_partial"], "note": "REFUTED: doubled stays true after a double was taken, so that a later resignation is shown as a double, or, with dice on the table, neither the cube nor the resignation is shown. Proved: chequers, dice, scores always; the cube unless a double is open with dice on the table; the resignation unless the cube was doubled or dice are on the table"},
 {"property": "C70", "status": "proved", "theorems": ["C70_drawable", "C70_reachable"], "note": ""},
 {"property": "C71", "status": "partial", "theorems": ["C71_fits_refuted", "C71_fits_partial"], "note": "REFUTED: by rounding, the width times the magnification may exceed the width asked for, and the assertion in set_mag fails (97 by 97 for a board of 341 by 262). Proved: whenever set_mag succeeds the board and every shorter length fits (rounding to doubles is proved monotone); floats are IEEE doubles"},
 {"property": "C72", "status": "proved", "theorems": ["C72_append", "C72_append_text", "C72_valid"], "note": ""},
 {"property": "C73", "status": "partial", "theorems": ["C29_pickup_query_partial", "C73_bar_refuted", "C73_two_chequers_refuted"], "note": "REFUTED as stated: a chequer that can enter from the bar and plays using two chequers are not seen. Proved: with no dice left yes; with a step on the points no; a no always has a reason."},
 {"property": "C74", "status": "partial", "theorems": ["C74_money_flag_refuted"], "note": "REFUTED: flags 2 and 3 are rejected for every such XGID, among them several of xgid_test.py. For 0 and 1 see C40."},
 {"property": "C75", "status": "proved", "theorems": ["C75_xgid_roundtrip"], "note": ""},
 {"property": "C76", "status": "partial", "theorems": ["C76_history_partial", "C76_history_refuted"], "note": "REFUTED as stated: the doubled flag and the resign offer of the old board stay. Proved for the ten other fields."},
 {"property": "C77", "status": "proved", "theorems": ["C77_get_name"], "note": ""},
 {"property": "C78", "status": "partial", "theorems": ["C78_extractors_refuted"], "note": "REFUTED for every message: None, NameError and TypeError."},
 {"property": "C79", "status": "proved", "theorems": ["C79_scores"], "note": ""},
 {"property": "C80", "status": "partial", "theorems": ["C80_trice_keys_refuted", "C80_same_count_partial"], "note": "REFUTED: with the numbering that nori_test.py fixes one chequer and two chequers share key 3. Proved for every numbering: pairs with the same number of chequers have different keys."},
 {"property": "C81", "status": "proved", "theorems": ["C81_rawread"], "note": ""},
 {"property": "C82", "status": "proved", "theorems": ["C82_tourney_chance"], "note": "Floats are modelled as real numbers."},
 {"property": "C83", "status": "proved", "theorems": ["C83_handicaps"], "note": "Floats are modelled as real numbers."},
 {"property": "C84", "status": "proved", "theorems": ["C84_layout"], "note": "Move and result lines must not contain the ' : ' of a player header."},
 {"property": "C85", "status": "partial", "theorems": ["C85_announcements_refuted"], "note": "REFUTED: for every user name, history and order these messages are FIBS_Unknown, since the patterns lack the user name in front and are used with match, which starts at the beginning of the message."},
 {"property": "C86", "status": "partial", "theorems": ["C86_reopen_refuted"], "note": "REFUTED: the request to terminate is never taken back; the theorem says that for every interleaving nobody is called after a close and an open."},
 {"property": "C87", "status": "partial", "theorems": ["C87_raise_refuted"], "note": "REFUTED: for every interleaving, after a handler raised its listener receives nothing more and calls no handler except to report a socket error or EOF."},
 {"property": "C88", "status": "proved", "theorems": ["C88_exclusion"], "note": ""},
 {"property": "C89", "status": "proved", "theorems": ["C89_progress"], "note": "Handlers are assumed to return or raise eventually."},
 {"property": "C90", "status": "proved", "theorems": ["C90_nomalize"], "note": "all strings"},
 {"property": "C91", "status": "proved", "theorems": ["C91_wiki_balanced"], "note": "docutils is assumed to give balanced output, the tables of the Analysis macro are assumed to hold text without angle brackets; pages with tables of contents are included"},
 {"property": "C92", "status": "partial", "theorems": ["C92_parse_refuted", "C92_parse_partial"], "note": "REFUTED: [[Position]] and [[Analysis]] without arguments raise TypeError. Proved: apart from these and from the data base of the Analysis macro no text raises"},
 {"property": "C93", "status": "partial", "theorems": ["C93_render_refuted", "C93_render_partial"], "note": "REFUTED: an unsigned item in a list of signed items raises KeyError when rendered. Proved for every text in which all items are signed or none is, apart from the AttributeError of a table of contents (C94)"},
 {"property": "C94", "status": "partial", "theorems": ["C94_contents_refuted", "C94_contents_partial", "C94_contents_fails_partial"], "note": "REFUTED: a heading with a child that is neither a text nor a link (a bold word) makes writing the page raise AttributeError. Proved: the exact HTML and the exact change when all children are texts and links, and the exception otherwise"},
 {"property": "C95", "status": "proved", "theorems": ["C95_paragraphs"], "note": "for texts without the TableOfContent macro, which by its purpose depends on the whole page"},
 {"property": "C96", "status": "partial", "theorems": ["C96_links_refuted", "C96_links_partial"], "note": "REFUTED: headings before the table of contents are written without an id. Proved when the table comes before all headings"},
 {"property": "C97", "status": "partial", "theorems": ["C97_attributes_refuted", "C97_attributes_partial"], "note": "REFUTED: the title of a link is not protected against quotation marks (witness adds onmouseover). Proved for every text in which no label of a link has a quotation mark"},
 {"property": "C98", "status": "partial", "theorems": ["C98_one_place_refuted", "C72_valid"], "note": "REFUTED: append does not take the element from its former parent. Proved: the recorded parent is one of the elements that hold it"},
 {"property": "C99", "status": "proved", "theorems": ["C99_editing_order"], "note": ""},
 {"property": "C100", "status": "partial", "theorems": ["C100_again_refuted", "C100_again_partial", "C100_no_contents_partial"], "note": "REFUTED: headings before the table of contents have ids the second time. Proved when the table comes before all headings, and without a table"},
 {"property": "C101", "status": "proved", "theorems": ["C101_themes_draw"], "note": "the text of the style sheets is copied into ThemeData.v; what PIL or wx do with a call is not modelled"},
 {"property": "C102", "status": "partial", "theorems": ["C102_files_refuted", "C102_files_partial"], "note": "REFUTED: matrix writes the scores in a font that its directory does not have; safari has no picture of eight or more chequers on the bar. Proved: the six other themes need only files that are there; safari needs only such files exactly when fewer than eight chequers of each player are on the bar; matrix needs only such files apart from that font"},
 {"property": "C103", "status": "proved", "theorems": ["C103_attribute_kinds"], "note": "for boards with 25 points on each side"},
 {"property": "C104", "status": "proved", "theorems": ["C104_pictures"], "note": "the library is any functions that read, measure and resize; that resize gives the size asked for is assumed; when an element itself cannot be drawn, only that some exception is raised is said"},
 {"property": "C105", "status": "proved", "theorems": ["C105_texts"], "note": "with the metrics the font itself reports"},
 {"property": "C106", "status": "proved", "theorems": ["C106_again"], "note": ""},
 {"property": "C107", "status": "proved", "theorems": ["C107_blame", "C107_themes"], "note": "the font missing from the theme matrix is a finding, see C102"},
 {"property": "C108", "status": "proved", "theorems": ["C108_memory"], "note": ""},
 {"property": "C109", "status": "proved", "theorems": ["C109_chequers", "C109_thirty"], "note": ""},
 {"property": "C110", "status": "proved", "theorems": ["C110_dice", "C110_eyes"], "note": ""},
 {"property": "C111", "status": "proved", "theorems": ["C111_match", "C111_stakes"], "note": ""},
 {"property": "C112", "status": "partial", "theorems": ["C112_action_refuted", "C112_action_partial"], "note": "REFUTED: when the player called you has doubled and him has to take or drop, the action element carries player=\"you\", so themes colour the sentence as if it were your turn. Proved: the sentence is right in every case, and the player is the one who has to decide in every other case."},
 {"property": "C113", "status": "proved", "theorems": ["C113_reads_back"], "note": ""},
 {"property": "C114", "status": "partial", "theorems": ["C114_styled_refuted", "C114_styled_partial", "C114_themes"], "note": "REFUTED: values are not escaped, so a quotation mark, ampersand or less-than sign in a style sheet gives a document that is not well formed. Proved for sheets whose values need no escaping (quotation marks may stand in image and font, which are unquoted), and that the eight shipped sheets are such. str of a float is a variable, assumed to give characters that need no escaping."},
 {"property": "C115", "status": "proved", "theorems": ["C115_valid"], "note": "str of a float is a variable, assumed to give characters that need no escaping."},
 {"property": "C116", "status": "proved", "theorems": ["C116_same_view"], "note": ""},
 {"property": "C117", "status": "proved", "theorems": ["C117_points", "C117_twenty_four"], "note": ""},
 {"property": "C118", "status": "proved", "theorems": ["C118_in_place", "C118_flags"], "note": ""},
 {"property": "C119", "status": "partial", "theorems": ["C119_play_refuted", "C119_play_partial"], "note": "REFUTED: taking back a step whose chequer has moved on, making a point through guess_your_making_point, and offering the dice again after a declined offer that took the moves back on the board each leave -1 chequers on a point. Proved for all games of the three forward suggestions, cube and resignation calls, rolls and pick-ups in which the dice are not offered again after such a decline; the bound on chequers is any bound that holds at the start."},
 {"property": "C120", "status": "proved", "theorems": ["C120_turn"], "note": "For the three forward suggestions, with the point numbers the library uses."},
 {"property": "C121", "status": "proved", "theorems": ["C121_codes"], "note": "For games as in C119_play_partial."},
 {"property": "C122", "status": "proved", "theorems": ["C122_start"], "note": ""},
 {"property": "C123", "status": "partial", "theorems": ["C123_follow_refuted", "C123_follow_partial"], "note": "REFUTED: set_action stores nothing, so after every sequence of calls every question raises AssertionError; the board never changes. Proved: which records set_action accepts, exactly."},
 {"property": "C124", "status": "proved", "theorems": ["C124_ids"], "note": ""},
 {"property": "C125", "status": "proved", "theorems": ["C125_edited", "C125_contents"], "note": "For pages whose first line is the macro; that links of tables further down lead nowhere is C96."},
 {"property": "C126", "status": "partial", "theorems": ["C126_refuted", "C126_partial"], "note": "REFUTED: a URL written as it is goes into the page unescaped (witness: http://a.b/?c=d&copy=2, which shows a copyright sign). Proved for every text without such a URL that has an ampersand."},
 {"property": "C127", "status": "partial", "theorems": ["C127_refuted", "C127_partial"], "note": "REFUTED: the address of the link is escaped twice (witness: a URL with an ampersand leads to another URL). Proved for every URL what the one link of the page leads to, and that this is the URL exactly if it has no ampersand."},
 {"property": "C128", "status": "partial", "theorems": ["C128_refuted", "C128_partial"], "note": "REFUTED: a URL with an ampersand is copied into the page unescaped, so the page is refused (see C126); a quotation mark in the label of a link (C97) is the other way. Proved for every text in which no label of a link has a quotation mark and no URL has an ampersand."},
 {"property": "C129", "status": "partial", "theorems": ["C129_refuted", "C129_pages_partial", "C129_texts_partial"], "note": "REFUTED: characters that the patterns do not know are skipped, so <p>R&amp;D</p> and <p>R&&amp;D</p>, of which only the first is well formed, are taken for the same; and a blank before the first tag makes a difference. Proved for all pages of tags and attributes that the patterns know and texts without markup, apart from whether the first text is empty; that it is an equivalence holds for all texts."},
 {"property": "C130", "status": "partial", "theorems": ["C130_refuted", "C130_partial"], "note": "REFUTED: comments are read as rules (so are four lines of the theme deutsche that were put out of use with a #), a rule with an empty block raises AssertionError and nothing is loaded, and a value is cut at its first blank. Proved for every sheet of rules whose values have no blank, semicolon or closing bracket and whose blocks are not empty, and of lines without braces."},
 {"property": "C131", "status": "partial", "theorems": ["C131_refuted", "C131_cube_partial", "C131_moves", "C131_page"], "note": "REFUTED: the assertion that guards the names of actions looks at the wrong argument, so an action from -4 to -1 is shown with the name of another one. Proved for all cube actions of the four kinds; for moves in both directions; the page for every analysis."},
 {"property": "C132", "status": "partial", "theorems": ["C132_refuted", "C132_partial"], "note": "REFUTED: the texts of moves are not escaped (witness: a move with an ampersand). Proved for all data bases whose moves are texts without markup, whatever their numbers are."},
 {"property": "C133", "status": "proved", "theorems": ["C133_page_shown"], "note": "The page is given as lists of tokens; what a token needs of its right neighbour is stated with begins, follows_ref and follows_mark. Lists, citations, tables, blocks and macros are outside this property; C64 and C91 to C97 are about them."},
 {"property": "C134", "status": "partial", "theorems": ["C134_refuted", "C134_words_partial", "C134_lines_partial"], "note": "REFUTED: an m before a digit is taken for the number of a match wherever it stands, so in room12 becomes in roo and a link, and two capitalised words written together (McGuire) become a link to a wiki page. Proved that for single lines nothing else is in the way, in both directions. Lines are joined without anything between them: foo and bar on two lines are shown as foobar (C134_lines_partial)."},
 {"property": "C135", "status": "proved", "theorems": ["C135_somebody"], "note": "That what the player may do then succeeds is C15."},
 {"property": "C136", "status": "partial", "theorems": ["C136_borne_off_refuted", "C136_ends_partial"], "note": "REFUTED: bearing off the last chequer does not end a game; the state stays on-going whatever is moved, the winner may go on moving and the loser may roll. Proved that exactly a drop or an accepted resignation ends it."},
 {"property": "C137", "status": "partial", "theorems": ["C137_answers_refuted", "C137_answers_partial"], "note": "REFUTED: a take does not clear the double, so after a later offer to resign the double can be dropped (the player who resigned scores) or taken again (then the player who resigned accepts the own resignation and scores); and picking up the dice while a resignation is offered turns it over to who offered it. Proved in both directions for games in which dice are picked up only by a player who may move and nobody resigns after a double."},
 {"property": "C138", "status": "partial", "theorems": ["C138_move_lost_refuted", "C138_picked_up_partial"], "note": "REFUTED: the query whether the dice may be picked up takes all moves of the turn back on the very board it is asked about, and pickupdice goes on with that board. Whenever dice are left, the roll is no double and no chequer is shut out on the bar, the moves of the turn are lost; the witness is a turn by the rules. Proved exactly when the moves stay and when they are lost."},
 {"property": "C139", "status": "proved", "theorems": ["C139_rules_picked_up", "C139_rules_exist"], "note": "That picking up is also accepted after some turns against the rules is the refuted part of C73; that the board may be rewound is C138."},
 {"property": "C140", "status": "proved", "theorems": ["C140_every_turn_entered", "C140_rule_turn_entered"], "note": "The dice may be used in another order than in the given sequence when two of them bear off the same chequer, since the suggestion takes the larger first; the board is the same. That picking up may rewind the board is C138."},
 {"property": "C141", "status": "proved", "theorems": ["C141_gene_texts", "C141_format_verdict", "C141_verify_verdict"], "note": "Python exceptions are the values of exn, so that 'except Exception' catches them all; the stack traces kept in the errors are not modelled"},
 {"property": "C142", "status": "partial", "theorems": ["C142_mixed_refuted", "C142_blank_refuted", "C142_format_partial", "C142_passes_partial"], "note": "REFUTED: a list that mixes signed and unsigned items gives FormatError(KeyError), and a text of empty lines has no HTML, so that verify raises AssertionError. Proved instead: parse never fails on a gene; format fails only with KeyError and only on texts with both kinds of items; without quotation marks in labels of links, ampersands in URLs and mixed items a gene passes exactly if its page is not empty"},
 {"property": "C143", "status": "partial", "theorems": ["C143_timed_out_refuted", "C143_timed_out_partial"], "note": "REFUTED: the parent keeps the writing end of the pipe open, so a child that fails at once is waited for three seconds and said to be timed out. Proved instead: nothing is said exactly of children that pass in time"},
 {"property": "C144", "status": "partial", "theorems": ["C144_subset_refuted", "C144_subset_partial"], "note": "REFUTED: iter_subset gives a tuple to the constructor, which wants a length: TypeError for every gene that is not empty; shorter_fails uses names that do not exist: NameError always"},
 {"property": "C145", "status": "partial", "theorems": ["C145_refuted", "C145_lists_partial"], "note": "REFUTED: an item that is indented by two can lie in one list only, if an item before was indented by more than one at once. Proved: the whole page that is shown if no item is indented by more than one deeper than the lists that are open, nothing is switched on where an item begins, headings are outside of lists and lists with signs have only signed items."},
 {"property": "C146", "status": "partial", "theorems": ["C146_refuted", "C146_citations_partial"], "note": "REFUTED: a line without signs ends only the innermost citation, so after a line with two signs it still lies in one. Proved: the whole page that is shown, in which a line with n signs lies in n citations and a line without in one less than the line before, if nothing is switched on where a citation or quote begins, headings are outside of them, and no line is indented where a citation is still open."},
 {"property": "C147", "status": "proved", "theorems": ["C147_quotes"], "note": "The page of indented lines followed by a line; pages that mix quotes, citations and text in any order are in C146_citations_partial. Headings inside quotes, which the code refuses, are excluded."},
 {"property": "C148", "status": "partial", "theorems": ["C148_refuted", "C148_tables_partial"], "note": "REFUTED: a line without bars after a table is shown inside of the table element, outside of its rows, until an empty line. Proved: the whole page that is shown, in which a row that is not ended goes on in the next line, if nothing is switched on outside of cells where a cell begins and headings are outside of tables."},
 {"property": "C149", "status": "proved", "theorems": ["C149_table_of_cells"], "note": "Every page of rows that are ended by a bar, each with a cell or more. Headings in cells, which the code refuses, are excluded; open rows and text between rows are in C148_tables_partial."},
 {"property": "C150", "status": "partial", "theorems": ["C150_refuted", "C150_definitions_partial"], "note": "REFUTED: a line that is not indented after a definition is shown inside of the list, outside of its terms and definitions, until an empty line; a later indented line is a definition without a term. Proved: the whole page that is shown, if nothing is switched on outside of definitions and quotes where one of them or a term begins, and headings are outside of lists."},
 {"property": "C151", "status": "proved", "theorems": ["C151_definitions"], "note": "Headings in terms and definitions, which the code refuses, are excluded; lists inside of definitions are not covered."},
 {"property": "C152", "status": "partial", "theorems": ["C152_refuted", "C152_blocks_partial"], "note": "REFUTED: a block in a paragraph is shown after the whole paragraph, because only the root takes it; what is written after it in the paragraph is shown before it. Proved: the whole page that is shown, in which the blocks of a paragraph follow it, for pages of text, lists and blocks with the conditions of C145 on lists. Blocks in citations, quotes, tables and definitions are not covered."},
 {"property": "C153", "status": "proved", "theorems": ["C153_paragraph_with_blocks"], "note": "For paragraphs of text and lists. A paragraph of blocks only, which shows an empty paragraph first, is in C152_blocks_partial."},
 {"property": "C154", "status": "proved", "theorems": ["C154_inside"], "note": "Each style sheet is audited at its own size by computation; every part drawn for any board is one the audit has seen, or fills a box it has seen."},
 {"property": "C155", "status": "proved", "theorems": ["C155_parameters"], "note": ""},
 {"property": "C156", "status": "proved", "theorems": ["C156_macros", "C156_arguments"], "note": "The page of Analysis with the name of a position is C131_page, the table of contents is C125."},
 {"property": "C157", "status": "partial", "theorems": ["C157_refuted", "C157_options_partial"], "note": "REFUTED: only the style has an equals sign in the pattern; format=, width= and height= are dropped without a message. Proved: css= and the other three written without the equals sign, in this order, reach the server; format=, width= and height= never do, nor does anything that does not begin with a comma."},
 {"property": "C158", "status": "partial", "theorems": ["C158_refuted", "C158_history_partial", "C158_at_import"], "note": "REFUTED: unregister calls remove on a dictionary and always raises AttributeError, so nothing can be removed. The rest is proved for all histories."},
 {"property": "C159", "status": "proved", "theorems": ["C159_foreign"], "note": "For identifiers without an equals sign, which raises TypeError (C36)."},
 {"property": "C160", "status": "partial", "theorems": ["C160_refuted", "C160_boards_partial"], "note": "REFUTED: with 6, 14 or 22 chequers left encode gives a position identifier of 12 characters, and the macros refuse it as bad arguments. The partial theorem gives the page for every board."},
 {"property": "C161", "status": "partial", "theorems": ["C161_refuted", "C161_convert_partial"], "note": "REFUTED: the XGID of an unlimited session in which a point was made is encoded to identifiers that decode rejects with InconsistentData. Proved for all other XGIDs in range."},
 {"property": "C162", "status": "proved", "theorems": ["C162_identifiers", "C162_flip"], "note": "For boards whose fields fit the match identifier."},
 {"property": "C163", "status": "proved", "theorems": ["C163_line"], "note": "For lines in which you are on turn: for the others decode raises NameError (C42)."},
 {"property": "C164", "status": "proved", "theorems": ["C164_session", "C164_game"], "note": "Rolls assigned by the client are dice or zero. Moves are any that leave no point with a negative count; C164_game has no such condition for games played with the suggestions of MoveFactory (as in C119)."},
 {"property": "C165", "status": "partial", "theorems": ["C165_refuted", "C165_decoded_partial"], "note": "REFUTED for GNU identifiers: they can say that the other player is to decide when there is nothing to decide, or that the cube is owned by nobody, and the picture of such a board raises AssertionError. Proved for all XGIDs and FIBS lines, and for GNU identifiers exactly for the boards C70 describes."},
 {"property": "C166", "status": "proved", "theorems": ["C166_drawn"], "note": "Fair play is as in C119: suggestions that look forward, and no second offer of the dice in a turn after a declined one took the moves back. Where the tree leaves the cube or a resignation out (C69) the theorem says so."},
 {"property": "C167", "status": "proved", "theorems": ["C167_received", "C167_dice_refuted"], "note": "The condition on the dice is needed: the decoder of XGIDs accepts dice of eight and nine pips, whose picture raises AssertionError (C167_dice_refuted). For GNU identifiers the board has to be one that C70 describes: others have no picture (C165)."}
]}
