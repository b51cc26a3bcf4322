{"id": "C01", "title": "Point names round-trip", "statement": "Writing a point number in move notation and reading it back gives the same number for every point, the bar and off; the same holds for position notation for either player. Every integer above the bar is rejected with ValueError, and every integer below -1 is written as off/home (so it reads back as -1).", "quantifier": "for every integer and both players", "why_tests_cant": "tests list a handful of points; the claim covers all integers, including the rejected ones", "anchors": ["bglib/model/util.py: move_ntop, move_pton, position_ntop, position_pton"]}
{"id": "C02", "title": "Point parser accepts exactly the documented strings", "statement": "move_pton returns -1 for 'off' and '0', 24 for 'bar' and '25', n-1 for a decimal string denoting 1..24 and raises ValueError for every other string; position_pton likewise for its own domain. No accepted string yields a number outside -1..24.", "quantifier": "for every string", "why_tests_cant": "the set of strings is infinite", "anchors": ["bglib/model/util.py: move_pton, position_pton"]}
{"id": "C03", "title": "Opponent and point flipping are involutions", "statement": "Taking the opponent twice gives the same player, a player is never their own opponent, anything but the two players is rejected, and flipping a point number twice is the identity and maps the 24 points onto themselves.", "quantifier": "for every integer", "why_tests_cant": "an algebraic law over all integers", "anchors": ["bglib/model/util.py: get_opp, flip_point"]}
{"id": "C04", "title": "Board equality is field-wise", "statement": "Two boards compare equal exactly when all twelve fields agree; equality is reflexive, symmetric and transitive and != is its negation. Comparing a frozen board with an editor raises TypeError instead of returning an answer.", "quantifier": "for all pairs and triples of boards and editors", "why_tests_cant": "quantifies over all field values", "anchors": ["bglib/model/board.py: AbstractBoard.__eq__, __ne__", "bglib/model/boardeditor.py: BoardEditor"]}
{"id": "C05", "title": "Boards are immutable and editors do not alias", "statement": "No sequence of object constructions, attribute assignments, freezes and edits ever changes a frozen board that already exists, and editing one editor never changes any other object. Assigning an attribute of a frozen board raises TypeError.", "quantifier": "for every history of operations over any number of objects", "why_tests_cant": "aliasing shows only on particular histories", "anchors": ["bglib/model/board.py: Board.__new__, __setattr__", "bglib/model/boardeditor.py: BoardEditor.__init__, __setattr__, freeze"]}
{"id": "C06", "title": "Freezing an edit is lossless", "statement": "Making an editor from a board and freezing it gives an equal board; making an editor with a keyword override gives a board that differs from the original in at most that field, and has the given value there.", "quantifier": "for every board and every override", "why_tests_cant": "quantifies over all boards", "anchors": ["bglib/model/boardeditor.py: BoardEditor.__init__, freeze"]}
{"id": "C07", "title": "Switching sides is an involution", "statement": "flip applied twice restores every field; a single flip swaps the two positions, the score, the cube owner and both action holders and changes nothing else. If an action field holds no player an AssertionError is raised, and it says which fields were already changed.", "quantifier": "for every board", "why_tests_cant": "law over all states, including malformed ones", "anchors": ["bglib/model/boardeditor.py: flip"]}
{"id": "C08", "title": "At most one kind of action and one actor", "statement": "On every board at most one player is allowed to roll, at most one is allowed to move, nobody can roll and move at the same time, and a player asked to answer a double or a resignation can neither roll nor move.", "quantifier": "for every board state and both players", "why_tests_cant": "state space is unbounded", "anchors": ["bglib/model/board.py: is_leagal_to_roll, is_leagal_to_move, is_cube_take_or_pass, is_to_accept_resign"]}
{"id": "C09", "title": "Bear-off legality is the rule book", "statement": "is_ok_to_bearoff_from(n, die) is true exactly when the player on action has a chequer on n, every chequer is in the home board, and either the die takes the chequer off exactly or it is larger and no chequer stands on a higher point.", "quantifier": "for every non-negative position, every n on the board and every die", "why_tests_cant": "tests enumerate a few positions", "anchors": ["bglib/model/board.py: is_ok_to_bearoff_from"]}
{"id": "C10", "title": "Bear-off source search is sound and complete", "statement": "find_src_of_bearoff_with(die) returns a point only if bearing off from it with that die is legal, and returns a point whenever a legal bear-off with that die exists.", "quantifier": "for every non-negative position and every die", "why_tests_cant": "needs every position", "anchors": ["bglib/model/board.py: find_src_of_bearoff_with"]}
{"id": "C11", "title": "Queries do not care which seat you sit in", "statement": "Every move-level query (open to land, hitting, chequer to move, bear-off legality, bear-off source) gives the same answer on a board and on the board with sides switched.", "quantifier": "for every board and argument", "why_tests_cant": "symmetry law over all boards", "anchors": ["bglib/model/board.py: is_open_to_land, has_chequer_to_move, is_hitting_to_land, is_ok_to_bearoff_from, find_src_of_bearoff_with", "bglib/model/boardeditor.py: flip"]}
{"id": "C12", "title": "Doubling legality is the rule book and seat independent", "statement": "is_leagal_to_double(who) is true only for the player on action, not when the cube is already turned, not in the Crawford game, not when the cube is owned by the opponent, and gives the same answer with sides switched.", "quantifier": "for every board before the roll", "why_tests_cant": "asymmetry appears only at particular scores", "anchors": ["bglib/model/board.py: is_leagal_to_double"]}
{"id": "C13", "title": "A partial move conserves chequers", "statement": "Playing a partial move changes the number of chequers on the board of the mover by exactly -1 when it bears off and 0 otherwise, never changes the number of the opponent's chequers, and leaves everything but the position alone.", "quantifier": "for every board and every partial move whose points are on the board", "why_tests_cant": "conservation over all inputs", "anchors": ["bglib/model/boardeditor.py: make_partial_move"]}
{"id": "C14", "title": "Undo restores the board", "statement": "Playing a partial move and then its inverse restores the board exactly, for every position and both players, hits included.", "quantifier": "for every board and every partial move with distinct ends", "why_tests_cant": "round trip over all states", "anchors": ["bglib/model/boardeditor.py: make_partial_move", "bglib/model/move.py: MoveFactory.guess_your_multiple_partial_undoes"]}
{"id": "C15", "title": "Cube and resignation bookkeeping", "statement": "A drop gives exactly 2^cube points to the opponent of the player who drops and nobody else; accepting a resignation gives the accepter exactly 2^cube times the offered level; no other action changes the score, and no action ever touches the position. Each action is refused, with the board unchanged, when it is not that player's turn to do it.", "quantifier": "for every board, every player and every action", "why_tests_cant": "frame condition over all states", "anchors": ["bglib/model/boardeditor.py: double, take, drop, offer_resign, accept_resign, reject_resign, pickupdice"]}
{"id": "C16", "title": "A game is scored at most once", "statement": "Over any sequence of doubles, takes, drops and resignations, once a game has ended no further action changes the score.", "quantifier": "for every sequence of actions", "why_tests_cant": "needs arbitrary histories", "anchors": ["bglib/model/boardeditor.py: drop, accept_resign", "bglib/model/board.py: is_cube_take_or_pass, is_to_accept_resign"]}
{"id": "C17", "title": "Taking a double doubles the stake", "statement": "After a double is offered and taken the cube shows twice the old value, it belongs to the taker, and the taker may redouble later.", "quantifier": "for every board on which a double is legal", "why_tests_cant": "needs all states", "anchors": ["bglib/model/boardeditor.py: double, take, redouble"]}
{"id": "C18", "title": "A refused resignation leaves no trace", "statement": "If a player offers a resignation and the opponent rejects it, the board is exactly what it was before the offer.", "quantifier": "for every board on which the offer is legal", "why_tests_cant": "round trip over states", "anchors": ["bglib/model/boardeditor.py: offer_resign, reject_resign"]}
{"id": "C19", "title": "Dice pool arithmetic", "statement": "For every real roll the pool holds four dice for doubles and one of each otherwise; adding then consuming a die is the identity, consuming fails exactly when no such die is left, the length is the number of dice left, is_doubles tells whether two or more dice of one value are left, and get_max returns the largest die left.", "quantifier": "for every roll and every sequence of add/consume", "why_tests_cant": "arbitrary histories", "anchors": ["bglib/model/move.py: AvailableToPlay"]}
{"id": "C20", "title": "Move list normalisation does not change the play", "statement": "Appending partial moves to a Move, with cancellation of moves that undo each other, yields a move whose effect on any board equals playing every appended partial move one after another.", "quantifier": "for every list of partial moves and every board", "why_tests_cant": "unbounded lists", "anchors": ["bglib/model/move.py: Move.append", "bglib/model/boardeditor.py: make, make_partial_move"]}
{"id": "C21", "title": "No cancelling pair survives in a move", "statement": "After any sequence of appends no partial move in the list is the inverse of another one in the list.", "quantifier": "for every list of partial moves with distinct ends", "why_tests_cant": "unbounded lists", "anchors": ["bglib/model/move.py: Move.append, PartialMove.are_invertible_element"]}
{"id": "C22", "title": "The factory neither loses nor invents dice", "statement": "At any time during the building of a move, for each die value the dice still available plus the dice used by the moves in the list equals the dice rolled.", "quantifier": "for every sequence of successful appends and undos", "why_tests_cant": "arbitrary histories", "anchors": ["bglib/model/move.py: MoveFactory.append, AvailableToPlay.add, consume"]}
{"id": "C23", "title": "Appending is atomic", "statement": "If MoveFactory.append raises, the move list, the dice pool and the board are as they were before the call.", "quantifier": "for every factory state and partial move", "why_tests_cant": "failure atomicity needs every failing state", "anchors": ["bglib/model/move.py: MoveFactory.append"]}
{"id": "C24", "title": "Suggested single move from a source is legal and found when one exists", "statement": "guess_your_single_pm_from_source(src) returns a partial move starting at src whose die is available, that obeys the bar rule, the blocking rule and the bear-off rule; it returns an error only when no available die gives a legal move from src, and it prefers the largest die.", "quantifier": "for every board, pool and source", "why_tests_cant": "needs every position and pool", "anchors": ["bglib/model/move.py: MoveFactory.guess_your_single_pm_from_source"]}
{"id": "C25", "title": "Suggested single move to a destination is legal and found when one exists", "statement": "guess_your_single_pm_from_dest(dest) returns a partial move ending at dest that is legal with an available die, never raises for a destination on the board, does not change the pool it was given, and returns an error only when no such move exists.", "quantifier": "for every board, pool and destination", "why_tests_cant": "needs every position and pool", "anchors": ["bglib/model/move.py: MoveFactory.guess_your_single_pm_from_dest"]}
{"id": "C26", "title": "Multi-die move suggestion is a legal path and leaves the board alone", "statement": "guess_your_multiple_pms(src, dest) returns a chain of legal partial moves from src to dest that uses only available dice, leaves the factory board unchanged, and finds a path whenever one exists.", "quantifier": "for every board, pool, source and destination", "why_tests_cant": "search over unbounded states", "anchors": ["bglib/model/move.py: MoveFactory.guess_your_multiple_pms"]}
{"id": "C27", "title": "Undo suggestion leaves the board alone", "statement": "guess_your_multiple_partial_undoes(src, dest) computes a list of inverse moves and leaves the factory's board as it was.", "quantifier": "for every factory state", "why_tests_cant": "needs states with several moves made", "anchors": ["bglib/model/move.py: MoveFactory.guess_your_multiple_partial_undoes"]}
{"id": "C28", "title": "Making a point uses both dice once", "statement": "guess_your_making_point(dest) returns two partial moves to dest that together use two available dice and are playable one after the other.", "quantifier": "for every board and roll", "why_tests_cant": "needs every position", "anchors": ["bglib/model/move.py: MoveFactory.guess_your_making_point"]}
{"id": "C29", "title": "Asking whether the dice may be picked up changes nothing", "statement": "is_leagal_to_pickup_dice is a query: it leaves board, pool and move unchanged.", "quantifier": "for every factory state", "why_tests_cant": "side effects only show on particular positions", "anchors": ["bglib/model/move.py: MoveFactory.is_leagal_to_pickup_dice"]}
{"id": "C30", "title": "Signed byte is a bijection", "statement": "signedchr and signedord are mutually inverse between the integers -128..127 and the 256 bytes; every other integer is rejected.", "quantifier": "for every integer and every byte", "why_tests_cant": "law over all integers", "anchors": ["bglib/encoding/dbbyte.py: signedord, signedchr"]}
{"id": "C31", "title": "26-byte position code round-trips", "statement": "Decoding the encoded position gives the original position whenever no point is occupied by both sides and counts fit a signed byte; encoding a decoded byte string gives that string back, except that the own bar and the opponent's bar bytes keep only their legal sign.", "quantifier": "for every position and every 26-byte string", "why_tests_cant": "codec law over the whole domain", "anchors": ["bglib/encoding/dbbyte.py: encode_position, decode_position"]}
{"id": "C32", "title": "Position distance is a squared metric", "statement": "distance is symmetric, non-negative, zero exactly for equal byte strings of the same length, and its square root obeys the triangle inequality.", "quantifier": "for all byte strings", "why_tests_cant": "metric laws over all inputs", "anchors": ["bglib/encoding/dbbyte.py: distance"]}
{"id": "C33", "title": "Database expression round-trips", "statement": "A board converted to the database byte expression and back is equal to the original on every stored field, for both players on action.", "quantifier": "for every board whose fields fit the byte widths", "why_tests_cant": "codec law", "anchors": ["bglib/encoding/dbbyte.py: DatabaseBytesExpression, tomodel"]}
{"id": "C34", "title": "GNU position id round-trips", "statement": "decode_position(encode_position(p)) = p for every pair of 25 non-negative counts; hence different positions have different ids.", "quantifier": "for every position, with no limit on the counts", "why_tests_cant": "codec law with unbounded counts", "anchors": ["bglib/encoding/gnubgid.py: seq2bytes, byts2seq, twoside_encode, twoside_decode, encode_position, decode_position"]}
{"id": "C35", "title": "GNU position ids have 14 characters", "statement": "Every position with at most fifteen chequers a side encodes to exactly 14 base-64 characters.", "quantifier": "for every legal position", "why_tests_cant": "depends on the total number of chequers left", "anchors": ["bglib/encoding/gnubgid.py: seq2bytes, encode_position"]}
{"id": "C36", "title": "Position decoder always terminates", "statement": "decode_position returns or raises for every string.", "quantifier": "for every string", "why_tests_cant": "non-termination cannot be observed by a test", "anchors": ["bglib/encoding/gnubgid.py: decode_position"]}
{"id": "C37", "title": "GNU match id round-trips", "statement": "Decoding the match id of a set of match fields gives the same fields for all values that fit their bit widths, and the id has 12 characters.", "quantifier": "for every in-range field assignment", "why_tests_cant": "2^66 states", "anchors": ["bglib/encoding/gnubgid.py: MatchProxy, encode_match, decode_match"]}
{"id": "C38", "title": "Full board survives GNU encoding", "statement": "decode(encode(board)) restores every field of the board.", "quantifier": "for every board in range", "why_tests_cant": "law over all boards", "anchors": ["bglib/encoding/gnubgid.py: encode, decode"]}
{"id": "C39", "title": "XGID position field is decoded by the published layout", "statement": "For every 26 character position field, upper-case letters are read as chequers of one side at point i and lower-case ones as chequers of the other side at point 25-i, counts a..o / A..O, dashes and anything else as empty; the two bars are the first and last characters. Any other length is rejected.", "quantifier": "for every string", "why_tests_cant": "all 26-character strings", "anchors": ["bglib/encoding/xgid.py: decode_position"]}
{"id": "C40", "title": "Malformed XGIDs are rejected with DecodeError", "statement": "decode raises DecodeError for every string that is not a well-formed XGID, and never another exception.", "quantifier": "for every string", "why_tests_cant": "input space infinite", "anchors": ["bglib/encoding/xgid.py: decode"]}
{"id": "C41", "title": "A failed decode does not corrupt the board", "statement": "If an XGID or GNU id is rejected the board passed in is unchanged.", "quantifier": "for every string and board", "why_tests_cant": "needs every failing input", "anchors": ["bglib/encoding/xgid.py: decode", "bglib/encoding/gnubgid.py: decode"]}
{"id": "C42", "title": "FIBS board line is decoded for either player to move", "statement": "For every well-formed FIBS board state the decoder fills the board from the line, whichever player is on turn.", "quantifier": "for every FIBS board state", "why_tests_cant": "needs every turn/colour combination", "anchors": ["bglib/encoding/FIBS.py: decode, _FIBSBoardState"]}
{"id": "C43", "title": "Dice extractor accepts exactly two dice", "statement": "get_dice returns the two numbers when a message has exactly two digits 1..6 and raises ValueError otherwise.", "quantifier": "for every string", "why_tests_cant": "all messages", "anchors": ["bglib/encoding/FIBS.py: get_dice"]}
{"id": "C44", "title": "Bear-off index is a perfect index", "statement": "oneside_index maps the positions with at most c chequers on p points one-to-one onto 0 .. C(p+c,p)-1, and the empty position to 0.", "quantifier": "for every number of points (at least one) and chequers and every position", "why_tests_cant": "combinatorial bijection, unbounded", "anchors": ["bglib/encoding/bearoff/gnubgdb.py: oneside_index, f"]}
{"id": "C45", "title": "Bear-off key numbering is invertible", "statement": "k2t(t2k(t)) = t for every six-point position with at most fifteen chequers and t2k(k2t(k)) = k for every key.", "quantifier": "for every position and key", "why_tests_cant": "all positions", "anchors": ["bglib/encoding/bearoff/nori.py: t2k, k2t, sigmaD"]}
{"id": "C46", "title": "The world total is the number of backgammon positions", "statement": "The published constant WTN equals the number of ways to place up to fifteen chequers of each side on the board with no point shared.", "quantifier": "for all configurations", "why_tests_cant": "18 * 10^18 configurations cannot be enumerated", "anchors": ["bglib/encoding/bearoff/__init__.py: WTN, D, C"]}
{"id": "C47", "title": "Backing up finds the rearmost chequer", "statement": "backward returns the highest occupied point of a non-empty side, and count returns the number of chequers.", "quantifier": "for every side of the board", "why_tests_cant": "all positions", "anchors": ["bglib/encoding/bearoff/__init__.py: backward, count"]}
{"id": "C48", "title": "Winning chances are complementary and monotone", "statement": "The winning chances of two players in a match add up to one, each lies strictly between zero and one, grow with own rating, and the better player's chance grows with match length.", "quantifier": "for all real ratings and positive lengths", "why_tests_cant": "real-valued inputs", "anchors": ["bglib/stat/rating.py: winning_chance, upset_chance"]}
{"id": "C49", "title": "Rating points are conserved and favour upsets", "statement": "What the winner of a match gains is a positive number below the maximal swing, and the expected gain of either player under the predicted chances is zero.", "quantifier": "for all ratings and lengths", "why_tests_cant": "real-valued inputs", "anchors": ["bglib/stat/rating.py: gain_on_win"]}
{"id": "C50", "title": "Tournament rounds conserve players and cost exactly one life per match", "statement": "However players are paired and whoever wins, a round of n players with positive lives costs exactly floor(n/2) lives in total, never loses or duplicates a player, and keeps at least one survivor.", "quantifier": "for every field, every shuffle and every outcome", "why_tests_cant": "random pairings and outcomes", "anchors": ["bglib/stat/tourney.py: Tourney.round, Player"]}
{"id": "C51", "title": "A tournament ends", "statement": "Repeating rounds ends with a single survivor after a number of rounds bounded by the total number of lives, whatever the pairings and outcomes.", "quantifier": "for every field, shuffle and outcome sequence", "why_tests_cant": "termination over infinite schedules", "anchors": ["bglib/stat/tourney.py: Tourney"]}
{"id": "C52", "title": "Snowie validator accepts only records in order", "statement": "A sequence of lines accepted by the validator has its match length first, then for every game its header, players and moves numbered 1,2,3,... in order.", "quantifier": "for every sequence of lines", "why_tests_cant": "arbitrary histories", "anchors": ["bglib/record/snowietxt.py: LineValidator, statevalidate, ACCEPTABLES"]}
{"id": "C53", "title": "Oversized uploads are refused", "statement": "validate with a limit refuses every file whose total length reaches the limit, having read at most the line that crossed it, and accepts a smaller well-formed one.", "quantifier": "for every file and limit", "why_tests_cant": "all files", "anchors": ["bglib/record/snowietxt.py: Validator.validate, feed"]}
{"id": "C54", "title": "Chopping a record loses no line", "statement": "chop splits a valid record into one chunk per game; each chunk starts with the match length line and the chunks together contain every non-empty game line once, in order.", "quantifier": "for every valid record", "why_tests_cant": "unbounded input", "anchors": ["bglib/record/snowietxt.py: chop"]}
{"id": "C55", "title": "Cookie state machine follows the session protocol", "statement": "Whatever messages arrive, the classifier is in login state until the message-of-the-day starts, then in motd state until it ends, then in run state until a goodbye, and it always names exactly one cookie for each message.", "quantifier": "for every message sequence", "why_tests_cant": "arbitrary histories", "anchors": ["bglib/protocol/fibs.py: CookieMonster, LoginState, MOTDState, RunState"]}
{"id": "C56", "title": "A cookie does not depend on past messages", "statement": "In a given state the same message is always classified as the same cookie, whatever was received before.", "quantifier": "for every message and history", "why_tests_cant": "needs two histories", "anchors": ["bglib/protocol/fibs.py: State.make_cookie, bring_to_top, last_match_first"]}
{"id": "C57", "title": "Every subscriber sees every message", "statement": "When a message is dispatched every subscriber registered at that moment that has a handler is called exactly once, in registration order, even if handlers register or unregister subscribers.", "quantifier": "for every list of subscribers and handler behaviour", "why_tests_cant": "re-entrancy", "anchors": ["bglib/protocol/session.py: Session._dispatch, register, unregister"]}
{"id": "C58", "title": "Closing a session stops delivery", "statement": "Once close has returned no handler is called any more, under every interleaving of the listener thread and the caller, and the termination event is eventually set.", "quantifier": "for every interleaving", "why_tests_cant": "schedules cannot be enumerated by tests", "anchors": ["bglib/protocol/session.py: Transport.close, is_active, Session._listener, _dispatch"]}
{"id": "C59", "title": "Escaped text contains no markup", "statement": "The output of escape contains no '<' or '>' and every '&' in it starts one of the three entities; unescaping gives the input back, and escaping preserves concatenation.", "quantifier": "for every string", "why_tests_cant": "all strings", "anchors": ["bglib/doc/html.py: escape"]}
{"id": "C60", "title": "Generated attributes cannot be broken out of", "statement": "An element rendered with any attribute values contains exactly the attributes given; no value can close the quote.", "quantifier": "for every attribute value", "why_tests_cant": "all strings", "anchors": ["bglib/doc/doctree.py: BgWikiElementNode.open", "bglib/doc/html.py: escape"]}
{"id": "C61", "title": "Rendered documents are balanced", "statement": "For every sequence of editor operations whose texts and attribute names contain no angle brackets (append_text writes its text as it is given), the rendered document has properly nested open and close tags, and each node of the document is visited exactly once, in document order.", "quantifier": "for every operation sequence", "why_tests_cant": "arbitrary histories", "anchors": ["bglib/doc/doctree.py: Editor, HtmlWriter, Node.accept"]}
{"id": "C62", "title": "Document content model is respected", "statement": "Every node in a document built with the editor was accepted by the node that holds it.", "quantifier": "for every operation sequence", "why_tests_cant": "arbitrary histories", "anchors": ["bglib/doc/doctree.py: Editor.append, enter, append_text, acceptables"]}
{"id": "C63", "title": "Text is neither lost nor reordered", "statement": "The concatenation of all text leaves in document order equals the concatenation of all appended texts when nothing is removed.", "quantifier": "for every sequence of editor operations", "why_tests_cant": "arbitrary histories", "anchors": ["bglib/doc/doctree.py: Editor.append_text, append, leave"]}
{"id": "C64", "title": "Preformatted blocks are rendered verbatim", "statement": "The body of a preformatted block appears in the output escaped and otherwise unchanged, line by line.", "quantifier": "for every block of lines", "why_tests_cant": "all texts", "anchors": ["bglib/doc/bgwiki.py: WrappingFormatterElement, PreformatFormatter"]}
{"id": "C65", "title": "A style rule applies to exactly the elements its selectors describe", "statement": "For every rule with selectors s1 .. sn and every path from the root of a tree to an element, Rule.is_match answers true exactly if the element has the name, the own attribute value and the text that sn asks for and the ancestors contain, in order and with any gaps, elements described by s1 .. s(n-1). It raises nothing unless one of the attribute tests does.", "quantifier": "all rules, all paths", "why_tests_cant": "a test can try some selectors on some trees; the search for ancestors with gaps is a loop whose correctness is about all of them", "anchors": ["bglib/image/css.py:75-86", "bglib/image/css.py:113-136"]}
{"id": "C66", "title": "Later rules win, attribute by attribute, and nothing else changes", "statement": "Applying a loaded style sheet to the tree of a board changes only attributes and the list of line numbers of the rules applied. Each element ends with, for every attribute, the value of the last rule that selects it and mentions the attribute, and with its own former value if there is none.", "quantifier": "all style sheets that load, all boards that can be shown", "why_tests_cant": "the effect of a sheet is a product of all its rules over all elements", "anchors": ["bglib/image/css.py:138-222", "bglib/image/base.py:227-234", "bglib/image/base.py:262-276"]}
{"id": "C67", "title": "Inherited attributes come from the nearest ancestor that has them", "statement": "Reading an attribute of an element gives the value of the element itself; failing that, for an inherited attribute, that of the nearest ancestor that has one; failing that the default of the attribute, and AttributeError only if there is none. An attribute that is not inherited never comes from an ancestor.", "quantifier": "all elements, all chains of ancestors, all attributes of the element", "why_tests_cant": "tests look at shallow trees only", "anchors": ["bglib/image/base.py:278-292", "bglib/image/base.py:36-173"]}
{"id": "C68", "title": "Visiting a tree reaches every element exactly once, parents first", "statement": "visit calls its callback with the path of every element of the tree, in document order with parents before children, exactly once each, and stops at the first exception; the tree keeps its shape and the path given to visit is left as it was found.", "quantifier": "all trees, all callbacks", "why_tests_cant": "depends on the depth and shape of the tree", "anchors": ["bglib/image/base.py:700-709"]}
{"id": "C69", "title": "The tree of a board shows the board", "statement": "Each of the 24 points, the bars and the homes holds the chequers the position gives to them and no others, with 15 per player in all; the cube is shown once, with its value and at its owner, or its next value in front of the player who has to answer a double; the dice rolled are shown in front of the player who has to move, and a resignation in front of the player who has to answer it; scores, match length and Crawford are those of the board.", "quantifier": "all boards with 25 entries per side that can be shown", "why_tests_cant": "the state space is the product of positions, cube, dice and offers", "anchors": ["bglib/image/base.py:682-939"]}
{"id": "C70", "title": "Every board that can be reached can be shown", "statement": "Starting from a board in which nobody waits for an answer that was not asked for, after any sequence of doubles, takes, drops, resignations, answers, rolls, moves and pick-ups the element tree of the board can be made. Which boards cannot be shown is described exactly; for them the constructor raises AssertionError.", "quantifier": "all boards, all sequences of actions", "why_tests_cant": "the actions interact; the ten cases of set are meant to be exhaustive", "anchors": ["bglib/image/base.py:783-875", "bglib/model/boardeditor.py:94-147"]}
{"id": "C71", "title": "A board is scaled to fit the picture", "statement": "set_mag makes the magnification the smaller of the two ratios, positive, so that the scaled width and height of the board, and every length up to these, are at most those asked for, and changes nothing else.", "quantifier": "all boards, all sizes", "why_tests_cant": "rounding of floating point numbers", "anchors": ["bglib/image/base.py:208-212", "bglib/image/base.py:310-317"]}
{"id": "C72", "title": "Elements hold only what they may hold", "statement": "append succeeds exactly if the content model of the receiver lists the element (or text); it then puts it last, makes the receiver its parent and changes nothing else, and otherwise raises TypeError and changes nothing. After any sequence of appends every element holds only what its content model lists, the parent of an element holds it, and no element lies within itself.", "quantifier": "all sequences of creations and appends, with shared references", "why_tests_cant": "aliasing and cycles are about all sequences", "anchors": ["bglib/image/base.py:190-225"]}
{"id": "C73", "title": "The dice may be picked up exactly when the rules say so", "statement": "While a move is being built is_leagal_to_pickup_dice answers true exactly when no die is left, or no available die can be played and no other way of playing the roll uses more dice or the larger die.", "quantifier": "for every legal position, roll and move built so far", "why_tests_cant": "the number of ways to play a roll is too large to enumerate for every position", "anchors": ["bglib/model/move.py: MoveFactory.is_leagal_to_pickup_dice"]}
{"id": "C74", "title": "Money-game XGIDs are accepted", "statement": "An XGID of a money game is accepted whatever its Jacoby/Beaver field (0 to 3) says.", "quantifier": "for every XGID", "why_tests_cant": "all strings", "anchors": ["bglib/encoding/xgid.py: decode"]}
{"id": "C75", "title": "Every board survives being written as an XGID", "statement": "Writing a running game in the published XGID notation and decoding the text gives back the same position, cube, owner, turn, dice, score, match length and Crawford flag.", "quantifier": "for every board whose counts are 0..15 with no point shared", "why_tests_cant": "unbounded scores and match lengths, all positions", "anchors": ["bglib/encoding/xgid.py: decode"]}
{"id": "C76", "title": "What an XGID means does not depend on the board decoded into", "statement": "Decoding one XGID into two boards gives equal boards.", "quantifier": "for every XGID and every two boards", "why_tests_cant": "all prior states", "anchors": ["bglib/encoding/xgid.py: decode"]}
{"id": "C77", "title": "Player name extractor returns the leading name", "statement": "get_name returns the longest prefix made of letters, underscore and angle brackets, and None exactly when the message does not start with such a character.", "quantifier": "for every string", "why_tests_cant": "all strings", "anchors": ["bglib/encoding/FIBS.py: get_name"]}
{"id": "C78", "title": "Take, move and score extractors work", "statement": "get_taker_name returns the name in front of 'accepts', get_move the move listed, get_score the number in the message.", "quantifier": "for every message", "why_tests_cant": "all strings", "anchors": ["bglib/encoding/FIBS.py: get_taker_name, get_move, get_score"]}
{"id": "C79", "title": "Match score extractors read the numbers in order", "statement": "get_match_scores returns the three numbers of a message with exactly three runs of digits and raises ValueError for every other; get_resign_score returns the first number and raises IndexError when there is none.", "quantifier": "for every string", "why_tests_cant": "all strings", "anchors": ["bglib/encoding/FIBS.py: get_match_scores, get_resign_score"]}
{"id": "C80", "title": "Two-sided bear-off keys are distinct", "statement": "trice.t2k gives different keys to different pairs of home boards.", "quantifier": "for every two positions", "why_tests_cant": "all positions", "anchors": ["bglib/encoding/bearoff/trice.py: t2k"]}
{"id": "C81", "title": "A database record is read whole", "statement": "rawread(i) returns exactly bytes i*datalen .. (i+1)*datalen-1 of the file however the operating system splits the reads, and raises IndexError exactly when the file ends before.", "quantifier": "for every file, record length, index and every splitting of the reads", "why_tests_cant": "short reads are chosen by the operating system", "anchors": ["bglib/encoding/bearoff/__init__.py: DBReader.rawread"]}
{"id": "C82", "title": "Tournament chances follow from the rating formula", "statement": "tourney_chance returns the chance of winning every round and that of losing only the final; both lie strictly between zero and one, add up to the chance of reaching the final, and the first grows strictly with the rating.", "quantifier": "for all real ratings, match lengths and numbers of rounds >= 1", "why_tests_cant": "real-valued inputs", "anchors": ["bglib/stat/tourney.py: tourney_chance"]}
{"id": "C83", "title": "Handicaps equalise expectations", "statement": "With prize_handicap every player has the expected winnings of an average player in either place; with entryfee_handicap every player pays the same for each unit of winning chance; an average player gets the unchanged prizes and fee.", "quantifier": "for all real ratings, prizes, fees and match lengths", "why_tests_cant": "real-valued inputs", "anchors": ["bglib/stat/tourney.py: prize_handicap, entryfee_handicap"]}
{"id": "C84", "title": "The numbered lines of a record are recognised", "statement": "A line of the published layout - blank, number, ' point match'; 'Game ' and a number; a number, ')' and a blank; 'Wins ' and a number of points - is always recognised as what it is, whatever follows it and however large the number, and the move number read from it is that number.", "quantifier": "for every number, indentation and rest of line", "why_tests_cant": "The set of lines is infinite, and seven alternatives compete for each line.", "anchors": ["bglib/record/snowietxt.py: LineValidator._first, _last, handle_moves"]}
{"id": "C85", "title": "Announcements about other players are recognised", "statement": "When the server says of another player that they reject a resignation, make the first move, log out with the game saved, drop the connection, wave goodbye or join a saved match, the message gets the cookie named after that event.", "quantifier": "for every user name, history and order of the cookie table", "why_tests_cant": "needs every user name and history", "anchors": ["bglib/protocol/fibs.py: RunState"]}
{"id": "C86", "title": "A session can be opened again", "statement": "After a session was closed it can be opened again, and then delivers messages to its subscribers as before.", "quantifier": "for every interleaving and every closed session", "why_tests_cant": "needs a history of close and open under all schedules", "anchors": ["bglib/protocol/session.py: Transport.open, close, Session._dispatch"]}
{"id": "C87", "title": "A failing handler does not end the session", "statement": "When a handler raises, the other subscribers still get the message and later messages are still delivered.", "quantifier": "for every interleaving, handler and exception", "why_tests_cant": "needs arbitrary handlers", "anchors": ["bglib/protocol/session.py: Session._dispatch, _listener"]}
{"id": "C88", "title": "Handlers never run at the same time", "statement": "From the moment a dispatch has read the list of subscribers until it ends no other thread calls a handler, registers, unregisters or closes.", "quantifier": "for every interleaving", "why_tests_cant": "schedules cannot be enumerated by tests", "anchors": ["bglib/protocol/session.py: synchronized_with, Transport.lock, Session._dispatch"]}
{"id": "C89", "title": "The lock is never left behind", "statement": "Whenever a thread has the lock it is inside a method or a dispatch, not finished or idle, and it can go on; so no thread waits for a lock that nobody will release, even when handlers use the session themselves or raise.", "quantifier": "for every interleaving and handler behaviour", "why_tests_cant": "schedules cannot be enumerated by tests", "anchors": ["bglib/protocol/session.py: synchronized_with, Transport, Session"]}
{"id": "C90", "title": "Normalised HTML ignores line breaks only", "statement": "Two documents normalise to the same text exactly when they are equal after removing all line breaks; normalising twice changes nothing more; in a normalised document line breaks come exactly after each '>'.", "quantifier": "for every two strings", "why_tests_cant": "all strings", "anchors": ["bglib/doc/html.py: nomalize"]}
{"id": "C91", "title": "The HTML of every wiki text is well formed", "statement": "Whatever is written, the tags of the HTML are balanced: every tag can be read, every opening tag is closed by its own closing tag in the right order, and no angle bracket of the text gets into the HTML as it is.", "quantifier": "for every wiki text and every order of the list styles", "why_tests_cant": "all texts; markup can overlap in any way", "anchors": ["bglib/doc/bgwiki.py: Formatter, LineFormatter, WrappingFormatter", "bglib/doc/macro.py", "bglib/doc/doctree.py: HtmlWriter"]}
{"id": "C92", "title": "No wiki text makes the parser raise", "statement": "Parsing a wiki text does not raise.", "quantifier": "for every wiki text", "why_tests_cant": "all texts", "anchors": ["bglib/doc/bgwiki.py: Formatter.parse", "bglib/doc/macro.py: _parse_position"]}
{"id": "C93", "title": "Every wiki text that was parsed can be rendered", "statement": "make_html after a successful parse does not raise.", "quantifier": "for every wiki text", "why_tests_cant": "all texts; depends on which list items follow which", "anchors": ["bglib/doc/bgwiki.py: Formatter.make_html", "bglib/doc/doctree.py: ItemizeElement.open, ListElement"]}
{"id": "C97", "title": "Wiki texts cannot add attributes to tags", "statement": "Every tag of the HTML has only the attributes class, title, href, src and id, and those of the analysis tables; a text cannot add others such as event handlers.", "quantifier": "for every wiki text", "why_tests_cant": "all texts; an injection", "anchors": ["bglib/doc/bgwiki.py: link handlers", "bglib/doc/html.py: escape", "bglib/doc/doctree.py: BgWikiElementNode.open"]}
{"id": "C98", "title": "An element lies in one place", "statement": "After any sequence of appends an element is the child of at most one element.", "quantifier": "all sequences of creations and appends", "why_tests_cant": "aliasing", "anchors": ["bglib/image/base.py:214-219"]}
{"id": "C95", "title": "Paragraphs do not influence each other", "statement": "An empty line ends everything that was open: the HTML of a text, an empty line and another text is the HTML of the first followed by the HTML of the second, and an exception of the second is an exception of the whole.", "quantifier": "for all pairs of texts without tables of contents, the first of which has no preformatted block that is still open", "why_tests_cant": "all pairs of texts; styles, lists, tables, citations and definitions may be left open in any combination", "anchors": ["bglib/doc/bgwiki.py: LineFormatter.parse", "bglib/doc/doctree.py: Editor"]}
{"id": "C99", "title": "HTML follows the order of editing", "statement": "If every element is entered where the innermost open element accepts it, and left when it is the innermost one, then the HTML is the opening tags, texts and closing tags in the order in which they were given to the editor; texts that follow each other share a line, and elements that are still open are closed at the end.", "quantifier": "all such sequences of editing operations", "why_tests_cant": "all sequences and depths of nesting", "anchors": ["bglib/doc/doctree.py: Editor", "bglib/doc/doctree.py: HtmlWriter"]}
{"id": "C94", "title": "The table of contents lists the headings", "statement": "A table of contents is a nested numbered list with one item per heading of the document, in their order, at the depth of its level, with its texts and a link to its fragment; writing it changes nothing but the ids of the headings.", "quantifier": "all documents built with the editor", "why_tests_cant": "all numbers and levels of headings and all their contents", "anchors": ["bglib/doc/macro.py: TocVisitor", "bglib/doc/macro.py: TableOfContentNode.open"]}
{"id": "C96", "title": "Links of the table of contents lead to headings", "statement": "For every link of the table of contents the page has a heading with that id.", "quantifier": "all documents with a table of contents", "why_tests_cant": "all positions of the table among the headings", "anchors": ["bglib/doc/macro.py: TocVisitor.enter", "bglib/doc/doctree.py: HtmlWriter"]}
{"id": "C100", "title": "Writing a document again gives the same HTML", "statement": "Writing the HTML of a document for the second time gives the same as for the first time and leaves the document as it is.", "quantifier": "all documents, with and without tables of contents", "why_tests_cant": "all documents; the writer changes ids on the way", "anchors": ["bglib/doc/macro.py: TableOfContentNode.open", "bglib/doc/doctree.py: HtmlWriter"]}
{"id": "C101", "title": "Every shipped theme draws every board", "statement": "Each of the eight style sheets that come with the package loads, and with it every board of a game is drawn without an exception at its own size; at any other size drawing raises exactly when set_mag does. At least one thing is drawn.", "quantifier": "all themes, all positions with up to fifteen chequers a side, all rolls, cubes, scores and match lengths, open doubles and resignations, all sizes", "why_tests_cant": "thousands of selectors and attributes against all boards; a missing width or a text of the wrong kind raises only on the boards that show that element", "anchors": ["bglib/image/resource/*/default.css", "bglib/image/css.py: load", "bglib/image/renderer.py: renderer.render", "bglib/image/base.py: BaseElement.draw"]}
{"id": "C102", "title": "Every image and font that a picture needs comes with the package", "statement": "While a board is drawn with a theme of the package, every image and every font that is asked for is a file of the package.", "quantifier": "all themes, all boards, all sizes", "why_tests_cant": "files are asked for only by boards that show them: nine chequers on the bar, a cube at 64", "anchors": ["bglib/image/resource/*/default.css", "bglib/image/base.py: Image, Font", "bglib/image/draw.py: draw_image, draw_text"]}
{"id": "C103", "title": "Attributes have values of the kind their name says", "statement": "After a style sheet has been applied to the elements of a board, every attribute that can be read has a value of the kind its name says: sizes and positions are integers, colours, images and fonts are texts, flags are booleans, and player, parity and die style are one of their words, whatever the style sheet contains.", "quantifier": "for every style sheet, board, element and attribute name", "why_tests_cant": "style sheets are arbitrary texts, and values pass through conversion, defaults and inheritance", "anchors": ["bglib/image/base.py: BaseAttribute, BaseElement.__getattr__, set_attribute", "bglib/image/css.py: Rule.apply"]}
{"id": "C104", "title": "A picture made with PIL holds what the board asks for", "statement": "When a board is drawn with the Python Imaging Library, the picture has the size that was asked for, and the calls that are made on it are those of the elements in order: rectangles and ellipses at their places and sizes, polygons, images resized to the box (turned upside down exactly if flip is set) and texts; up to the first that fails, and with the exception of that one.", "quantifier": "for every style sheet, board, size, library and history of the drawing context", "why_tests_cant": "caches and earlier drawings could change a later picture", "anchors": ["bglib/image/PIL.py: Context", "bglib/image/draw.py: Draw.draw, draw_element"]}
{"id": "C105", "title": "Texts are set as large as they fit", "statement": "A text in a picture lies inside its box and in the middle of it, to within one pixel; it is set in the largest size not above the height of the box at which it fits; and a text is left out only if it does not fit at the height of the box, nor at any smaller size down to 8.", "quantifier": "for every style sheet, board, size, font and text", "why_tests_cant": "the search for a size depends on the metrics of the font", "anchors": ["bglib/image/PIL.py: calc_font_size, draw_text, load_font"]}
{"id": "C106", "title": "A drawing context can be used again", "statement": "What drawing a board gives, the picture or the exception, does not depend on what was drawn before with the same context, even if an earlier drawing failed; and no later drawing changes a picture that was made before.", "quantifier": "for every two histories of drawings, and every style sheet, board and size", "why_tests_cant": "needs all histories; caches and the state of the context carry over", "anchors": ["bglib/image/PIL.py: Context, load_font, load_image", "bglib/image/draw.py: Draw.draw"]}
{"id": "C107", "title": "PIL drawings fail only because of files", "statement": "If the elements of a board can be drawn, then drawing it with the Python Imaging Library fails only because a font or an image that is named cannot be read at a size that comes into question; and it does fail if a file it names is missing. The themes of the package therefore draw every proper board wherever their files can be read, and the theme matrix, whose font is not in the package, draws none.", "quantifier": "for every style sheet, board, size, library and history", "why_tests_cant": "which files are read depends on the board and on the cache", "anchors": ["bglib/image/PIL.py: load_font, load_image, draw_text, paste_image", "bglib/image/resource"]}
{"id": "C108", "title": "The client remembers each kind of message once", "statement": "However long a session lasts, the list of recently seen cookies, which is tried first, has no cookie twice, and only cookies of the present phase; so it never becomes longer than the table of cookies.", "quantifier": "for every sequence of messages and every order of the table", "why_tests_cant": "sessions are unbounded", "anchors": ["bglib/protocol/fibs.py: State.bring_to_top, last_match_first"]}
{"id": "C109", "title": "Every chequer is drawn", "statement": "A stack of chequers is drawn as that many discs or pictures, but at most max_count, of the scaled size: the first at the place the style sheet gives, each next one moved by the offsets, and also by the second offsets if it would leave the element around it to the right or below. If there are more than max_count, the number follows exactly if a font is set and hide_count is not. If no stack is higher than its max_count and the sheet colours or pictures all chequers, a drawing has exactly thirty of them.", "quantifier": "for every style sheet, size and board of 25 points with at most fifteen chequers each", "why_tests_cant": "which sheets and which positions can be combined is unbounded; the loop carries the place along", "anchors": ["bglib/image/base.py: Chequer.draw", "bglib/image/draw.py: Draw.draw_element"]}
{"id": "C110", "title": "Dice show their number", "statement": "A die in the style dot without a picture is drawn as exactly as many eyes as its number, arranged as on a die to within a pixel, and all inside the die if the eyes are at most half as large as the die; in the style numeric with a font it is its number; with a picture it is that picture. The eyes of a drawing are as many as were rolled, and a board without a roll has no die.", "quantifier": "for every style sheet, size and board", "why_tests_cant": "all sizes and roundings cannot be enumerated", "anchors": ["bglib/image/base.py: Die.draw"]}
{"id": "C111", "title": "What is written in a drawing", "statement": "If the elements have a font, a colour and no picture, the drawing has the scores, the length of the match, a star exactly in the Crawford game, what there is to do, the cube with the power of two of its logarithm, twice as much while a double is offered, or the initialCube of the sheet when it is one, and the word for the resignation that is offered.", "quantifier": "for every style sheet, size and board", "why_tests_cant": "needs all boards and sheets", "anchors": ["bglib/image/base.py: Length.draw, Score.draw, Crawford.draw, Action.draw, Cube.draw, Resign.draw"]}
{"id": "C112", "title": "The action says what there is to do and who has to do it", "statement": "The text of the action element says who has to roll, move, take or drop, or answer a resignation, according to dice, cube and resignation on the board; and its player attribute, by which style sheets colour it, is the player who has to do it.", "quantifier": "for every board that can be shown", "why_tests_cant": "needs all combinations of the fields of a board", "anchors": ["bglib/image/base.py: ElementTree.set_action"]}
{"id": "C113", "title": "The XML of a board says what the board is", "statement": "The document xml() of the element tree of a board is well formed, its root and document type are board, and reading it gives the elements of the tree in their order, each with its name, its attributes and its text, whatever order the dictionaries of attributes list their keys in.", "quantifier": "for every board that can be shown and every order of the dictionaries", "why_tests_cant": "the numbers and texts of all boards cannot be enumerated", "anchors": ["bglib/image/base.py: BaseElement.format, ElementTree.xml"]}
{"id": "C114", "title": "Styled trees have well formed XML", "statement": "The document of a tree that was styled with a style sheet, and perhaps scaled, is well formed and reads back as the tree.", "quantifier": "for every style sheet, board and size", "why_tests_cant": "needs all sheets", "anchors": ["bglib/image/base.py: BaseElement.format, BaseAttribute.format", "bglib/image/css.py"]}
{"id": "C115", "title": "The documents are valid by the DTD", "statement": "What make_dtd() writes is a document type definition that can be read, and the documents of boards, bare or styled, are valid by it: every element is declared, holds only what its content model allows, and has only declared attributes with values of their enumerations.", "quantifier": "for every board, every style sheet without quotation marks, every order of classes and dictionaries", "why_tests_cant": "needs all documents", "anchors": ["bglib/image/base.py: make_dtd, make_DTD_ELEMENT, make_DTD_ATTLIST, ElementTree.xml"]}
{"id": "C116", "title": "Boards have the same XML exactly if they look alike", "statement": "Two boards have the same document exactly if position, score, length, Crawford, dice and action agree; before the dice are rolled also what was doubled and who answers; the resignation if one is to be answered; the owner of the cube unless it is offered; and its value unless it is offered with dice on the table.", "quantifier": "for every two boards that can be shown", "why_tests_cant": "needs all pairs of boards", "anchors": ["bglib/image/base.py: ElementTree.set, ElementTree.xml"]}
{"id": "C117", "title": "Points are drawn as twenty-four triangles", "statement": "A point that is drawn and has no picture is a triangle in its colour (or an outline, if it is not to be filled) on one side of its rectangle, on the upper side if it is flipped and on the lower side otherwise, with its tip in the middle of the opposite side to within a pixel; with a picture it is that picture in that rectangle. If all points are drawn so, a drawing has exactly twenty-four triangles, one for each of the points 1 to 24, and nothing but a point is drawn as a triangle.", "quantifier": "for every style sheet, size and board", "why_tests_cant": "all sizes, roundings and style sheets cannot be enumerated", "anchors": ["bglib/image/base.py: Point.draw", "bglib/image/draw.py: Draw.draw"]}
{"id": "C118", "title": "Elements are drawn in their own rectangles", "statement": "Whatever is drawn for an element other than a stack of chequers, a resignation with a picture or the eyes of a die is drawn in the rectangle that its own x, y, width and height give, magnified: texts, pictures and backgrounds fill exactly that rectangle and triangles have their corners in it. A resignation with a picture is drawn as that picture once for a single game, twice for a gammon, three times for a backgammon, each moved by the offsets once more.", "quantifier": "for every element tree, whatever styled it", "why_tests_cant": "all attribute values and element kinds cannot be enumerated", "anchors": ["bglib/image/base.py: draw methods of all elements", "bglib/image/base.py: Resign.draw"]}
{"id": "C119", "title": "However a game is played through suggestions, the board stays a position of backgammon", "statement": "From a board with no shared point and no negative count, any sequence of rolls, suggested moves (from a point, to a point, along a path, making a point, taking back), pick-ups, cube and resignation calls leaves a board with no negative count, no point held by both players and no player with more chequers than before.", "quantifier": "for every starting position, every sequence of calls of any length and every roll", "why_tests_cant": "whole games are unbounded sequences of calls that mutate one shared board", "anchors": ["bglib/model/move.py: MoveFactory.append, add, pickupdice, guess_your_single_pm_from_source, guess_your_single_pm_from_dest, guess_your_multiple_pms, guess_your_multiple_partial_undoes, guess_your_making_point", "bglib/model/boardeditor.py: make_partial_move, pickupdice"]}
{"id": "C120", "title": "A turn costs exactly its dice", "statement": "A turn played through suggestions is a sequence of legal steps. Each step lowers the pip count of the mover by its die, or by less when it bears off from a point nearer than the die, and each hit raises the pip count of the opponent by the distance sent back and their bar by one. The dice used and the dice left make up the roll, the turn never gains more than the roll, and exactly the roll if all dice are used and nothing is borne off. Nothing but the position changes.", "quantifier": "for every board, every roll and every list of questions", "why_tests_cant": "all boards times all sequences of suggestions", "anchors": ["bglib/model/move.py: MoveFactory, AvailableToPlay", "bglib/model/boardeditor.py: make_partial_move"]}
{"id": "C121", "title": "Every position reached in play survives all three encodings", "statement": "A board reached by playing from a starting position is given back by the GNU position id, by the 26-byte database code and, while the game is on and nothing waits for an answer, by the XGID text. Two reached positions with one id are the same position.", "quantifier": "for every game of any length from every starting position", "why_tests_cant": "needs the invariant of whole games and the codec laws at once", "anchors": ["bglib/encoding/gnubgid.py: encode_position, decode_position", "bglib/encoding/dbbyte.py: DatabaseBytesExpression, tomodel", "bglib/encoding/xgid.py: decode", "bglib/model/move.py: MoveFactory"]}
{"id": "C122", "title": "A tracer starts where it is told", "statement": "Tracer(\":\".join(encode(b))) holds the board b, for every board whose fields fit the GNU format (with the one exception known from C38: a running money session with points scored is refused with InconsistentData). A text without exactly one colon raises ValueError whatever else it holds; Tracer(board=b) holds b even if an id is given too; Tracer() holds the default board.", "quantifier": "forall boards, forall texts", "why_tests_cant": "The id is split at the colon, so the claim depends on no id ever containing one, over all positions and match fields.", "anchors": ["bglib/record/gnubg.py:15-25", "bglib/encoding/gnubgid.py:212-278"]}
{"id": "C123", "title": "A tracer follows the actions of a game", "statement": "After set_action was given a well formed record (an action, the player on turn, a board), the tracer answers the questions about that action (on_move, on_roll_or_double, on_take_or_pass, on_pickup_dice, pickup_dice); set_action accepts exactly the records of the player on turn.", "quantifier": "forall boards, forall sequences of calls, forall records", "why_tests_cant": "Whether any sequence of calls leads to an answer is a statement about all histories; the tests of the project call methods that do not exist.", "anchors": ["bglib/record/gnubg.py:27-81"]}
{"id": "C124", "title": "GNU ids tell boards apart and do not depend on the chair", "statement": "Two boards have the same pair of GNU ids exactly if all their fields are equal. The match id depends on everything but the position and tells all of it; the position id is the same for boards with the same position and player on turn, and is also the same when the two sides and the turn are exchanged together.", "quantifier": "forall pairs of boards whose fields fit the format", "why_tests_cant": "Injectivity over all positions and match fields cannot be sampled.", "anchors": ["bglib/encoding/gnubgid.py:212-238", "bglib/encoding/gnubgid.py:150-194"]}
{"id": "C125", "title": "A wiki page that begins with a table of contents links to all its headings", "statement": "If the first line of a wiki page is [[TableOfContent]] and the page is rendered, the result holds the table of contents of the parsed page: one entry for each heading, in the order of the page, with the heading's level and label; and after the table the start tag of each of these headings carries as id the name the link of its entry refers to. Whatever a wiki text holds, the document it is parsed to is one that calls of the editor (enter, leave, append_text, add attributes ...) make, so what holds for edited documents (C94, C96, C99, C100) holds for wiki pages.", "quantifier": "forall lists of lines following the macro, forall wiki texts", "why_tests_cant": "Headings may sit anywhere among lists, tables, citations and other macros; the claim relates two places of the output for every page.", "anchors": ["bglib/doc/macro.py:108-180", "bglib/doc/bgwiki.py: BaseParser", "bglib/doc/doctree.py: Editor"]}
{"id": "C126", "title": "Every ampersand in the HTML of a wiki text begins a reference", "statement": "In the HTML of a wiki text an ampersand occurs only as the beginning of a character reference (lt, gt or amp), so that the page shows the characters that were written and can be read as XML.", "quantifier": "for every wiki text, every order of the list styles, every set of analysis tables and every text formatter whose own output has that property", "why_tests_cant": "all texts; many handlers write text, each escaping by itself", "anchors": ["bglib/doc/bgwiki.py: LineFormatter._handle_pattern_auto_anchor, _handle_pattern_escape_html, _handle_pattern_rest_of_the_world", "bglib/doc/doctree.py: BgWikiElementNode.open, WrappingFormatterElement", "bglib/doc/html.py: escape"]}
{"id": "C127", "title": "A URL becomes a link to that URL", "statement": "A text that is a URL is shown as one link, and the link leads to that URL.", "quantifier": "for every http or https URL of the characters the wiki accepts", "why_tests_cant": "all URLs; the link has to be read back the way a browser does", "anchors": ["bglib/doc/bgwiki.py: LineFormatter._handle_pattern_auto_anchor", "bglib/doc/doctree.py: AnchorElement.set_url, BgWikiElementNode.open"]}
{"id": "C128", "title": "The HTML of a wiki text passes the validity check of the project", "statement": "The HTML of a wiki text is well-formed XML inside an element, which is what bglib.doc.html.validate checks with expat and what the fuzzer of the project looks for: tags are nested, no attribute is given twice in a tag, attribute values are quoted, texts and values have only legal characters and no < or & that is not part of a reference.", "quantifier": "for every wiki text of characters that XML in us-ascii allows, every order of the list styles, every set of writable analysis tables, every text formatter whose own output is well formed", "why_tests_cant": "all texts; the fuzzer tries some, and a page is put together by many handlers", "anchors": ["bglib/doc/html.py: validate", "bglib/doc/fuzzing.py: Gene.verify", "bglib/doc/bgwiki.py: Formatter, LineFormatter", "bglib/doc/doctree.py: BgWikiElementNode.open, close", "bglib/doc/macro.py: Dispatcher"]}
{"id": "C129", "title": "The tests take two HTML texts for the same exactly if they show the same", "statement": "HtmlTestCase.assertHtmlEqual, on which all tests of the documents rest, passes for two HTML texts exactly if they have the same tags in the same order with the same attributes, and the same texts between them, where line breaks and blanks at the ends of texts do not count. It is an equivalence: a text equals itself, the order of the arguments does not matter, and texts equal to a third are equal.", "quantifier": "for every two HTML texts; every order in which dictionaries list their items", "why_tests_cant": "all pairs of texts; the comparison is itself what the tests trust, and it works by regular expressions that skip what they do not know", "anchors": ["bglib/doc/html.py:28-109"]}
{"id": "C130", "title": "A style sheet is read as it is written", "statement": "css.load gives, for a style sheet file, exactly the rules that are written in it, in their order, each with the path of the file, the number of its line, its selectors (element, attribute, data) in their order and its attributes, of which the last counts if one is given twice; lines without a rule add nothing.", "quantifier": "for every style sheet of rules and other lines, with any number of blanks where they are allowed", "why_tests_cant": "all sheets; the reader is five regular expressions with backtracking and searching, and the themes are read at import without any check", "anchors": ["bglib/image/css.py: CSSParser.rule, pattern, selector, block, attribute; load"]}
{"id": "C131", "title": "An analysis is shown as the data base has it", "statement": "The macro [[Analysis(position)]] puts into the page exactly the tables of what the data base returns for the position: for moves one table with two rows per move (number, move, ply, equity, difference; the six chances), for cube actions one table of the cubeless equity and one of the actions. Numbers are the nearest with the decimals shown, equities carry their sign, the row that was played is marked, odd and even rows are told apart, a difference of nothing is left out, and every table is a full rectangle. Rows with missing or ill-typed entries or wrong numbers are refused. Every action is shown with its own name.", "quantifier": "all data bases, positions and rows, all IEEE doubles", "why_tests_cant": "A test looks at one canned data base; which numbers are rounded how, and whether spans add up for every number of rows, cannot be tried out.", "anchors": ["bglib/doc/macro.py:18-26", "bglib/doc/macro.py:218-500"]}
{"id": "C132", "title": "Pages that show analyses are well formed", "statement": "Whatever the data base says about positions, the HTML of a wiki page that shows its analyses is well-formed XML content.", "quantifier": "all data bases, wiki texts of legal characters without quotation marks in labels of links and without URLs that have an ampersand", "why_tests_cant": "The tests compare pages for two canned positions; nothing tries what texts and numbers (nan, infinities, minus zero) of a data base do to a page.", "anchors": ["bglib/doc/macro.py:340-425", "bglib/doc/macro.py:428-500", "bglib/doc/doctree.py:286-310"]}
{"id": "C133", "title": "A page of text, marks and references is shown as written", "statement": "A wiki page whose lines are made of characters, of switches for bold, italic, underlined, struck, raised, lowered and monospaced text and headings, of references (numbers of entries, queries and matches, names of pages, URLs with and without labels) and of any of these put out of force with an exclamation mark is shown as exactly that: every character once, in order and escaped, every switch as the opening or closing of its element, every reference as a link to its target with its own text, what is put out of force as its plain text, a paragraph per run of lines between empty lines, and whatever is still switched on closed at its end. Nothing else is in the page.", "quantifier": "all such pages in which switches nest and nothing runs together with its neighbour into something else; all wiki paths and surroundings", "why_tests_cant": "Tests compare a dozen texts; whether some combination of neighbours makes one of the twenty patterns read another one's text, or loses or doubles a character, is a question about all texts.", "anchors": ["bglib/doc/bgwiki.py:146-510", "bglib/doc/bgwiki.py:511-540", "bglib/doc/doctree.py:100-420"]}
{"id": "C134", "title": "Plain words are shown as they are", "statement": "A line of letters, digits and blanks is shown as a paragraph of exactly this text, and several such lines as a paragraph in which the words of different lines stay apart.", "quantifier": "all lines of letters, digits and blanks that do not begin with a blank", "why_tests_cant": "Which words of a language the patterns for references pick up cannot be listed by examples.", "anchors": ["bglib/doc/bgwiki.py:146-250", "bglib/doc/bgwiki.py:511-540"]}
{"id": "C135", "title": "While a game is on exactly one player can go on", "statement": "From a board on which a game has begun and nothing is offered, after any calls whatever to roll, move, pick up dice, double, take, drop, offer, accept and refuse resignations, as long as the game is on there is exactly one player who may roll, move, answer a double or answer a resignation.", "quantifier": "all boards that begin a game, all sequences of calls, refused ones among them", "why_tests_cant": "A position in which nobody can do anything needs a certain sequence of calls; tests try single calls.", "anchors": ["bglib/model/board.py:90-192", "bglib/model/boardeditor.py:98-147"]}
{"id": "C136", "title": "A game is over exactly when it has been won", "statement": "The state of a game turns from on-going to over exactly when a player drops a double, a resignation is accepted, or a player has borne off the last chequer.", "quantifier": "all boards that begin a game, all sequences of calls", "why_tests_cant": "A test that plays a game to its end would have to look at every call on the way; none does.", "anchors": ["bglib/model/boardeditor.py:67-147", "bglib/model/board.py:90-120"]}
{"id": "C137", "title": "Only offers of the opponent can be answered", "statement": "A take, drop, acceptance or refusal goes through exactly if the other player has made that offer and it has not been answered yet.", "quantifier": "all boards that begin a game, all sequences of calls", "why_tests_cant": "That an offer which was answered long ago can be answered again shows only after a longer conversation, and who then scores is a matter of bookkeeping over the whole history.", "anchors": ["bglib/model/board.py:131-133", "bglib/model/board.py:184-192", "bglib/model/boardeditor.py:98-147"]}
{"id": "C138", "title": "Picking up the dice leaves the chequers where they were played", "statement": "When a move factory picks up the dice after a turn and accepts, the chequers of both players stand where the moves of the turn have put them; the dice are gone, the turn has passed to the opponent, and nothing else has changed.", "quantifier": "all boards and rolls, all lists of forward moves the factory has accepted", "why_tests_cant": "That the question whether the turn is over takes moves back shows only for rolls of which a part cannot be played; the tests pick up dice after full turns.", "anchors": ["bglib/model/move.py:185-257", "bglib/model/boardeditor.py:142-147"]}
{"id": "C139", "title": "After a turn played by the rules the dice can be picked up", "statement": "Whenever a player has played as many dice of the roll as can be played, step by step as the rules allow, and, where only one die can be played, the largest that can, picking up the dice is accepted; and on every board every roll can be played like that.", "quantifier": "all boards with any number of chequers on any points, all rolls, all turns by the rules", "why_tests_cant": "It relates the answer of one query to all ways of playing a roll; a test would have to search all turns on every board.", "anchors": ["bglib/model/move.py:185-257"]}
{"id": "C140", "title": "Every turn can be entered through suggestions", "statement": "For every sequence of legal steps with the dice of a roll there are as many questions to the move factory, each naming a chequer or a chequer and where it shall go, whose suggestions, accepted one after the other, lead to the same board; and if the sequence is a turn by the rules, so is the one suggested, and the dice can be picked up after it.", "quantifier": "all boards with any number of chequers on any points, all rolls, all sequences of legal steps", "why_tests_cant": "It says that a search never leaves out a way of playing; tests show single suggestions.", "anchors": ["bglib/model/move.py:258-398", "bglib/model/move.py:185-257"]}
{"id": "C141", "title": "The fuzzer tries every text and always gives a verdict", "statement": "The texts that Gene(n) of any gene class can have are exactly the texts of n words of its alphabet. Gene.format answers for every formatter without raising: it is true exactly if parse and make_html succeed, then the gene has the HTML and the same text, and otherwise it is a false FormatError with the exception. Gene.verify answers true or a false ParseError with the exception of the validator exactly if the gene has HTML that is not empty; otherwise it raises AssertionError.", "quantifier": "for every gene class with words, every length, every result of random.randint in range, every formatter and every validator", "why_tests_cant": "Unit tests try genes of length 1 with three formatters; random texts, formatters and exceptions are unbounded.", "anchors": ["bglib/doc/fuzzing.py:31-75", "bglib/doc/bgwiki.py:542-553"]}
{"id": "C142", "title": "No text of the wiki fuzzer makes the wiki formatter fail", "statement": "Every gene of the wiki formatter's gene class passes: the formatter parses it and makes HTML, and the HTML is valid.", "quantifier": "for every length, every result of random.randint in range, every order of the list designs, every wiki path, time, analysis data base and rst formatter that works", "why_tests_cant": "The fuzzer itself tries only some of the texts; there are 55^n texts of n words.", "anchors": ["bglib/doc/bgwiki.py:511-561", "bglib/doc/fuzzing.py:57-75", "bglib/doc/fuzzing.py:112-125"]}
{"id": "C143", "title": "The fuzzer says that a trial timed out only if it took too long", "statement": "The parent of a trial prints 'timed out' only if the child takes more than three seconds.", "quantifier": "for every gene, formatter and validator", "why_tests_cant": "A test would have to fork; whether the pipe can be read depends on which process has which end open.", "anchors": ["bglib/doc/fuzzing.py:86-125"]}
{"id": "C144", "title": "A gene can be made shorter by one word in every way", "statement": "Gene.iter_subset gives, for every position of a gene, the gene without the word there, and shorter_fails those of them that fail.", "quantifier": "for every gene", "why_tests_cant": "No test calls them; genes of every length and class.", "anchors": ["bglib/doc/fuzzing.py:42-44", "bglib/doc/fuzzing.py:77-84"]}
{"id": "C145", "title": "List items nest as they are indented", "statement": "A line that begins with blanks and a bullet (a star, plus or minus signs, a digit, a letter or a roman numeral) is an item of a list that is as deep as the line is indented, of the kind that the first bullet of the list says; following lines without a bullet go on in the item, an item that is indented less ends the deeper lists, and an empty line ends everything.", "quantifier": "for every page of lines and items with letters, marks and references, every wiki path, every order of the list styles", "why_tests_cant": "all pages: lists of every depth and kind, and what is in them; the handler relies on the number of open lists and on what is the current element, which depends on all lines before", "anchors": ["bglib/doc/bgwiki.py: LineFormatter._handle_pattern_itemize, _unnest, _nest, _calc_indent", "bglib/doc/doctree.py: ListElement, ItemizeElement, Editor.leave, Editor.count_nesting"]}
{"id": "C146", "title": "Citations nest as they are marked", "statement": "A line that begins with signs > and a blank is in as many citations as it has signs, and a line without them is in none; citations that are shared with the line before stay open, and what is written in a line is shown in it with its marks and references.", "quantifier": "for every page of lines that are cited, indented or neither, with letters, marks and references, every wiki path", "why_tests_cant": "all pages: every sequence of depths, with marks switched on across lines; what a line opens and closes depends on all lines before it", "anchors": ["bglib/doc/bgwiki.py: LineFormatter._handle_pattern_citation, _unnest, _nest, LineFormatter.parse", "bglib/doc/doctree.py: CitationElement, CitationContentElement, Editor.leave, Editor.count_nesting"]}
{"id": "C147", "title": "Indented lines are one quote", "statement": "Lines that are indented by two or more blanks and are no items are shown in one block quote with one paragraph; the quote ends before the next line that is not indented, which also ends the marks that are still on.", "quantifier": "for every sequence of indented lines and every line after it, with letters, marks and references, every wiki path", "why_tests_cant": "all numbers of lines, indentations and contents; a mark can be switched on in one line of the quote and off in another or not at all", "anchors": ["bglib/doc/bgwiki.py: LineFormatter._handle_pattern_quote_or_definition_body, LineFormatter.parse", "bglib/doc/doctree.py: BlockQuoteElement, Editor.leave"]}
{"id": "C148", "title": "What follows a table is after it", "statement": "A line that begins with a bar begins a table, or a row of the table that is open; every further bar begins a cell, a bar at the end of a line ends the row, and an escaped bar is shown as a bar. A line without bars after a table is shown after it, and what is written in a cell is shown in it with its marks and references.", "quantifier": "for every page of lines with letters, marks, references and bars, every wiki path", "why_tests_cant": "all pages: every mix of bars, escaped bars, open rows and text, in every order; what a bar opens and closes depends on all lines before it", "anchors": ["bglib/doc/bgwiki.py: LineFormatter._handle_pattern_table_cell, _handle_pattern_table_end, _unnest, _nest, LineFormatter.parse", "bglib/doc/doctree.py: TableElement, TableRowElement, TableCellElement, Editor.leave"]}
{"id": "C149", "title": "Rows of cells are one table", "statement": "Lines that are made of cells, each begun by a bar, with a bar at the end that may be followed by blanks, are shown as one table with one row for each line and one cell for each cell, in order, holding what is written in the cell; marks that are still on at the end of a cell end with it.", "quantifier": "for every number of rows with every number of cells, with letters, marks and references in them, every wiki path", "why_tests_cant": "all shapes of tables and all contents of cells, including empty ones and ones with marks that are never switched off", "anchors": ["bglib/doc/bgwiki.py: LineFormatter._handle_pattern_table_cell, _handle_pattern_table_end", "bglib/doc/doctree.py: TableElement, TableRowElement, TableCellElement, Editor.leave"]}
{"id": "C150", "title": "Definitions are terms with indented lines", "statement": "A line that ends with two colons is shown as a term of a definition list; the indented lines after it are its definition, with marks that end with their line. A line that is neither is shown outside of the list, and indented lines outside of a definition list are a quote.", "quantifier": "for every page of terms, indented lines and other lines with letters, marks and references, every wiki path", "why_tests_cant": "all pages: every order of terms, indented lines, text and empty lines, with marks that are switched on anywhere; what a line opens and closes depends on all lines before it", "anchors": ["bglib/doc/bgwiki.py: LineFormatter.parse, start_definition_header, end_definition_header, _handle_pattern_quote_or_definition_body", "bglib/doc/doctree.py: DefinitionListElement, DefinitionHeaderElement, DefinitionBodyElement, Editor.ancestor, Editor.leave"]}
{"id": "C151", "title": "Terms with their definitions are one list", "statement": "Lines that are terms, each followed by any number of indented lines, are shown as one definition list with one term and one definition for each of them, in order; the definition shows its lines one after the other, and marks end with their line.", "quantifier": "for every number of terms with every number of lines, with letters, marks and references in them, every wiki path", "why_tests_cant": "all lengths and contents, including terms without a definition and marks that are never switched off", "anchors": ["bglib/doc/bgwiki.py: LineFormatter.parse, start_definition_header, end_definition_header, _handle_pattern_quote_or_definition_body", "bglib/doc/doctree.py: DefinitionListElement, DefinitionHeaderElement, DefinitionBodyElement"]}
{"id": "C152", "title": "What is written after a preformatted block is shown after it", "statement": "A block of lines between {{{ and }}} is shown, with its special characters escaped and without lines that only name its language, between what is written before it and what is written after it; nothing in it is read as wiki text.", "quantifier": "for every page of lines of text, items of lists and blocks, every content, every wiki path and every reader of reStructuredText", "why_tests_cant": "every order of lines and blocks and every content of them, with blocks inside of lists and marked text", "anchors": ["bglib/doc/bgwiki.py: LineFormatter._handle_pattern_preformat_start, WrappingFormatterElement, Formatter.get_formatter", "bglib/doc/doctree.py: Node.is_acceptable, Editor.append"]}
{"id": "C153", "title": "A preformatted block changes nothing of the paragraph around it", "statement": "A paragraph of text and lists with blocks anywhere in it shows exactly what the same paragraph shows without the blocks, followed by the blocks in order: a list goes on after a block and a mark that is switched on before it stays on.", "quantifier": "for every paragraph with a line of text or an item, every number of blocks of every content at every place, every wiki path and every reader of reStructuredText", "why_tests_cant": "two pages are compared, for every place of every block", "anchors": ["bglib/doc/bgwiki.py: LineFormatter.parse, WrappingFormatterElement, Formatter.get_formatter", "bglib/doc/doctree.py: Editor.enter, Editor.leave"]}
{"id": "C154", "title": "Shipped themes draw nothing outside the picture", "statement": "At its own size, every one of the eight style sheets that come with the package draws every board of a game within the picture: no text, rectangle, disc, shape or image begins left of or above the picture or reaches beyond its right or lower edge, and none has a negative size. Stacks of chequers, the numbers on them, the eyes of dice and the row of resignation marks are included.", "quantifier": "all themes, all positions with up to fifteen chequers a side, all rolls, cubes, scores and match lengths, open doubles and resignations", "why_tests_cant": "where a stack ends depends on how many chequers lie there, on offsets of the sheet, and on the rule that turns a stack around at the edge of its point; a misplaced disc is cut off without an error, and only on boards that have that many chequers in that place", "anchors": ["bglib/image/resource/*/default.css", "bglib/image/base.py: Chequer.draw", "bglib/image/base.py: Die.draw", "bglib/image/base.py: Resign.draw", "bglib/image/base.py: BaseElement.calc_mag"]}
{"id": "C155", "title": "The parameters of a bear-off position are the least that hold it", "statement": "bearoff_param gives the number of points and the number of chequers of the smallest bear-off database that has the position: both sides fit into it, and into no database with fewer points or fewer chequers. With these parameters both sides have an index that is in range, and two positions with the same parameters and the same indices are the same position. If a side has no chequers left there are no parameters: the call raises IndexError, although the comparison with 0 looks as if 0 was meant.", "quantifier": "all pairs of sides", "why_tests_cant": "least in two numbers at once over all boards, together with what the index then does", "anchors": ["bglib/encoding/bearoff/gnubgdb.py: bearoff_param", "bglib/encoding/bearoff/gnubgdb.py: oneside_index"]}
{"id": "C156", "title": "A page that calls a macro shows what the macro gives or says what is wrong", "statement": "A page that is one call of a macro, with or without arguments, shows in one paragraph: for a name that is no macro an element of class error that quotes the name and the arguments, or None if there are none; for Position and Analysis with arguments that do not begin with the name of a position an element of class error that quotes the arguments and gives the name; for Position with the name of a position a picture whose address asks the image server for this position at 400 by 300 as png in the minimal style; for BR a break and for Timestamp the time in bold, whatever the arguments are. What follows the name of a position changes neither which position is shown nor anything of the analysis. Position and Analysis without arguments raise TypeError.", "quantifier": "all names, all arguments the syntax allows, all names of positions, all encodings of addresses", "why_tests_cant": "names and arguments are free text that passes two regular expressions before the message is built, and which of the messages is shown depends on whether the second one matches", "anchors": ["bglib/doc/macro.py: dispatch, _bad_name_handler, _bad_args_handler, Position, BR, Timestamp", "bglib/doc/macro.py: _arg_pattern, _parse_position", "bglib/doc/bgwiki.py: LineFormatter"]}
{"id": "C157", "title": "The options of a position in a page reach the image server", "statement": "In a page, Position takes the style, the format, the width and the height of the picture after the name of the position, and the address of the picture asks for them.", "quantifier": "all names of positions, all values of the options", "why_tests_cant": "which options are seen depends on a regular expression over free text; an option that does not match is dropped without a message", "anchors": ["bglib/doc/macro.py: _arg_pattern, _parse_position, Position"]}
{"id": "C158", "title": "Macros can be added and removed", "statement": "A call of a macro runs the last function or callable Processor registered under its name, and a call of a name under which nothing was registered runs nothing. Registering anything else raises AssertionError and changes nothing. After unregister a macro is no longer run. When the module is imported exactly BR, Timestamp, TableOfContent, Position and Analysis are there.", "quantifier": "all histories of calls of register and unregister, all names and handlers", "why_tests_cant": "which handler is run depends on the whole history of registrations, including those that failed", "anchors": ["bglib/doc/macro.py: register, unregister, _get_name, dispatch"]}
{"id": "C159", "title": "Stray characters in a GNU identifier do not matter", "statement": "Position and match identifiers that differ only in characters outside of the base64 alphabet (blanks, line ends, colons, dashes; not the equals sign) decode to the same board or the same error, and identifiers made from a board still give that board back after such characters were put anywhere into them (except running money sessions with points scored, C38).", "quantifier": "for every pair of identifiers, every board in range and every board decoded into", "why_tests_cant": "any number of stray characters at any place of any identifier", "anchors": ["bglib/encoding/gnubgid.py: decode, decode_position, decode_match"]}
{"id": "C160", "title": "Any board can be shown in a page by its GNU identifier", "statement": "A page that is [[Position(pid:mid)]] with the identifiers encode gives for a board shows one picture, whose request names identifiers that decode to that board again.", "quantifier": "for every board in range with at most 30 chequers and every configuration of the formatter", "why_tests_cant": "all boards, and an agreement of two modules that no test runs together", "anchors": ["bglib/encoding/gnubgid.py: encode, decode", "bglib/doc/macro.py: Position, Analysis, _parse_position"]}
{"id": "C161", "title": "An XGID can be turned into GNU identifiers without loss", "statement": "Decoding an XGID whose numbers fit the GNU match identifier gives a board that encode accepts, and decoding the identifiers gives the same board, whatever board they are decoded into.", "quantifier": "for every XGID and every board decoded into", "why_tests_cant": "all XGIDs, and an agreement of two modules that no test runs together", "anchors": ["bglib/encoding/xgid.py: decode", "bglib/encoding/gnubgid.py: encode, decode"]}
{"id": "C162", "title": "GNU identifiers tell boards apart", "statement": "Two boards have the same position identifier exactly when the player on action sees the same position, the same match identifier exactly when they agree in everything but the position, and both identifiers the same exactly when they are the same board. Exchanging the sides and the player on action, by hand or with flip, keeps the position identifier and changes the match identifier.", "quantifier": "for every pair of boards in range, including sessions with points, whose identifiers cannot be decoded (C38)", "why_tests_cant": "pairs of boards cannot be enumerated", "anchors": ["bglib/encoding/gnubgid.py: encode, encode_position, encode_match"]}
{"id": "C163", "title": "A FIBS board line can be turned into GNU identifiers without loss", "statement": "Decoding a FIBS board line in which you are on turn, with numbers that fit the GNU match identifier, gives a board that encode accepts, and decoding the identifiers gives the same board, whatever board they are decoded into.", "quantifier": "for every such line and every board decoded into", "why_tests_cant": "all lines, and an agreement of two modules that no test runs together", "anchors": ["bglib/encoding/FIBS.py: decode", "bglib/encoding/gnubgid.py: encode, decode"]}
{"id": "C164", "title": "A session can be saved as GNU identifiers at any time", "statement": "Starting from a board that identifiers can hold, after any sequence of doubles, takes, drops, resignations, rolls, moves and changes of turn on an editor, also ones that fail, encode gives identifiers from which decode restores the board, as long as the score has at most 15 bits and no point has less than no chequers. This includes unlimited sessions, which have points only when the game is over.", "quantifier": "for every start, every sequence of calls and every board decoded into", "why_tests_cant": "all sequences of calls", "anchors": ["bglib/model/boardeditor.py: BoardEditor", "bglib/model/move.py: MoveFactory", "bglib/encoding/gnubgid.py: encode, decode"]}
{"id": "C165", "title": "Boards that were decoded can be drawn", "statement": "A board that was decoded from an XGID, a FIBS board line or GNU identifiers has a picture, and the picture shows its chequers, cube, dice, resignation and match.", "quantifier": "for every XGID, line and pair of identifiers and every board decoded into", "why_tests_cant": "all texts, and an agreement of four modules that no test runs together", "anchors": ["bglib/encoding/xgid.py: decode", "bglib/encoding/FIBS.py: decode", "bglib/encoding/gnubgid.py: decode", "bglib/image/base.py: ElementTree"]}
{"id": "C166", "title": "A game can be drawn in every theme at any time", "statement": "At any moment of a game that starts from a laid out board and is played with the suggestions of MoveFactory, with doubles, takes, drops and resignations in between, the board has a picture in each of the eight themes of the package at the size of its style sheet, and the element tree of the picture has on every point, bar and home the chequers that stand there, fifteen of each player in all, with the dice and the match, the cube unless dice lie on the table after a double whose answer is still open, and an offer to resign if no dice lie on the table and there was no double.", "quantifier": "for every start, every game by fair play and every theme", "why_tests_cant": "all games, and an agreement of the move, board and image modules that no test runs together", "anchors": ["bglib/model/move.py: MoveFactory", "bglib/model/boardeditor.py: BoardEditor", "bglib/image/base.py: ElementTree", "bglib/image/resource: default.css"]}
{"id": "C167", "title": "A board that was received can be drawn in every theme", "statement": "A board that was decoded from an XGID or a FIBS board line, or from GNU identifiers that name a decision there is to take, is drawn by each of the eight themes of the package at the size of its style sheet, as long as it has at most fifteen chequers of each player, its dice are no dice or two dice, and its cube has at least the value one.", "quantifier": "for every XGID, line and pair of identifiers, every board decoded into and every theme", "why_tests_cant": "all texts, and an agreement of the decoders with the style sheets that no test runs together", "anchors": ["bglib/encoding/xgid.py: decode", "bglib/encoding/FIBS.py: decode", "bglib/encoding/gnubgid.py: decode", "bglib/image/base.py: ElementTree", "bglib/image/resource: default.css"]}
