# Formal model of bglib — design

The subject is the Python 2 package in `/repo/bglib` at the pinned commit.  It
was read as text only; nothing was run.

## 1. Method

* Shallow executable Gallina model, one definition per Python function, each
  with a comment citing file and lines.  A Python exception is a value
  (`Exc e`), so error branches are part of the model.  A method that mutates
  `self` becomes a function returning the new object *and* the outcome, so
  partial mutation before an exception is visible.
* Per area: `XModel.v` (definitions only), `XSpec.v` (specification that does
  not use the model's helpers), `XProofs.v` (lemmas), `XProps.v` (theorems
  only, each `exact lemma.`, followed by `Print Assumptions` and an `Example`
  showing that the hypotheses are met by a non-trivial case).
* Every property is stated for all inputs.  A property that the code violates
  is recorded as `..._refuted` (existence of a concrete witness computed in the
  model) together with the strongest true statement we could prove
  (`..._partial` or an exact characterisation).  In `MANIFEST.json` such a
  property has status `partial` and a note starting with `REFUTED`.

## 2. Plan per property

| id | what is modelled | how proved |
|----|------------------|------------|
| C01-C03 | `model/util.py` whole; `str(int)`, `int(str)` of CPython 2 | computation over 26 points + decimal round trip |
| C04-C06 | board/editor objects; a heap of objects for aliasing | induction over operation lists |
| C07, C11, C12 | `flip`, all queries | case analysis; C12 refuted by witness |
| C08 | legality queries | boolean case analysis |
| C09, C10 | bear-off rule and search | equivalence with an arithmetic rule; C10 refuted |
| C13, C14 | `make_partial_move` | arithmetic on updated lists |
| C15-C18 | cube and resignation actions | frame lemmas, induction over action lists; C16, C17 refuted |
| C19 | `AvailableToPlay` | dictionary lemmas, induction |
| C20, C21 | `Move.append` | the effect of a move is a sum of vectors; induction |
| C22, C23 | `MoveFactory.append` | invariant by induction; C23 refuted |
| C24, C25 | single-die guesses | induction on the dice left; C25 refuted in parts |
| C26-C29, C73 | multi-die guesses, undo, making a point, pick-up query | induction; refutations where the code mutates its board |
| C30-C33 | `encoding/dbbyte.py` | 256-byte sweep lifted + list induction |
| C34-C38 | `encoding/gnubgid.py`, base64 of CPython 2 | unary code induction, base64 induction, bit-field lemmas |
| C39-C41 | `encoding/xgid.py` | case analysis along the decoder |
| C42, C43 | `encoding/FIBS.py` | case analysis; regex modelled directly |
| C44-C47 | `encoding/bearoff` | combinatorial identities by induction |
| C48, C49 | `stat/rating.py` over Coq reals (floats idealised) | real analysis |
| C50, C51 | `stat/tourney.py` with arbitrary shuffle and outcomes | induction over rounds |
| C52-C54 | `record/snowietxt.py` line state machine; line classifier is an oracle or a direct model | induction over lines |
| C55, C56 | `protocol/fibs.py` state machine; regexes as an oracle, plus the real table for witnesses | induction over messages |
| C57, C58 | `protocol/session.py` dispatch with re-entrant handlers; two-thread interleavings at lock granularity | induction over schedules |
| C59, C60 | `doc/html.py: escape`, attribute rendering | list induction |
| C61-C63 | `doc/doctree.py` heap of nodes and editor | invariants over operation lists |
| C64, C91-C93, C95, C97 | `doc/bgwiki.py` whole, `doc/macro.py` whole; the regular expressions run by a backtracking matcher (`Rx.v`) | an invariant of the tree kept by every handler, for all texts |
| C94, C96, C99, C100 | `doc/macro.py:93-180` table of contents, the writer with it; documents built from front to back | simulation: the state of the editor determines what has been written |
| C65-C72, C98 | `image/css.py`, `image/base.py`; floats of `set_mag` are IEEE doubles (`Floats.SpecFloat`) | list/tree induction; the tree of a board is written out and compared |
| C101, C102 | the eight style sheets of `image/resource` with `image/css.py`, `image/base.py`, `image/draw.py` | what a sheet does to an element depends only on its path, so a finite audit of the paths, by computation, covers all boards |
| C103 | the attribute classes of `image/base.py` | every head in the tree has values of its classes; kept by styling, read through inheritance |
| C104-C107 | `image/PIL.py` whole, the life cycle of `image/draw.py`; the library itself is a set of variables | what a method draws does not depend on the caches as long as these hold what the library gives; induction over elements and drawings |
| C109-C111 | what `image/draw.py` asks a back end to draw, on top of the tree of a board | the tree written out and styled keeps tags and places; each element's drawing is split off and counted |
| C112 | `image/base.py: ElementTree.set`, the action | the tree written out |
| C113-C116 | `image/base.py`: `format`, `xml`, `make_dtd` and its parts | a reader of XML and of DTDs (`XmlSpec.v`) is run on what the writer gives; the tree of a board and what styling keeps of it |
| C117-C118 | the draw methods of `image/base.py`: where their commands lie | each draw method is cut along its calls; `PlaceSpec.v` says what a triangle in a box is and what fills a box |
| C119-C121 | a client playing whole games: `MoveFactory` and `BoardEditor` calls in any order | `GameModel.v` only orders calls already modelled; the invariant is carried through legal runs, the pick-up query (C29) and the cube calls; the codecs then follow from C31, C33, C34, C75 |
| C122-C124 | `record/gnubg.py` (`Tracer`), `encoding/gnubgid.py` as a whole | `TraceModel.v`; ids have no colon because they are base64; C124 from the round trips C34, C37 and the bit layout |
| C125 | `doc/bgwiki.py`, `doc/macro.py` (`TableOfContent`) and `doc/doctree.py` together | `WikiPage.v`: what a wiki text is parsed to is made by calls of the editor; pages whose first line is the macro |
| C126, C127 | `doc/bgwiki.py`, `doc/doctree.py`, `doc/html.py` (`escape`) together | `WikiAmp.v`: ampersands in the HTML; `WikiLink.v`: the link made of a URL |
| C128 | `doc/html.py: validate` as a specification; `doc/bgwiki.py`, `doc/doctree.py`, `doc/macro.py` together | `WellSpec.v`: well-formed XML content, written down from the XML recommendation (expat itself is not modelled); `WikiKeep.v`: the characters of a page are those of its text and no attribute is set twice; `WikiWell.v`: from C91 and C126 to well-formedness |
| C129 | `doc/html.py: tupdict`, `dictify_attr`, `cmp_tuple`, `HtmlTestCase.assertHtmlEqual` | `CmpModel.v`, `CmpSpec.v`, `CmpProofs.v`, `CmpProps.v` |
| C130 | `image/css.py: CSSParser`, `load` | `ImageModel.v`, `SheetSpec.v`, `SheetProofs.v`, `SheetProps.v` |
| C131, C132 | `doc/macro.py: Analysis`, `signed_one_three`, `percent_two_one`, the table rows | `AnalysisModel.v`, `AnalysisSpec.v`, `AnalysisProofs.v`, `AnalysisPage.v`, `AnalysisFit.v`, `AnalysisProps.v`, `AnalysisFitProps.v` |
| C133, C134 | `doc/bgwiki.py: Formatter`, `LineFormatter`, `doc/doctree.py: Editor` | `WikiModel.v`, `ShowSpec.v`, `ShowRead.v`, `ShowMatch.v`, `ShowProofs.v`, `ShowPage.v`, `ShowWhole.v`, `ShowPlain.v`, `ShowProps.v` |
| C135, C136, C137 | `model/boardeditor.py: double … pickupdice`, `model/board.py: is_…` | `BoardModel.v`, `TalkSpec.v`, `TalkProofs.v`, `TalkProps.v` |
| C138, C139 | `model/move.py: MoveFactory.pickupdice`, `is_leagal_to_pickup_dice` | `MoveModel.v`, `PickSpec.v`, `PickProofs.v`, `PickProps.v` |
| C140 | `model/move.py: guess_your_single_pm_from_source`, `guess_your_multiple_pms`, `append`, `add` | `MoveModel.v`, `GameModel.v`, `PickSpec.v`, `EnterProofs.v`, `EnterProps.v` |
| C141-C144 | `doc/fuzzing.py`; `doc/bgwiki.py: wGene` | genes, verdicts, the child and the parent of a trial (`FuzzModel.v`); the formatter, the validator and `random.randint` are parameters, for C142 the formatter is the model of the wiki and the validator accepts what `WellSpec.v` calls well formed; stack traces, printing in the child, failures of `fork` and `pipe` are left out |
| C145 | `doc/bgwiki.py: LineFormatter._handle_pattern_itemize`, `doc/doctree.py: ListElement`, `ItemizeElement` | `WikiModel.v`; what a page with lists shows is said by `ListSpec.v` in terms of bullets, indentation and the lists that are open; `ListMatch.v`, `ListPage.v`, `ListProps.v` |
| C146, C147 | `doc/bgwiki.py: LineFormatter._handle_pattern_citation`, `_handle_pattern_quote_or_definition_body`, `doc/doctree.py: CitationElement`, `CitationContentElement`, `BlockQuoteElement` | `WikiModel.v`; what a page with citations and quotes shows is said by `QuoteSpec.v` in terms of the signs of the lines and the frames that are open; `QuoteMatch.v`, `QuotePage.v`, `QuoteProps.v` |
| C148, C149 | `doc/bgwiki.py: LineFormatter._handle_pattern_table_cell`, `_handle_pattern_table_end`, `doc/doctree.py: TableElement`, `TableRowElement`, `TableCellElement` | `WikiModel.v`; what a page with bars shows is said by `TableSpec.v` in terms of where a bar stands: outside of tables, between rows, or in a cell; `TableMatch.v`, `TablePage.v`, `TableProps.v` |
| C150, C151 | `doc/bgwiki.py: LineFormatter.start_definition_header`, `end_definition_header`, `_handle_pattern_quote_or_definition_body`, `doc/doctree.py: DefinitionListElement`, `DefinitionHeaderElement`, `DefinitionBodyElement` | `WikiModel.v`; what a page with terms shows is said by `DefSpec.v` in terms of where a line stands: outside, in a quote, in a list or in a definition; `DefMatch.v`, `DefPage.v`, `DefProps.v` |
| C152, C153 | `doc/bgwiki.py: LineFormatter._handle_pattern_preformat_start`, `WrappingFormatterElement`, `Formatter.get_formatter`, `doc/doctree.py: Editor.append`, `Node.is_acceptable` | `WikiModel.v`; what a page with preformatted blocks shows is said by `BlockSpec.v` in terms of the blocks that a paragraph holds back; `BlockVeil.v` shows that a document with blocks and the one without them are read alike, line by line |
| C154 | the eight style sheets of `image/resource` with `image/base.py` and `image/draw.py` | the audit of C101 with another question: at the size of the sheet itself every box, every disc of the highest stack and every eye of every face lies within the picture; a lower stack is a part of a higher one |
| C155 | `encoding/bearoff/gnubgdb.py: bearoff_param` | the last chequer of a side as a least upper bound, with C44 |
| C156 | `doc/macro.py: dispatch, Position, BR, Timestamp` and the messages for bad calls | match of the line by one pattern for any name and arguments; inversion of the pattern of the arguments |
| C157 | `doc/macro.py: _arg_pattern, _parse_position, Position` | greedy and failing matches of optional parts, induction on the blanks |
| C158 | `doc/macro.py: register, unregister, _get_name, dispatch` | induction on the history from its end |
| C159 | `encoding/gnubgid.py: decode, decode_position, decode_match` | the state of the base64 reader is the same for a text and its symbols; then C38 |
| C160 | `encoding/gnubgid.py: encode, decode`, `doc/macro.py: Position, Analysis` | C35, C37 and C38 for the identifiers, C156 for the page |
| C161 | `encoding/xgid.py: decode`, `encoding/gnubgid.py: encode, decode` | C40 gives the board, whose fields fit; then C38 |
| C162 | `encoding/gnubgid.py: encode` | the round trips of C34 and C37 |
| C163 | `encoding/FIBS.py: decode`, `encoding/gnubgid.py: encode, decode` | C42 gives the board, whose fields fit; then C38 |
| C164 | `model/boardeditor.py`, `encoding/gnubgid.py: encode, decode` | an invariant of the fields kept by every call; then C38 |
| C165 | `encoding/xgid.py`, `encoding/FIBS.py`, `encoding/gnubgid.py`: `decode`; `image/base.py: ElementTree` | C40 and C42 give drawable boards; then C69 and C70 |
| C166 | `model/move.py: MoveFactory`, `model/boardeditor.py`, `image/base.py`, the style sheets of the themes | an invariant of the board kept by every deed of fair play; then C69, C70 and C101 |
| C167 | `encoding/xgid.py`, `encoding/FIBS.py`, `encoding/gnubgid.py`: `decode`; `image/base.py`, the style sheets of the themes | decoded sides have no negative count (C36, C39, C42); then C165 and C101 |
| C108 | `protocol/fibs.py: bring_to_top` | invariant over messages |

Not expressible here (no claim): pixel output of PIL/wx back ends, socket
timing, wall-clock behaviour of `Timestamp`.

## 3. Trusted base

* Coq 8.16.1 kernel (and `vm_compute`).
* `Print Assumptions` output of each theorem: "Closed under the global
  context", except the theorems about real numbers (C32 and later the ratings), which use the axioms of Coq's standard library of reals
  (`Classical_Prop.classic`, `ClassicalDedekindReals.sig_not_dec`, `ClassicalDedekindReals.sig_forall_dec`,
  `FunctionalExtensionality.functional_extensionality_dep`).
* The reading of Python 2 semantics encoded in `Py.v`.
* External libraries are not in the repository: `tonic` (BitsArray,
  LineParser, combinatorics) is modelled by assumption; see section 4.  For
  `BitsArray` the bit order and the slices are assumed as the tests in the
  repository show them; its behaviour on values that do not fit and on byte
  strings of another length is a variable, so C37, C38 and C41 hold whatever
  it is.  base64 is CPython 2.7's `binascii.c`, written out in `GnuModel.v`.
  `tonic.combination.C` is taken to be the binomial coefficient; C45 holds for
  every pair C_Hash, C_RHash that numbers bit lists (`hash_spec`).
  `tonic.lineparser.LineParser.parse(line)` is taken to match the alternatives
  of the pattern, in order, at the start of the line and to call the handler
  named after the first that matches; `results2` has no handler and such lines
  are taken to be skipped.
* Regular expressions: `Re.v` decides whether a pattern matches by derivatives;
  `ReFacts.v` proves this equal to the usual language of the pattern.  The
  reading of Python's pattern syntax is trusted.  `CookieModel.compile` reads the
  patterns of `fibs.py` (literals, escapes, classes, dot, postfix operators, `^`, `$`);
  `CookieTables.all_compile` shows that none is refused.
* The order in which Python lists the attributes of a class (`State.__dict__`) is a
  parameter of the cookie theorems; they hold for every order.
* Threads: `SessionModel.v` interleaves the statements of `session.py` in every order allowed by
  the lock.  The lock is a re-entrant lock that excludes other threads; assignment of an
  attribute, list append and list remove are single steps.  `telnetlib` is outside: `expect` may
  return any message or raise at any time, `Telnet.open`, `close` and `write` touch no modelled state.
  Which objects are subscribers and which names they handle are parameters that do not change
  during a run.
* `docutils` (`doc/rst.py`) is a variable; C61 assumes only that its output is balanced.  The order in which
  Python lists the attributes of a node and the entries of `ListElement._design` is arbitrary.
* Wiki texts: `Rx.v` is a backtracking matcher for Python's `re` (alternatives in order, greedy
  repetition, named groups, `^` and `$`); its reading of the patterns in `bgwiki.py` is trusted and was
  compared with the expectations in `bgwiki_test.py`.  Variables: the order of `ListElement._design`, the wiki path,
  the time, `urllib.urlencode`, the tables shown by the Analysis macro (numbers written out; for C131 and C132
  these are modelled, and what is assumed is only the data base `get_analysis`, any function) and docutils.
  Every macro node is a table of contents (`TocModel.v`).  Strings are byte strings in
  the C locale; `make_html` is called once.
* Pictures: floating point arithmetic is `Coq.Floats.SpecFloat` with 53 bits (no axioms); `float(text)` is not
  modelled.  The calls that `draw` makes on its context are recorded, what PIL or wx do with them is outside.
  `ThemeData.v` holds the text of the eight style sheets of `bglib/image/resource`.  A style sheet is given as its lines.
  `ThemeModel.v` holds the names of the files beside them.  Paths are written relative to the package.
  `PilModel.v`: the Python Imaging Library is seven functions (load a font, measure a text, open an image, turn it, resize it,
  its size, whether it is pasted with a mask).  They are variables of the theorems and give the same result for the same
  arguments.  One assumption is made of them: resizing gives the size asked for (`p_resizes`).  Pictures are lists of calls.

* `XmlModel.v`: the order in which dictionaries list their items and `str` of a float are variables; the theorems hold for every
  order, and for every `str` whose results need no escaping.  `XmlSpec.v` reads the part of XML that can occur: no comments,
  CDATA sections or references, values in double quotes only; blanks around character data are dropped.

* `CmpModel.v`: the regular expressions are those of html.py, matched by the backtracking matcher of `Rx.v`.  The order of
  `dict.items` is a variable; the theorems assume that it lists each key once with its last value.  `difflib.SequenceMatcher` is a
  variable; the theorems assume that it reports no change exactly for equal tuples.

* C131, C132 model `macro.Analysis` (218-500) over any `get_analysis`. Values of the data base are integers, booleans, doubles, texts
  and None; a value of another type is not modelled. `'%.3f' % x` and `'%.1f' % x` are modelled by exact rounding of the double (half to even),
  as the C library of the interpreter does. Keyword arguments are modelled as a row (a dict), so a missing one is the
  TypeError of the call or the default of the signature.

* `fuzzing.py`: every `Exception` is a value of `exn`; `select` finds something to read exactly if a byte was written, since the parent has the
  writing end open itself; the child works on a copy of the formatter as it was made.

* `RegistryModel.v` (C158): what a handler returns is an argument of the model; a handler that raises, and objects with a `__getattr__` or a metaclass that
  change `callable` or `isinstance`, are not modelled.

## 4. Simplifications

Kept up to date per file in the header comment of each `XModel.v`.

## 5. Findings

Places where the code, as modelled, violates a property a user would expect.
Each is a machine-checked witness.

* C09 `is_ok_to_bearoff_from`: answers true for a point without a chequer when the die is larger than the point.
* C10 `find_src_of_bearoff_with`: the last loop stops before point 0.
* C12 `is_leagal_to_double`: the score test is `<=` for one seat and `<` for the other; the cube owner is never looked at.
* C16 `drop`, `accept_resign`: dropping or accepting twice scores twice.
* C17 `take`: cube value and owner stay as they were.
* C22 `Move.append`: two equal dances cancel in the list and both cost a die.
* C23 `MoveFactory.append`: the list is changed before the die is found to be missing.
* C25 `guess_your_single_pm_from_dest`: IndexError beyond the bar, point 0 missed, the pool of the caller consumed.
* C26 `guess_your_multiple_pms`: some multi-die bear-offs are not found.
* C27 `guess_your_multiple_partial_undoes`: changes the board of the factory.
* C28 `guess_your_making_point`: one die used twice; changes the board of the factory.
* C29 `is_leagal_to_pickup_dice`: may leave the board rewound to the start of the turn.
* C119: three ways to put -1 chequers on a point from the suggestion functions alone: take back (4, 7) after playing 7 to 4 and 4 to 3; append what `guess_your_making_point` returns, whose first step is already on the board; call `pickupdice` twice when the first call, declined, rewound the board.
* C123 `Tracer.set_action`: checks the record and stores nothing, so every other method raises AssertionError, always.
* C73 `is_leagal_to_pickup_dice`: does not see a chequer on the bar, nor plays with two chequers.
* C35 `encode_position`: 12 characters instead of 14 when 6, 14 or 22 chequers are left in all.
* C36 `decode_position`: loops for ever on a string with 1, 5, 9, ... significant characters, such as `A`.
* C38 `decode`: rejects the id of a running money session in which a point has been scored.
* C40 `xgid.decode`: a score that is not a number raises TypeError, because the error message has one `%s` for two values.
* C41 `xgid.decode`, `gnubgid.decode`: fields read before the error stay changed.
* C42 `FIBS.decode`: NameError whenever you are not on turn; an old doubled flag is never cleared.
* C74 `xgid.decode`: money games with the flag 2 or 3 (as in the tests of the project) are rejected.
* C76 `xgid.decode`: keeps the doubled flag and resign offer of the old board.
* C78 `get_taker_name`, `get_move`, `get_score`: None, NameError and TypeError for every message.
* C45 `nori.oneside_upto6_k2t`: AssertionError for every key of a position with fifteen chequers (`range(15)` should be `range(16)`).
* C80 `trice.t2k`: different positions share a key.
* Not stated as a property: `DBReader.__getitem__` calls `key_to_index` with an argument more than it takes, so `db[key]` always raises TypeError; `gnubg_Hugh_indexing` has no return statement and returns None.
* C52: The validator accepts an empty line in every state, also before the first line, and a
  game header may follow an empty line.  So a record that begins with an empty line needs no match
  length (`C52_order_refuted`).
* C54: `chop` looks at the state *after* parsing a line.  Lines of results do not change the
  state, so one that follows an empty line is skipped and lost (`C54_chop_refuted`).  When the
  record has no match length (see C52) `chop` joins the number 0 and raises TypeError
  (`C54_chop_raises_refuted`).
* C56 `State.make_cookie`: a message that fits two cookies gets the one that was seen last.  The 29
  pairs of cookies that share a message are listed in `CookieSpec.overlaps`; for instance a
  login of the player `bytes` may be read as a line of statistics.
* C85 `RunState`: patterns such as `waves goodbye` are used with `match`, which starts at the beginning
  of the message, so nothing of the form `NAME waves goodbye` ever fits.
* C57 `Session._dispatch`: iterates over the live list; a handler that unregisters its subscriber hides the message from the next one.
* C58 `Session._listener`: leaves its loop without setting `terminated`, so waiting for that event may never end; a
  handler that calls `close` does not keep the remaining subscribers from being called.
* C86 `Transport.open`: does not clear the request to terminate; a session opened again never delivers anything.
* C87 `Session._listener`: an exception in a handler ends the listener, while `is_active` goes on to say True.
* C60 `html.escape`: does not escape quotation marks, although its result is put between them; a value can add attributes to its tag.
* C62 `Editor.append_text`: adds a text to whatever node is current, accepted or not.
* C63 `Editor.append`: the parent of a node is the current node even when another node holds it; `leave` then goes back to
  a node that is not at the end of the document, and later text is put before earlier text.
* C64 `WrappingFormatter`: any line `#!name` in a preformatted block is taken as the choice of a processor, also in the
  middle of the block and for unknown names, and is not shown.
* C92 `macro._parse_position`: `[[Position]]` and `[[Analysis]]` raise TypeError, since `re.match` gets None.
* C93 `ItemizeElement.open`: KeyError for an unsigned item in a list of signed items (` + a` then ` * b`); the page
  can then not be shown at all.
* C94 `TocVisitor.de_anchor`: None for a child of a heading that is neither a text nor a link; a page with a table of
  contents and a bold word in a heading raises AttributeError.
* C96 `TableOfContentNode.open`: gives the headings their ids when it is written, so links to headings further up lead nowhere.
* `doctree.py` `Editor.append`: a table of contents is not accepted by a paragraph, so it closes it and takes the editor to the
  root: the text behind `[[TableOfContent]]` on the same line is outside of every paragraph (example `C91_contents`).
* C100: for the same reason the HTML of such a page is different when it is written again.
* C97 link handlers: a quotation mark in the label of a link becomes part of the title attribute, so that a text
  can add an event handler to a link. Quotation marks anywhere else do no harm (`C97_attributes_partial`).
* Not stated as properties: titles of links are escaped twice; a single `=` anywhere in a line opens a heading.
* C66 `BaseElement.apply`: the second rule that gives an element an image or a font raises AttributeError.
* C67 `__getattr__`: `fill` of a point raises AttributeError instead of giving the default.
* C69 `ElementTree.set`: after a double was taken, a resignation is shown as a double; with dice on the table the cube disappears.
* C71 `Board.set_mag`: the assertion fails for some sizes because of rounding, 97 by 97 for a board of 341 by 262.
* C102 `resource/matrix/default.css` and `resource/safari/default.css` name `DejaVuLGCSans-Bold.ttf`, which is not in their
  directories: every picture with matrix fails when PIL loads the font of the scores.  safari never draws with it.
* C102 `resource/safari` has no `bar-green-8.jpg` to `bar-green-15.jpg` and no `bar-white-8.jpg` to `bar-white-15.jpg`.
* Not stated as properties: safari shows no cube above 32 and no score above 25; matrix shows neither cube nor resignation;
  `flip=True` in several sheets lacks its colon and is skipped; `flip`, `fill` and `hide_count` are true for any text that is not empty,
  also for `False`.
* C112 `ElementTree.set` (line 801): when YOU doubled and HIM has to take or drop, the player of the action is YOU, so the
  style sheets colour the sentence as if it were the turn of YOU.
* C114 `BaseElement.format` writes values of attributes without escaping: `board {background: "red"}` in a sheet gives
  `background=""red""`, which no XML parser reads.
* C98 `append`: does not take the element from its former parent.
* C126, C127 `_handle_pattern_auto_anchor`: appends the URL unescaped as the text of the link and gives the escaped URL
  to `set_url`, whose value is escaped again when it is written: `http://a.b/?c=d&copy=2` is shown as
  `http://a.b/?c=d` and a copyright sign, and links to `http://a.b/?c=d&amp;copy=2`. `_handle_pattern_scheme_url`
  has the second fault, too, for its address and its title.
* C128 `html.validate`: expat refuses every page with a URL that has an ampersand (C126) and pages where the label of a link has
  a quotation mark (C97).  For every other text of legal characters the page is well
  formed: `quoted_label` and `amp_url` in `WikiSpec.v` say which texts those are.  The specification `well_formed` is stricter than expat:
  it has no comments, sections, processing instructions or numeric references, none of which a page needs.
* C129 `html.cmp_tuple`, which the tests of the documents use: `<`, `>` and `&` that are not part of a known tag are skipped, so a
  doubled or a stray ampersand is not noticed (`<p>R&amp;D</p>` and `<p>R&&amp;D</p>`), and neither is `<br />` with `&` for `<`.
  A blank before the first tag, on the other hand, makes two texts different.
* C130 `css.load`: it has no notion of a comment. `/* board {x: 1} */` is
  a rule for `board`, because the selector pattern is searched for inside `/*`. The theme
  `deutsche` has four lines that its author put out of use with a `#` (lines 70, 71, 74 and 75 of
  its `default.css`); all four are loaded, and it is only because the lines that replace them come
  later that they have no effect. `board {}` raises AssertionError in `block`, so one such line
  makes the whole theme fail to load. `text: two words` sets the text to `two`.
* C131 `CubeAction_table_row` (260-296) asserts `actual in CUBEACTION_TYPES` where `action` is meant: an action of -1 to -4 is shown with the
  name of another action, 4 and more raise IndexError, and a row with `actual=None`, accepted for moves, raises AssertionError.
* C131 `percent_two_one` does not multiply by 100, so the chances 0.519 and 0.481 of the data base for the tests are both shown as 0.5.
* C132 the text of a move goes to the page unescaped: a move with `<` or `&` makes the page ill formed.
* C134 `room12`, `item7`, `am4` contain an m before a digit: the page has a link to match 12, 7 or 4 in the middle of the word. `McGuire` and
  `DeLorean` are links to wiki pages.
* C134 the lines of a paragraph are joined without a blank or line end between them: the last word of a line and the first of the next are
  shown as one word (`foo`, `bar` as `foobar`).
* C136 nothing in `board.py` or `boardeditor.py` notices that a player has no chequers left: `game_state` stays ON_GOING, the winner may still
  move and after the dice are picked up the loser may roll.
* C137 `take` leaves `doubled` set (the line that clears it is a comment). When the player on action then offers to resign, the opponent may
  `drop` the double that was taken long ago, and the player who resigned gets the points; or `take` it again, after which the player who
  resigned may `accept_resign` and gets the points. `pickupdice` does not look at `resign_offer`: picking up while a resignation is offered
  makes the player who offered it the one who may accept it.
* C138 `is_leagal_to_pickup_dice` builds its second factory on `self.board` itself, so its take-backs are made on the board of the game. When
  it then says yes, `pickupdice` passes the turn with all moves of the turn undone. With one chequer on the 13 point, 6-1 and the opponent's
  block seven steps away, the player plays 13/7 as the rules demand, picks up the dice, and the chequer is back on the 13 point.
* C142 The fuzzer of the wiki has two kinds of texts that fail: a list that mixes signed and unsigned items raises `KeyError` when it is
  rendered, and a text of empty lines has empty HTML, which `Gene.verify` refuses with `AssertionError` instead of a verdict.
* C143 The parent of a trial says 'timed out' of every child that fails, after three seconds: it never closes its copy of the writing end
  (`fuzzing.py:96-107`).
* C144 `Gene.iter_subset` gives a tuple where a length is wanted (`TypeError`), and `shorter_fails` uses the unknown names `iter_subset`,
  `g` and `is_ok` (`NameError`).
* C145 `_handle_pattern_itemize`: an item indented by more than one deeper than the last one opens lists without items; a later item between the
  two depths then leaves the item of an outer list (`leave(Itemize)` finds the nearest one), so that ` * a`, `   * b`, `  * c` shows `c` as
  an item of the list of `a`.
* C146 `LineFormatter.parse`: a line that does not begin with `>` leaves one citation only. After a line with two signs the reply without a sign is
  shown as cited once; an empty line or a line with one sign between them avoids it.  A deeper citation is opened inside the paragraph of the
  citation around it (`<p>` … `<blockquote>`), while a citation after a deeper one gets a paragraph of its own.
* C148 `LineFormatter.parse` never leaves a table at a line without bars: the text after `||a||` is put into the `<table>` element between its
  rows, and only an empty line ends it.  A row that has no bar at its end goes on in the next line, so `||c` followed by `d||e||` is one row.
* C150 `LineFormatter.parse` leaves the definition at a line that is not indented, but never the list: the text after `a::` and `  b` is put into
  the `<dl>` element between its entries, and an indented line after it becomes a `<dd>` without a term instead of a quote.
* C152 `Div` does not take a `WrappingFormatterElement`, so `Editor.append` puts it into the root, after the paragraph, and `leave` goes back to where the
  text was: of `a`, `{{{`, `x`, `}}}`, `b` the page shows `ab` in one paragraph and then `x`. A block at the start of a paragraph is shown after it too.
* C155 `bearoff_param` takes the maximum with 0, as if a side without chequers had parameters, but the function that looks for its last chequer has then
  already raised IndexError.
* C157 `_arg_pattern` has `css=` but `format`, `width` and `height` without the equals sign: `[[Position(id, width=600)]]` shows the picture at 400 by 300
  and says nothing, `[[Position(id, width600)]]` has the effect. Options in another order are dropped in the same way.
* C158 `unregister` calls `remove` on the dictionary of handlers, which has no such method: it always raises AttributeError and a macro stays.
* C160 The macros `Position` and `Analysis` want 14 characters before the colon, but `encode` gives 12 with 6, 14 or 22 chequers left (C35), so these
  boards cannot be shown by the identifiers the package makes.
* C161 `xgid.decode` always sets the game state to ON_GOING, so the XGID of an unlimited session with a score becomes identifiers that
  `gnubgid.decode` rejects (C38).
* C165 `gnubgid.decode` accepts identifiers that say the other player is to decide although nothing is offered; the picture of such a board
  raises AssertionError.
* C167 `xgid.decode` accepts any two digits as dice; a theme that draws dice with dots raises `AssertionError` (`image/base.py:506`) for a die of seven or more pips.
