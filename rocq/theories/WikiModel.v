(* Model of bglib/doc/bgwiki.py: the line formatter, preformatted blocks and the
   formatter, and of the macros of bglib/doc/macro.py.
   Lines are byte strings; \w and \d are those of the C locale.  The groups of a
   match are handled in the order of the pattern: Python's order is arbitrary, but
   only one group of a match has a handler. *)
From Verif Require Import Py Re Rx HtmlModel TreeModel TocModel.
Open Scope string_scope.
Open Scope list_scope.
Open Scope nat_scope.

(* ---- patterns ---- *)
Definition word : rx := xset [("a", "z"); ("A", "Z"); ("0", "9"); ("_", "_")]%char.
Definition digits : rx := xplus (XChr digit_set).
Definition bang : rx := xopt (xlit "!").                        (* !? *)
Definition dot : rx := XChr (Ranges true [xone newline_char]).
Definition spaces : rx := XStar (xset [xone " "; (ascii_of_nat 9, ascii_of_nat 13)]%char).
(* 157 *)
Definition url (name : string) : rx :=
  XGroup name (xcats [xlit "http"; xopt (xlit "s"); xlit "://";
    xplus (xset [("a", "z"); ("A", "Z"); ("0", "9"); xone "_"; xone "~"; xone "#"; xone "="; xone "?"; xone "."; xone "/"; xone "-"; xone "&"; xone "%"]%char)]).
(* html.py:13 *)
Definition unsafe_letters : rx :=
  xalts [XGroup "lt" (xset [xone "<"%char]); XGroup "gt" (xset [xone ">"%char]); XGroup "amp" (xset [xone "&"%char]); XGroup "question" (xset [xone "?"%char])].
Definition blank : rx := xset [xone " "%char].
Definition marks (c : ascii) : rx :=                             (* c{1,3} *)
  let m := xset [xone c] in XCat m (xopt (XCat m (xopt m))).
Definition item_mark : rx :=                                     (* 184-189 *)
  xalts [XGroup "star" (xset [xone "*"%char]);
         XGroup "sign" (XAlt (XGroup "plus" (marks "+")) (XGroup "minus" (marks "-")));
         XGroup "ordered_numeric" (XCat (xset [("1", "8")]%char) (xopt (xlit ".")));
         XGroup "ordered_alpha" (XCat (xset [("a", "h")]%char) (xopt (xlit ".")));
         XGroup "ordered_roman" (XCat (xplus (xset [xone "i"; xone "v"]%char)) (xopt (xlit ".")))].
(* LineFormatter._patterns, 159-196, in order *)
Definition line_patterns : list (string * rx) :=
  [ ("_pattern_bolditalic", XCat bang (xlit "'''''"))
  ; ("_pattern_bold", XCat bang (xlit "'''"))
  ; ("_pattern_italic", XCat bang (xlit "''"))
  ; ("_pattern_underline", XCat bang (xlit "__"))
  ; ("_pattern_strike", XCat bang (xlit "~~"))
  ; ("_pattern_subscript", XCat bang (xlit ",,"))
  ; ("_pattern_superscript", XCat bang (xlit "^"))
  ; ("_pattern_monospace", XCat bang (xlit "`"))
  ; ("_pattern_preformat_start", xcats [bang; XBol; xlit "{{{"; XEol])
  ; ("_pattern_preformat_end", xcats [bang; XBol; xlit "}}}"; XEol])
  ; ("_pattern_monospace_start", XCat bang (xlit "{{{"))
  ; ("_pattern_monospace_end", XCat bang (xlit "}}}"))
  ; ("_pattern_heading_h3", XCat bang (xlit "==="))
  ; ("_pattern_heading_h2", XCat bang (xlit "=="))
  ; ("_pattern_heading_h1", XCat bang (xlit "="))
  ; ("_pattern_macro", xcats [xlit "[["; XGroup "macro_name" (xplus word);
       xopt (xcats [xlit "("; XGroup "macro_args" (xplus (xset [("a", "z"); ("A", "Z"); ("0", "9"); xone "+"; xone ","; xone " "; xone "."; xone "="; xone "/"; xone "#"; xone ":"]%char)); xlit ")"]);
       xlit "]]"])
  ; ("_pattern_entry_link", xcats [bang; XAlt (xlit "#") (xlit "entry:"); digits])
  ; ("_pattern_query_link", XCat bang (XAlt (XCat (xlit "query:") digits) (xcats [xlit "{"; digits; xlit "}"])))
  ; ("_pattern_match_link", XCat bang (xalts [XCat (xlit "m") digits; XCat (xlit "match:") digits; xcats [xlit "["; digits; xlit "]"]]))
  ; ("_pattern_table_end", xcats [bang; xlit "||"; spaces; XEol])
  ; ("_pattern_table_cell", XCat bang (xlit "||"))
  ; ("_pattern_scheme_url", xcats [bang; xlit "["; url "url_1"; xopt (XGroup "disp" (XCat blank (xplus (XChr (Ranges true [xone "]"%char]))))); xlit "]"])
  ; ("_pattern_scheme_wikiname", xcats [bang; xlit "[wiki:"; xplus (xset [("A", "Z"); ("a", "z")]%char); xlit "]"])
  ; ("_pattern_auto_anchor", XCat bang (url "url_2"))
  ; ("_pattern_camelcase", let w := XCat (xset [("A", "Z")]%char) (xplus (xset [("a", "z"); ("0", "9")]%char)) in xcats [bang; w; xplus w])
  ; ("_pattern_itemize", xcats [XBol; xplus blank; item_mark; blank])
  ; ("_pattern_citation", xcats [XBol; xplus (xset [xone ">"%char]); blank])
  ; ("_pattern_comsume_definition_header", XCat (xlit "::") XEol)
  ; ("_pattern_quote_or_definition_body", xcats [XBol; blank; blank; XStar blank])
  ; ("_pattern_escape_html", unsafe_letters)
  ; ("_pattern_rest_of_the_world", dot) ].
(* WrappingFormatterElement._patterns, 76-80 *)
Definition wrap_patterns : list (string * rx) :=
  [ ("_pattern_preformat_end", xcats [XBol; xlit "}}}"; XEol])
  ; ("_pattern_processor_specifier", xcats [XBol; xlit "#!"; XGroup "processor_name" (xplus word); XEol])
  ; ("_pattern_rest_of_the_world", xcats [XBol; XStar dot; XEol]) ].
(* get_regexp, 44-47 *)
Definition regexp (ps : list (string * rx)) : rx := xalts (map (fun '(n, r) => XGroup n r) ps).
(* the names of the groups of the line patterns: what groupdict() has as keys *)
Fixpoint names (r : rx) : list string :=
  match r with
  | XEps | XChr _ | XBol | XEol => []
  | XCat a b | XAlt a b => names a ++ names b
  | XStar a => names a
  | XGroup n a => n :: names a
  end.
Definition line_names : list string := names (regexp line_patterns).
Definition groupdict (g : list (string * str)) : list (string * value) :=
  map (fun n => (n, match group g n with Some s => VStr s | None => VNone end)) line_names.

(* ---- actions on the document: what has been done stays done when an exception is raised ---- *)
Definition M (X : Type) : Type := doc -> doc * res X.
Definition ret {X} (x : X) : M X := fun d => (d, Ok x).
Definition raise {X} (e : exn) : M X := fun d => (d, Exc e).
Definition andthen {X Y} (m : M X) (k : X -> M Y) : M Y :=
  fun d => match m d with (d, Ok x) => k x d | (d, Exc e) => (d, Exc e) end.
Notation "'do!' x ':=' m 'in' k" := (andthen m (fun x => k)) (at level 200, x name, m at level 100, k at level 200, right associativity).
Notation "m ';;' k" := (andthen m (fun _ => k)) (at level 100, k at level 200, right associativity).
Definition run_op (o : op) : M unit := fun d => exec d o.
Definition m_enter (k : klass) (a : list (string * value)) : M nat := fun d => enter d k a.
Definition m_leave (ks : list klass) : M unit := run_op (Leave ks).
Definition m_text (s : str) : M unit := run_op (AddText s).
Definition m_ancestor (ks : list klass) : M (option nat) := fun d => (d, ancestor d ks).
Definition m_count (ks : list klass) : M nat := fun d => (d, count_nesting d ks).
Definition set_url (i : nat) (s : str) : M unit := run_op (SetAttr i "href" (VStr s)).
(* editor.current, an attribute of which is then used *)
Definition m_current : M node := fun d =>
  (d, match current d with Some c => match nth_error (nodes d) c with Some n => Ok n | None => Exc AttributeError end | None => Exc AttributeError end).
Fixpoint m_each {X} (f : X -> M unit) (l : list X) : M unit := match l with [] => ret tt | x :: l => f x ;; m_each f l end.
(* enter and forget the node *)
Definition m_push (k : klass) (a : list (string * value)) : M unit := m_enter k a ;; ret tt.

(* 49-71 *)
Definition start_on_not_exist (k : klass) (a : list (string * value)) : M unit :=
  do! found := m_ancestor [k] in match found with Some _ => ret tt | None => m_push k a end.
Definition start_or_end (k : klass) (a : list (string * value)) : M unit :=
  do! found := m_ancestor [k] in match found with Some _ => m_leave [k] | None => m_push k a end.

Section Formatter.
Variable design_order : list string.                       (* as in TreeModel *)
Variable wikipath : str.                                   (* 202-205 *)
Variable now : str.                                        (* datetime.now().isoformat() *)
Variable urlencode : list (string * str) -> str.           (* urllib.urlencode(d, True) *)
(* what the Analysis macro shows for a position: the tables made from the data base, with their numbers written out *)
Record cell := mkcell { header : bool; cattrs : list (string * str); ctext : str }.
Record table := mktable { tclass : str; rows : list (str * list cell) }.
Variable analysis : str -> res (list table).

(* ---- macro.py ---- *)
Definition opt_none (s : option str) : str := match s with Some ((_ :: _) as s) => s | _ => L "None" end.   (* args or 'None' *)
(* _bad_name_handler, 59-66 *)
Definition bad_name (name : str) (args : option str) : M unit :=
  m_push Span [("class", VStr (L "error"))] ;;
  m_text (L "No such macro " ++ [ascii_of_nat 34] ++ escape name ++ [ascii_of_nat 34] ++ L " with argument " ++ [ascii_of_nat 34] ++ escape (opt_none args) ++ [ascii_of_nat 34]) ;;
  m_leave [Span].
(* _bad_args_handler, 68-71 *)
Definition bad_args (name : str) (args : option str) : M unit :=
  m_push Span [("class", VStr (L "error"))] ;;
  m_text (L "Bad args " ++ [ascii_of_nat 34] ++ escape (opt_none args) ++ [ascii_of_nat 34] ++ L " for " ++ name ++ nl) ;;
  m_leave [Span].
(* _arg_pattern, 181-187; {n} is n copies *)
Definition times (n : nat) (r : rx) : rx := xcats (repeat r n).
Definition base64 : rx := xset [("a", "z"); ("A", "Z"); ("0", "9"); xone "/"; xone "+"]%char.
Definition letters : rx := xplus (xset [("a", "z"); ("A", "Z")]%char).
Definition arg_pattern : rx :=
  let arg before r := xopt (xcats [xlit ","; XStar blank; xlit before; r]) in
  xcats [XGroup "gnubgid" (xcats [times 14 base64; xlit ":"; times 12 base64]);
         arg "css=" (XGroup "css" letters); arg "format" (XGroup "format" letters);
         arg "width" (XGroup "width" digits); arg "height" (XGroup "height" digits)].
(* _parse_position, 189-204; TypeError when there are no arguments: re.match(None) *)
Definition parse_position (args : option str) : res (option (list (string * str))) :=
  match args with
  | None => Exc TypeError
  | Some s =>
      match run arg_pattern Some (mkspot true s []) with
      | None => Ok None
      | Some st =>
          let get name default := (name, match group (caps st) name with Some ((_ :: _) as s) => s | _ => default end) in
          Ok (Some [("gnubgid", match group (caps st) "gnubgid" with Some s => s | None => [] end);
                    get "width" (L "400"); get "height" (L "300"); get "format" (L "png"); get "css" (L "minimal")])
      end
  end.
(* the tables of Analysis, 217-500: every one is built in the same way *)
Definition write_cell (c : cell) : M unit :=
  let k := if header c then TableHeader else TableCell in
  m_push k (map (fun kv => (fst kv, VStr (snd kv))) (cattrs c)) ;; m_text (ctext c) ;; m_leave [k].
Definition write_row (r : str * list cell) : M unit :=
  m_push TableRow [("class", VStr (fst r))] ;; m_each write_cell (snd r) ;; m_leave [TableRow].
Definition write_table (t : table) : M unit :=
  m_push Table [("class", VStr (tclass t))] ;; m_each write_row (rows t) ;; m_leave [Table].
(* the registered handlers, 77-90, 171-179, 206-214, 217-238; False when the arguments are bad *)
Definition macro (name : str) : option (option str -> M bool) :=
  if str_eqb name (L "BR") then Some (fun _ => m_push BR [] ;; m_leave [BR] ;; ret true)
  else if str_eqb name (L "Timestamp") then Some (fun _ => m_push Bold [] ;; m_text now ;; m_leave [Bold] ;; ret true)
  else if str_eqb name (L "TableOfContent") then Some (fun _ => run_op table_of_contents ;; ret true)
  else if str_eqb name (L "Position") then Some (fun args =>
    do! p := (fun d => (d, parse_position args)) in
    match p with
    | None => ret false
    | Some p => m_push Span [("class", VStr (L "position"))] ;;
                m_push Img [("src", VStr (L "/image?" ++ urlencode p))] ;; m_leave [Span] ;; ret true
    end)
  else if str_eqb name (L "Analysis") then Some (fun args =>
    do! p := (fun d => (d, parse_position args)) in
    match p with
    | None => ret false
    | Some p => do! ts := (fun d => (d, analysis (match p with (_, s) :: _ => s | [] => [] end))) in m_each write_table ts ;; ret true
    end)
  else None.
(* dispatch, 48-56 *)
Definition dispatch (name : str) (args : option str) : M unit :=
  match macro name with
  | Some h => do! ok := h args in if ok : bool then ret tt else bad_args name args
  | None => bad_name name args
  end.

(* ---- LineFormatter ---- *)
(* _calc_indent, 326-332: None when every character is the letter *)
Fixpoint calc_indent (s : str) (letter : ascii) : option nat :=
  match s with
  | [] => None
  | c :: s => if Ascii.eqb c letter then match calc_indent s letter with Some n => Some (S n) | None => None end else Some 0
  end.
(* _unnest and _nest, 334-346: leave (enter) as often as the nesting is too deep (too shallow), and return the nesting *)
Definition unnest (indent nest : nat) (ks : list klass) : M nat := m_each m_leave (repeat ks (nest - indent)) ;; ret (min nest indent).
Definition nest_more (indent nest : nat) (k : klass) (a : list (string * value)) : M nat :=
  m_each (fun k => m_push k a) (repeat k (indent - nest)) ;; ret (max nest indent).
Definition m_assert (b : bool) : M unit := if b then ret tt else raise AssertionError.
Definition no_design : list (string * value) :=
  [("star", VNone); ("ordered_numeric", VNone); ("ordered_roman", VNone); ("ordered_alpha", VNone); ("sign", VNone)].
Definition anchor (class title href : str) : M nat :=
  m_enter Anchor [("class", VStr class); ("title", VStr title); ("href", VStr href)].
Definition anchor2 (class title : str) : M nat := m_enter Anchor [("class", VStr class); ("title", VStr title)].
(* s[a:b] for s with at least a characters; the last [cut] characters are dropped *)
Definition slice (a cut : nat) (s : str) : str := firstn (List.length s - a - cut) (skipn a s).
Definition prefixed (p : string) (s : str) : bool := str_eqb (firstn (List.length (L p)) s) (L p).

(* _handle_pattern_citation, 348-362 *)
Definition handle_citation (s : str) : M unit :=
  match calc_indent s ">" with
  | None => raise Unmodelled
  | Some indent =>
      do! nest := m_count [Citation] in
      do! nest := unnest indent nest [Citation] in
      do! nest := nest_more indent nest Citation [] in
      m_assert (Nat.eqb indent nest) ;;
      start_on_not_exist CitationContent []
  end.
(* _handle_pattern_itemize, 364-393 *)
Definition handle_itemize (g : list (string * str)) (s : str) : M unit :=
  match calc_indent s " " with
  | None => raise Unmodelled
  | Some indent =>
      do! nest := m_count [ListEl] in
      do! nest := unnest indent nest [ListEl] in
      (if Nat.eqb indent nest then m_leave [Itemize]
       else
         do! nest := nest_more (indent - 1) nest ListEl no_design in
         m_assert (Nat.eqb indent (nest + 1)) ;;
         m_push ListEl (groupdict g)) ;;
      do! n := m_current in
      do! style := (fun d => (d, match cls n with ListEl => get_style design_order n | _ => Exc AttributeError end)) in
      m_push Itemize (set_key (groupdict g) "style" style)
  end.
(* _handle_pattern_quote_or_definition_body, 405-416 *)
Definition handle_quote : M unit :=
  do! found := m_ancestor [DefList] in
  match found with
  | Some _ => do! body := m_ancestor [DefBody] in
              match body with Some b => run_op (GoTo b) | None => m_push DefBody [] end
  | None => start_on_not_exist BlockQuote []
  end.
(* the handler of each pattern, 246-499; a pattern without a handler does nothing *)
Definition handle (name : string) (s : str) (g : list (string * str)) : M unit :=
  let is n := String.eqb name n in
  let get n := group g n in
  (if is "_pattern_rest_of_the_world" then m_text s
  else if is "_pattern_escape_html" then m_text (escape s)
  else if is "_pattern_bold" then start_or_end Bold []
  else if is "_pattern_italic" then start_or_end Italic []
  else if is "_pattern_bolditalic" then
    do! found := m_ancestor [Bold; Italic] in
    match found with
    | Some _ => m_leave [Bold] ;; m_leave [Italic]
    | None => m_push Bold [] ;; m_push Italic []
    end
  else if is "_pattern_underline" then start_or_end Underline []
  else if is "_pattern_strike" then start_or_end Strike []
  else if is "_pattern_subscript" then start_or_end Subscript []
  else if is "_pattern_superscript" then start_or_end Superscript []
  else if is "_pattern_heading_h3" then start_or_end H3 []
  else if is "_pattern_heading_h2" then start_or_end H2 []
  else if is "_pattern_heading_h1" then start_or_end H1 []
  else if is "_pattern_monospace" then start_or_end Monospace []
  else if is "_pattern_monospace_start" then m_push Monospace []
  else if is "_pattern_monospace_end" then m_leave [Monospace]
  else if is "_pattern_table_cell" then
    start_on_not_exist Table [("class", VStr (L "wiki"))] ;;
    start_on_not_exist TableRow [] ;;
    m_leave [TableCell] ;;
    m_push TableCell []
  else if is "_pattern_table_end" then m_leave [TableRow]
  else if is "_pattern_preformat_start" then m_push Wrapping []
  else if is "_pattern_citation" then handle_citation s
  else if is "_pattern_itemize" then handle_itemize g s
  else if is "_pattern_quote_or_definition_body" then handle_quote
  else if is "_pattern_entry_link" then
    match s with
    | "#"%char :: n => anchor (L "entry") s (L "/entry/" ++ n) ;; m_text s ;; m_leave [Anchor]
    | _ => if prefixed "entry:" s then anchor (L "entry") s (L "/entry/" ++ skipn 6 s) ;; m_text s ;; m_leave [Anchor] else raise AssertionError
    end
  else if is "_pattern_query_link" then
    match s with
    | "{"%char :: _ => anchor (L "query") s (L "/query/" ++ slice 1 1 s) ;; m_text s ;; m_leave [Anchor]
    | _ => if prefixed "query:" s then anchor (L "query") s (L "/query/" ++ skipn 6 s) ;; m_text s ;; m_leave [Anchor] else raise AssertionError
    end
  else if is "_pattern_match_link" then
    do! a := anchor2 (L "match") (L "title") in
    match s with
    | "["%char :: _ => set_url a (L "/match/" ++ slice 1 1 s)
    | _ => if prefixed "match:" s then set_url a (L "/match/" ++ skipn 6 s)
           else if prefixed "m" s then set_url a (L "/match/" ++ skipn 1 s) else raise AssertionError
    end ;;
    m_text s ;; m_leave [Anchor]
  else if is "_pattern_camelcase" then
    do! a := anchor2 (L "wiki-link") s in
    set_url a (wikipath ++ s) ;; m_text s ;; m_leave [Anchor]
  else if is "_pattern_auto_anchor" then
    do! a := anchor2 (L "ext-link") (L "title") in
    set_url a (escape s) ;;
    m_push Span [("class", VStr (L "icon"))] ;;
    m_text s ;; m_leave [Span] ;; m_leave [Anchor]
  else if is "_pattern_scheme_wikiname" then
    m_assert (prefixed "[wiki:" s) ;;
    m_assert (str_eqb (skipn (List.length s - 1) s) (L "]")) ;;
    let name := slice 6 1 s in
    do! a := anchor2 (L "wiki-link") name in
    set_url a (wikipath ++ name) ;; m_text name ;; m_leave [Anchor]
  else if is "_pattern_scheme_url" then
    match get "url_1" with
    | None => raise TypeError
    | Some u =>
        let disp := match get "disp" with Some (_ :: r) => escape r | _ => escape u end in
        do! a := anchor2 (L "ext-link") disp in
        set_url a (escape u) ;;
        m_push Span [("class", VStr (L "icon"))] ;;
        m_text disp ;; m_leave [Span] ;; m_leave [Anchor]
    end
  else if is "_pattern_macro" then
    match get "macro_name" with None => raise TypeError | Some n => dispatch n (get "macro_args") end
  else ret tt).

(* one group of a match, 227-235 *)
Definition handle_group (g : list (string * str)) (kv : string * str) : M unit :=
  let (name, s) := kv in
  match s with
  | [] => ret tt
  | c :: r => if Ascii.eqb c "!" && negb (String.eqb name "_pattern_rest_of_the_world") then m_text (escape r) else handle name s g
  end.
Definition ends_with (p : string) (s : str) : bool := prefixed p (skipn (List.length s - List.length (L p)) s).
Definition matches (line : str) : list (list (string * str)) := find_all (regexp line_patterns) line.
(* LineFormatter.parse, 207-240, and the definition headers, 395-403 *)
Definition line_parse (line : str) : M unit :=
  match line with
  | [] => m_leave [Div] ;; run_op Done
  | c :: _ =>
      start_on_not_exist Div [] ;;
      (if Ascii.eqb c " " then ret tt else m_leave [BlockQuote; DefBody]) ;;
      (if Ascii.eqb c ">" then ret tt else m_leave [Citation]) ;;
      (if ends_with "::" line then start_on_not_exist DefList [] ;; m_push DefHeader [] else ret tt) ;;
      m_each (fun g => m_each (handle_group g) g) (matches line) ;;
      (if ends_with "::" line then m_leave [DefHeader] ;; m_push DefBody [] else ret tt)
  end.
(* ---- WrappingFormatterElement ---- *)
(* 109-132; [i] is the node *)
Definition wrap_handle (i : nat) (g : list (string * str)) (kv : string * str) : M unit :=
  let (name, s) := kv in
  match s with
  | [] => ret tt
  | _ => (if String.eqb name "_pattern_preformat_end" then m_leave [Wrapping]
         else if String.eqb name "_pattern_rest_of_the_world" then run_op (AddLine i (s ++ nl))
         else if String.eqb name "_pattern_processor_specifier" then
           match group g "processor_name" with
           | Some p => run_op (SetProcessor i (string_of_list_ascii p))
           | None => raise KeyError
           end
         else ret tt)
  end.
Definition wrap_parse (i : nat) (line : str) : M unit :=
  match line with
  | [] => run_op (AddLine i nl)
  | _ => m_each (fun g => m_each (wrap_handle i g) g) (find_all (regexp wrap_patterns) line)
  end.
(* ---- Formatter ---- *)
(* str.splitlines: a line ends with \n, \r or \r\n; nothing after the last end is not a line *)
Fixpoint split_lines (cur : str) (s : str) : list str :=
  match s with
  | [] => match cur with [] => [] | _ => [rev cur] end
  | c :: r =>
      if Ascii.eqb c (ascii_of_nat 13) then
        rev cur :: match r with
                   | d :: r' => if Ascii.eqb d newline_char then split_lines [] r' else split_lines [] r
                   | [] => []
                   end
      else if Ascii.eqb c newline_char then rev cur :: split_lines [] r
      else split_lines (c :: cur) r
  end.
Definition splitlines (s : str) : list str := split_lines [] s.
(* get_formatter, 522-526, and parse, 528-531 *)
Definition parse_line (line : str) : M unit := fun d =>
  match current d with
  | Some c => match nth_error (nodes d) c with
              | Some n => match cls n with Wrapping => wrap_parse c line d | _ => line_parse line d end
              | None => line_parse line d
              end
  | None => line_parse line d
  end.
Definition parse (wiki : str) : M unit := m_each parse_line (splitlines wiki).
(* make_html, 30-36, called once: a second call gives the text of preformatted blocks again to their formatters *)
Variable rst : str -> res str.
Definition make_html (d : doc) : res str := snd (render_contents design_order rst (done (fst (leave d [BgRoot])))).
Definition html (wiki : str) : res str :=
  match parse wiki new_doc with (d, Ok _) => make_html d | (_, Exc e) => Exc e end.
End Formatter.
