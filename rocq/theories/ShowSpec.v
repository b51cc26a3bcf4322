(* What a wiki text with simple markup shows *)
From Verif Require Import Py Re HtmlModel HtmlSpec TreeSpec TocSpec WikiSpec.
Open Scope string_scope.
Open Scope list_scope.
Open Scope nat_scope.

(* ---- what is written ---- *)
Definition is_digit (c : ascii) : bool := existsb (Ascii.eqb c) (L "0123456789").
Definition is_capital (c : ascii) : bool := existsb (Ascii.eqb c) (L "ABCDEFGHIJKLMNOPQRSTUVWXYZ").
Definition is_small (c : ascii) : bool := existsb (Ascii.eqb c) (L "abcdefghijklmnopqrstuvwxyz").
Definition is_low (c : ascii) : bool := is_small c || is_digit c.
(* switches for bold text, italic text and so on, and for the three levels of headings *)
Inductive mark := MBold | MItalic | MUnder | MStrike | MSub | MSup | MMono | MH1 | MH2 | MH3.
Definition sign_text (m : mark) : str :=
  L match m with
    | MBold => "'''" | MItalic => "''" | MUnder => "__" | MStrike => "~~" | MSub => ",," | MSup => "^" | MMono => "`"
    | MH1 => "=" | MH2 => "==" | MH3 => "==="
    end.
(* references: to entries, queries and matches by their numbers, to pages by their names, and URLs *)
Inductive ref :=
| Entry (n : str) | EntryWord (n : str) | QueryWord (n : str) | Query (n : str) | MatchM (n : str) | MatchWord (n : str) | MatchNo (n : str)
| Wiki (name : str) | Camel (words : list (ascii * str)) | Url (u : str) | UrlNamed (u label : str).
Definition camel_text (l : list (ascii * str)) : str := flat_map (fun w => fst w :: snd w) l.
Definition ref_text (r : ref) : str :=
  match r with
  | Entry n => L "#" ++ n | EntryWord n => L "entry:" ++ n
  | QueryWord n => L "query:" ++ n | Query n => L "{" ++ n ++ L "}"
  | MatchM n => L "m" ++ n | MatchWord n => L "match:" ++ n | MatchNo n => L "[" ++ n ++ L "]"
  | Wiki name => L "[wiki:" ++ name ++ L "]"
  | Camel l => camel_text l
  | Url u => u
  | UrlNamed u label => L "[" ++ u ++ L " " ++ label ++ L "]"
  end.
Definition number (n : str) : Prop := n <> [] /\ forallb is_digit n = true.
Definition url_text (u : str) : Prop := exists scheme v, u = scheme ++ v /\ In scheme [L "http://"; L "https://"] /\ v <> [] /\ forallb url_char v = true.
Definition good_ref (r : ref) : Prop :=
  match r with
  | Entry n | EntryWord n | QueryWord n | Query n | MatchM n | MatchWord n | MatchNo n => number n
  | Wiki name => name <> [] /\ forallb (fun c => is_small c || is_capital c) name = true
  | Camel l => 2 <= List.length l /\ forall c w, In (c, w) l -> is_capital c = true /\ w <> [] /\ forallb is_low w = true
  | Url u => url_text u
  | UrlNamed u label => url_text u /\ label <> [] /\ ~ In "]"%char label
  end.
(* a page is lines of these *)
Inductive token := Ch (c : ascii) | Mark (m : mark) | Ref (r : ref) | OffMark (m : mark) | OffRef (r : ref).
Definition token_text (t : token) : str :=
  match t with Ch c => [c] | Mark m => sign_text m | Ref r => ref_text r | OffMark m => L "!" ++ sign_text m | OffRef r => L "!" ++ ref_text r end.
Definition line_text (l : list token) : str := flat_map token_text l.

(* ---- what can be told from what is around it ---- *)
Definition head_is (p : ascii -> bool) (s : str) : bool := match s with c :: _ => p c | [] => false end.
Definition signals : list string := ["''"; "__"; "~~"; ",,"; "^"; "`"; "{{{"; "}}}"; "="; "[["; "||"; "[http://"; "[https://"; "[wiki:"; "http://"; "https://"].
Definition number_signs : list string := ["#"; "entry:"; "query:"; "{"; "m"; "match:"; "["].
Definition numbered (p : string) (s : str) : bool := starts (L p) s && head_is is_digit (skipn (List.length (L p)) s).
Fixpoint after_low (s : str) : str := match s with c :: r => if is_low c then after_low r else s | [] => [] end.
Definition word_begins (s : str) : bool := head_is is_capital s && head_is is_low (tl s).
Definition camel_begins (s : str) : bool := word_begins s && word_begins (after_low (tl s)).
(* something other than text begins here *)
Definition begins (s : str) : bool :=
  existsb (fun p => starts (L p) s) signals || existsb (fun p => numbered p s) number_signs || camel_begins s.
Definition follows_ref (r : ref) (s : str) : bool :=
  match r with
  | Entry _ | EntryWord _ | QueryWord _ | MatchM _ | MatchWord _ => negb (head_is is_digit s)
  | Query _ | MatchNo _ | Wiki _ | UrlNamed _ _ => true
  | Camel _ => negb (head_is is_low s) && negb (word_begins s)
  | Url _ => negb (head_is url_char s)
  end.
Definition follows_mark (m : mark) (s : str) : bool :=
  match m with
  | MBold => negb (starts (L "''") s) | MItalic => negb (starts (L "'") s)
  | MH1 | MH2 => negb (starts (L "=") s)
  | _ => true
  end.
Definition stands (t : token) (s : str) : Prop :=
  match t with
  | Ch c => begins (c :: s) = false /\ (c = "!"%char -> begins s = false)
  | Mark m | OffMark m => follows_mark m s = true
  | Ref r | OffRef r => good_ref r /\ follows_ref r s = true
  end.
Fixpoint all_stand (l : list token) : Prop := match l with [] => True | t :: l => stands t (line_text l) /\ all_stand l end.
Definition good_line (l : list token) : Prop :=
  all_stand l /\ head_is (fun c => Ascii.eqb c " " || Ascii.eqb c ">") (line_text l) = false /\ (forall s, line_text l <> s ++ L "::") /\ one_line (line_text l).

(* ---- what is shown ---- *)
Definition nl : str := [newline].
Definition tag_attr (k : string) (v : str) : str := L " " ++ L k ++ L "=" ++ [quote] ++ escape v ++ [quote].
Definition link (class title href inside : str) : str :=
  L "<a" ++ tag_attr "class" class ++ tag_attr "title" title ++ tag_attr "href" href ++ L ">" ++ nl ++ inside ++ L "</a>" ++ nl.
Definition icon (s : str) : str := L "<span" ++ tag_attr "class" (L "icon") ++ L ">" ++ nl ++ s ++ nl ++ L "</span>" ++ nl.
Definition ref_shown (wikipath : str) (r : ref) : str :=
  let t := ref_text r in
  match r with
  | Entry n | EntryWord n => link (L "entry") t (L "/entry/" ++ n) (t ++ nl)
  | QueryWord n | Query n => link (L "query") t (L "/query/" ++ n) (t ++ nl)
  | MatchM n | MatchWord n | MatchNo n => link (L "match") (L "title") (L "/match/" ++ n) (t ++ nl)
  | Wiki name => link (L "wiki-link") name (wikipath ++ name) (name ++ nl)
  | Camel _ => link (L "wiki-link") t (wikipath ++ t) (t ++ nl)
  | Url u => link (L "ext-link") (L "title") (escape u) (icon u)
  | UrlNamed u label => link (L "ext-link") (escape label) (escape u) (icon (escape label))
  end.
Definition mark_name (m : mark) : str :=
  L match m with
    | MBold => "strong" | MItalic => "i" | MUnder | MMono => "span" | MStrike => "del" | MSub => "sub" | MSup => "sup"
    | MH1 => "h1" | MH2 => "h2" | MH3 => "h3"
    end.
Definition mark_open (m : mark) : str :=
  match m with
  | MUnder => L "<span" ++ tag_attr "class" (L "underline") ++ L ">"
  | MMono => L "<span" ++ tag_attr "class" (L "monospace") ++ L ">"
  | _ => L "<" ++ mark_name m ++ L ">" ++ nl
  end.
Definition mark_close (m : mark) : str := L "</" ++ mark_name m ++ L ">" ++ nl.
Definition is_heading (m : mark) : bool := match m with MH1 | MH2 | MH3 => true | _ => false end.
Definition mark_eq (a b : mark) : {a = b} + {a <> b}.
Proof. decide equality. Defined.
(* text that follows each other shares a line *)
Definition settled (pend : option str) : str := match pend with Some t => t ++ nl | None => [] end.
Definition more (pend : option str) (t : str) : option str := Some (match pend with Some u => u | None => [] end ++ t).
(* [o]: what is switched on, the last first.  A switch that is on must be the last one to be turned off; headings are
   switched on only when nothing else is on.  The result: what is written, what is on afterwards, and the text of the line being written *)
Fixpoint line_shown (wikipath : str) (o : list mark) (pend : option str) (l : list token) : option (str * list mark * option str) :=
  match l with
  | [] => Some ([], o, pend)
  | t :: l =>
      let go out o pend := match line_shown wikipath o pend l with Some (s, o, pend) => Some (out ++ s, o, pend) | None => None end in
      match t with
      | Ch c => go [] o (more pend (escape [c]))
      | OffMark m => go [] o (more pend (escape (sign_text m)))
      | OffRef r => go [] o (more pend (escape (ref_text r)))
      | Ref r => go (settled pend ++ ref_shown wikipath r) o None
      | Mark m =>
          match o with
          | m' :: o' => if mark_eq m m' then go (settled pend ++ mark_close m) o' None
                        else if in_dec mark_eq m o then None
                        else if is_heading m then None else go (settled pend ++ mark_open m) (m :: o) None
          | [] => go (settled pend ++ mark_open m) [m] None
          end
      end
  end.
Definition ended (o : list mark) (pend : option str) : str := settled pend ++ flat_map mark_close o ++ L "</div>" ++ nl.
(* an empty line ends a paragraph, and all that is switched on *)
Fixpoint page_shown (wikipath : str) (st : option (list mark * option str)) (ls : list (list token)) : option str :=
  match ls with
  | [] => Some (match st with Some (o, pend) => ended o pend | None => [] end)
  | [] :: ls =>
      match page_shown wikipath None ls with
      | Some s => Some (match st with Some (o, pend) => ended o pend | None => [] end ++ s)
      | None => None
      end
  | l :: ls =>
      let (o, pend) := match st with Some x => x | None => ([], None) end in
      match line_shown wikipath o pend l with
      | Some (out, o, pend) =>
          match page_shown wikipath (Some (o, pend)) ls with
          | Some s => Some (match st with Some _ => [] | None => L "<div>" ++ nl end ++ out ++ s)
          | None => None
          end
      | None => None
      end
  end.

(* ---- words ---- *)
Definition word_or_blank (c : ascii) : bool := is_small c || is_capital c || is_digit c || Ascii.eqb c " ".
Definition words_line (s : str) : Prop := s <> [] /\ forallb word_or_blank s = true /\ head_is (Ascii.eqb " ") s = false.
Definition paragraph (s : str) : str := L "<div>" ++ nl ++ s ++ nl ++ L "</div>" ++ nl.
(* an m before a digit, and two words that are written together with capitals *)
Definition match_inside (s : str) : Prop := exists a d b, s = a ++ "m"%char :: d :: b /\ is_digit d = true.
Definition name_inside (s : str) : Prop :=
  exists a c w d x b, s = a ++ c :: w ++ d :: x :: b /\ is_capital c = true /\ w <> [] /\ forallb is_low w = true /\ is_capital d = true /\ is_low x = true.
