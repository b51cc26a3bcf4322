(* What is said about wiki texts *)
From Verif Require Import Py HtmlModel HtmlSpec TreeModel TreeSpec WikiModel.
Open Scope string_scope.
Open Scope list_scope.
Open Scope nat_scope.

(* the styles of lists; Python may list them in any order *)
Definition design_names : list string := ["star"; "sign"; "ordered_numeric"; "ordered_alpha"; "ordered_roman"].
(* one text within another *)
Definition within (u w : str) : Prop := exists a b, w = a ++ u ++ b.
(* a text as its lines *)
Definition one_line (s : str) : Prop := forall c, In c s -> c <> ascii_of_nat 10 /\ c <> ascii_of_nat 13.
Definition lines_text (ls : list str) : str := flat_map (fun l => l ++ [ascii_of_nat 10]) ls.
(* list items: blanks, a mark and a blank *)
Definition sign_marks : list str := [L "+"; L "++"; L "+++"; L "-"; L "--"; L "---"].
Definition item_with (is_mark : str -> Prop) (line : str) : Prop :=
  exists n m rest, line = repeat " "%char (S n) ++ m ++ " "%char :: rest /\ is_mark m.
Definition signed_item : str -> Prop := item_with (fun m => In m sign_marks).
(* *, a digit or a letter with or without a dot, or a roman numeral: the marks without a sign *)
Definition unsigned_item : str -> Prop :=
  item_with (fun m => m <> [] /\ forall c, In c m -> c <> " "%char /\ c <> "+"%char /\ c <> "-"%char).
(* a preformatted block is open at the end of these lines *)
Fixpoint block_open (inside : bool) (ls : list str) : bool :=
  match ls with
  | [] => inside
  | l :: ls => block_open (if inside then negb (str_eqb l (L "}}}")) else str_eqb l (L "{{{")) ls
  end.
(* the tables shown by the Analysis macro, *)
Definition table_ok (t : table) : Prop :=
  forall r c, In r (rows t) -> In c (snd r) -> plain (ctext c) /\ forall k v, In (k, v) (cattrs c) -> good_key k.
(* and those without quotation marks *)
Definition quiet (s : str) : Prop := ~ In quote s.
Definition table_quiet (t : table) : Prop :=
  quiet (tclass t) /\ forall r, In r (rows t) -> quiet (fst r) /\ forall c k v, In c (snd r) -> In (k, v) (cattrs c) -> quiet v.
(* a line of a text *)
Definition line_end (c : ascii) : Prop := c = ascii_of_nat 10 \/ c = ascii_of_nat 13.
Definition line_of (text line : str) : Prop :=
  one_line line /\ exists a b, text = a ++ line ++ b /\ (a = [] \/ exists a' c, a = a' ++ [c] /\ line_end c) /\ (b = [] \/ exists c b', b = c :: b' /\ line_end c).
(* #!name *)
Definition word_char (c : ascii) : bool := key_char c && negb (Ascii.eqb c "-").
Definition directive (line : str) : Prop := exists name, line = L "#!" ++ name /\ name <> [] /\ forall c, In c name -> word_char c = true.
(* what a preformatted block looks like *)
Definition pre_html (block : list str) : str :=
  L "<pre class=" ++ [quote] ++ L "wiki" ++ [quote] ++ L ">" ++ escape (lines_text block) ++ L "</pre>" ++ [ascii_of_nat 10].
(* the attributes of wiki elements, and of the tables *)
Definition wiki_keys : list string := ["class"; "title"; "href"; "src"; "id"].
Definition table_keys (keys : list string) (t : table) : Prop := forall r c k v, In r (rows t) -> In c (snd r) -> In (k, v) (cattrs c) -> In k keys.
(* every tag can be read, and has no other attributes *)
Definition only_attributes (keys : list string) (html : str) : Prop :=
  forall a b, html = a ++ "<"%char :: b -> exists l, attributes ("<"%char :: b) = Some l /\ forall k v, In (k, v) l -> exists key, In key keys /\ k = L key.
(* every ampersand begins one of the references that escape makes *)
Definition references (s : str) : Prop :=
  forall a b, s = a ++ "&"%char :: b -> exists t r, In t [L "lt;"; L "gt;"; L "amp;"] /\ b = t ++ r.
(* a URL of the text up to an ampersand *)
Definition url_char (c : ascii) : bool :=
  word_char c || existsb (Ascii.eqb c) ["~"; "#"; "="; "?"; "."; "/"; "-"; "&"; "%"]%char.
Definition amp_url (text : str) : Prop :=
  exists scheme u, In scheme [L "http://"; L "https://"] /\ (forall c, In c u -> url_char c = true) /\ In "&"%char u /\ within (scheme ++ u) text.
(* a link of the text with a quotation mark in its label *)
Definition quoted_label (text : str) : Prop :=
  exists scheme u label, In scheme [L "http://"; L "https://"] /\ (forall c, In c u -> url_char c = true) /\ ~ In "]"%char label /\ one_line label /\ In quote label
  /\ within (L "[" ++ scheme ++ u ++ L " " ++ label ++ L "]") text.
(* the page has a link to there *)
Definition links (html href : str) : Prop :=
  exists a b l, html = a ++ L "<a " ++ b /\ attributes (L "<a " ++ b) = Some l /\ In (L "href", href) l.
