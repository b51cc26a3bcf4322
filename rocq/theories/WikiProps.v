(* Properties C64, C91 to C93, C95 and C97: wiki texts *)
From Verif Require Import Py HtmlModel HtmlSpec TreeModel TreeSpec WikiModel WikiSpec WikiProofs WikiAttrs WikiPara.
From Coq Require Import Permutation.
Open Scope string_scope.
Open Scope list_scope.

(* the surroundings used in the examples *)
Definition ex_urlencode (p : list (string * str)) : str := flat_map (fun kv => L (fst kv) ++ L "=" ++ snd kv) p.
Definition ex_table : table := mktable (L "cube") [(L "odd", [mkcell false [("colspan", L "2")] (L "a")])].
Definition ex_analysis (p : str) : res (list table) := Ok [ex_table].
Definition ex_rst (s : str) : res str := Ok (L "<p>" ++ escape s ++ L "</p>").
Definition ex_html : str -> res str := html design_names (L "/wiki") (L "12:00") ex_urlencode ex_analysis ex_rst.
Definition ex_parse (wiki : str) : res unit := snd (parse design_names (L "/wiki") (L "12:00") ex_urlencode ex_analysis wiki new_doc).
Definition show (r : res str) : string := match r with Ok s => string_of_list_ascii (map (fun c => if Ascii.eqb c (ascii_of_nat 10) then "~"%char else if Ascii.eqb c quote then "'"%char else c) s) | Exc _ => "exception" end.

(* C91 *)
Theorem C91_wiki_balanced : forall design_order wikipath now urlencode analysis rst,
  Permutation design_order design_names -> plain now -> (forall p ts t, analysis p = Ok ts -> In t ts -> table_ok t) -> (forall s o, rst s = Ok o -> balanced o = true) ->
  forall wiki out, html design_order wikipath now urlencode analysis rst wiki = Ok out -> balanced out = true.
Proof. exact wiki_balanced. Qed.
Print Assumptions C91_wiki_balanced.
(* styles that overlap, a heading, a list that is nested, a table of cells, a citation and a block *)
Example C91_case : show (ex_html (lines_text [L "= title ="; L "'''bold ''both'' '''"; L " * item"; L "   1. inner"; L "||a||b||"; L ">> x <y>"; L "{{{"; L "<b>"; L "}}}"]))
  = "<div>~<h1>~ title ~</h1>~<strong>~bold ~<i>~both~</i>~ ~</strong>~<ul>~<li>item~<ul>~<ol>~<li>inner~<table class='wiki'>~<tr>~<td>~a~</td>~<td>~b~</td>~</tr>~</table>~</li>~</ol>~</ul>~</li>~</ul>~<blockquote class='citation'>~<blockquote class='citation'>~<p>~x &lt;y&gt;~</p>~</blockquote>~</blockquote>~</div>~<pre class='wiki'>&lt;b&gt;~</pre>~" /\ match ex_html (lines_text [L "'''bold ''both''' x''"; L "{{{"; L "<b>"; L "}}}"]) with Ok o => balanced o = true | Exc _ => False end.
Proof. split; vm_compute; reflexivity. Qed.
Example C91_surroundings : Permutation design_names design_names /\ plain (L "12:00") /\ (forall p ts t, ex_analysis p = Ok ts -> In t ts -> table_ok t).
Proof.
  split; [apply Permutation_refl|]. split; [intros c I; cbn in I; repeat (destruct I as [<-|I]; [split; discriminate|]); destruct I|].
  intros p ts t E I. injection E as <-. destruct I as [<-|[]]. intros r c [<-|[]] [<-|[]]. split; [intros x [<-|[]]; split; discriminate|].
  intros k v [E|[]]. injection E as <- <-. split; [discriminate|]. apply forallb_forall. reflexivity.
Qed.

Example C91_contents : show (ex_html (lines_text [L "a [[TableOfContent]] b"; L "== sub =="; L "= top ="; L "c"])) = "<div>~a ~</div>~<ol>~<ol>~<li><a href='#fragment0'>~ sub ~</a>~</li>~</ol>~<li><a href='#fragment1'>~ top ~</a>~</li>~</ol>~ b~<div>~<h2 id='fragment0'>~ sub ~</h2>~<h1 id='fragment1'>~ top ~</h1>~c~</div>~".
Proof. vm_compute. reflexivity. Qed.

(* C92: [[Position]] without an argument *)
Theorem C92_parse_refuted : exists design_order wikipath now urlencode analysis wiki, Permutation design_order design_names
  /\ plain now /\ (forall p ts t, analysis p = Ok ts -> In t ts -> table_ok t) /\ (forall p, exists ts, analysis p = Ok ts)
  /\ snd (parse design_order wikipath now urlencode analysis wiki new_doc) = Exc TypeError.
Proof. exact parse_refuted. Qed.
Print Assumptions C92_parse_refuted.

(* C92 *)
Theorem C92_parse_partial : forall design_order wikipath now urlencode analysis,
  Permutation design_order design_names -> plain now -> (forall p ts t, analysis p = Ok ts -> In t ts -> table_ok t) ->
  forall wiki e, snd (parse design_order wikipath now urlencode analysis wiki new_doc) = Exc e ->
  (e = TypeError /\ (within (L "[[Position]]") wiki \/ within (L "[[Analysis]]") wiki))
  \/ (within (L "[[Analysis(") wiki /\ exists p, analysis p = Exc e).
Proof. exact parse_partial. Qed.
Print Assumptions C92_parse_partial.
Example C92_case : ex_parse (L "[[Position(4HPwATDgc/ABMA:cAkAAAAAAAAA)]] [[Analysis(b)]] [[Timestamp]] [[Nothing]] [[") = Ok tt /\ ex_parse (L "[[Analysis]]") = Exc TypeError
  /\ snd (parse design_names [] [] ex_urlencode (fun _ => Exc ValueError) (L "[[Analysis(4HPwATDgc/ABMA:cAkAAAAAAAAA)]]") new_doc) = Exc ValueError
  /\ ex_parse (lines_text [L "{{{"; L "[[Position]]"; L "}}}"]) = Ok tt.
Proof. repeat split; vm_compute; reflexivity. Qed.

(* C93: an unsigned item in a list of signed items *)
Theorem C93_render_refuted : exists design_order wikipath now urlencode analysis rst wiki, Permutation design_order design_names
  /\ plain now /\ (forall p ts t, analysis p = Ok ts -> In t ts -> table_ok t) /\ (forall s, exists o, rst s = Ok o)
  /\ snd (parse design_order wikipath now urlencode analysis wiki new_doc) = Ok tt
  /\ html design_order wikipath now urlencode analysis rst wiki = Exc KeyError.
Proof. exact render_refuted. Qed.
Print Assumptions C93_render_refuted.

(* C93 *)
Theorem C93_render_partial : forall design_order wikipath now urlencode analysis rst,
  Permutation design_order design_names -> plain now -> (forall p ts t, analysis p = Ok ts -> In t ts -> table_ok t) ->
  forall wiki e, (forall line, line_of wiki line -> ~ signed_item line) \/ (forall line, line_of wiki line -> ~ unsigned_item line) ->
  html design_order wikipath now urlencode analysis rst wiki = Exc e ->
  snd (parse design_order wikipath now urlencode analysis wiki new_doc) = Exc e \/ (exists s, rst s = Exc e) \/ (e = AttributeError /\ within (L "[[TableOfContent") wiki).
Proof. exact render_partial. Qed.
Print Assumptions C93_render_partial.
Example C93_case : show (ex_html (lines_text [L " + a"; L "   --- b"])) = "<div>~<ul class='sign'>~<li class='plus'>a~<ul>~<ul class='sign'>~<li class='tripleminus'>b~</li>~</ul>~</ul>~</li>~</ul>~</div>~"
  /\ show (ex_html (lines_text [L " * a"; L " 1. b"])) = "<div>~<ul>~<li>a~</li>~<li>b~</li>~</ul>~</div>~".
Proof. split; vm_compute; reflexivity. Qed.

(* a heading in bold is listed as None *)
Example C93_contents : show (ex_html (lines_text [L "= a'''b''' ="])) = "<div>~<h1>~ a~<strong>~b~</strong>~ ~</h1>~</div>~" /\ ex_html (lines_text [L "[[TableOfContent]]"; L "= a'''b''' ="]) = Exc AttributeError.
Proof. split; vm_compute; reflexivity. Qed.

(* C64: a line of the form #!name is not shown *)
Theorem C64_block_refuted : exists design_order wikipath now urlencode analysis rst block out, Permutation design_order design_names
  /\ plain now /\ (forall p ts t, analysis p = Ok ts -> In t ts -> table_ok t) /\ (forall line, In line block -> one_line line /\ line <> L "}}}")
  /\ html design_order wikipath now urlencode analysis rst (lines_text ([L "{{{"] ++ block ++ [L "}}}"])) = Ok out /\ ~ within (pre_html block) out
  /\ out = L "<div>" ++ nl ++ L "</div>" ++ nl ++ pre_html [L "echo a"].
Proof. exact block_refuted. Qed.
Print Assumptions C64_block_refuted.

(* C64 *)
Theorem C64_block_partial : forall design_order wikipath now urlencode analysis rst,
  Permutation design_order design_names -> plain now -> (forall p ts t, analysis p = Ok ts -> In t ts -> table_ok t) ->
  forall before block after out, (forall line, In line (before ++ block ++ after) -> one_line line) -> block_open false before = false ->
  (forall line, In line block -> line <> L "}}}" /\ ~ directive line) ->
  html design_order wikipath now urlencode analysis rst (lines_text (before ++ [L "{{{"] ++ block ++ [L "}}}"] ++ after)) = Ok out ->
  within (pre_html block) out.
Proof. exact block_partial. Qed.
Print Assumptions C64_block_partial.
Example C64_case : show (ex_html (lines_text ([L " * a"] ++ [L "{{{"] ++ [L "  x < y && '''z'''"; []; L "}}} "; L "#! sh"] ++ [L "}}}"] ++ [L "b"])))
  = "<div>~<ul>~<li>ab~</li>~</ul>~</div>~<pre class='wiki'>  x &lt; y &amp;&amp; '''z'''~~}}} ~#! sh~</pre>~".
Proof. vm_compute. reflexivity. Qed.

(* C97: a quotation mark in the title of a link *)
Theorem C97_attributes_refuted : exists design_order wikipath now urlencode analysis rst out a b v, Permutation design_order design_names
  /\ plain now /\ (forall p, analysis p = Ok []) /\ html design_order wikipath now urlencode analysis rst injection_text = Ok out
  /\ out = a ++ "<"%char :: b /\ exists l, attributes ("<"%char :: b) = Some l /\ In (L "onmouseover", v) l.
Proof. exact attributes_added_refuted. Qed.
Print Assumptions C97_attributes_refuted.

(* C97: every text in which no label of a link has a quotation mark *)
Theorem C97_attributes_partial : forall keys design_order wikipath now urlencode analysis rst, incl wiki_keys keys ->
  Permutation design_order design_names -> plain now -> quiet wikipath -> (forall p, quiet (urlencode p)) ->
  (forall p ts t, analysis p = Ok ts -> In t ts -> table_ok t /\ table_quiet t /\ table_keys keys t) -> (forall s o, rst s = Ok o -> only_attributes keys o) ->
  forall wiki out, ~ quoted_label wiki -> html design_order wikipath now urlencode analysis rst wiki = Ok out -> only_attributes keys out.
Proof. exact attributes_kept. Qed.
Print Assumptions C97_attributes_partial.
Example C97_case : show (ex_html (L "see [http://x?a on <b> click] and [wiki:Page onclick: alert(1)]")) = "<div>~see ~<a class='ext-link' title='on &amp;lt;b&amp;gt; click' href='http://x?a'>~<span class='icon'>~on &lt;b&gt; click~</span>~</a>~ and [wiki:Page onclick: alert(1)]~</div>~".
Proof. vm_compute. reflexivity. Qed.
(* quotation marks do no harm outside of labels *)
Example C97_quotes : let t := L "say ""a"" [http://x?a b] ""[http://y]"" + ""c"" {{d""}} [wiki:E ""f""]" in ~ quoted_label t /\ show (ex_html t)
  = "<div>~say 'a' ~<a class='ext-link' title='b' href='http://x?a'>~<span class='icon'>~b~</span>~</a>~ '~<a class='ext-link' title='http://y' href='http://y'>~<span class='icon'>~http://y~</span>~</a>~' + 'c' {{d'}} [wiki:E 'f']~</div>~".
Proof. split; [apply labels_unquoted; vm_compute; reflexivity|vm_compute; reflexivity]. Qed.
(* the reader does see other attributes and unreadable tags *)
Example C97_reader : ~ only_attributes ["class"] (L "<a b=" ++ [quote; quote] ++ L ">") /\ ~ only_attributes ["class"] (L "a < b") /\ only_attributes ["class"] (L "<p>x</p>").
Proof.
  split; [|split].
  - intro H. destruct (H [] _ eq_refl) as (l & R & K). vm_compute in R. injection R as <-. destruct (K _ _ (or_introl eq_refl)) as (key & [<-|[]] & E). discriminate.
  - intro H. destruct (H (L "a ") _ eq_refl) as (l & R & _). vm_compute in R. discriminate.
  - apply (tidy_app ["class"] (L "<p>") (L "x</p>")); [apply tidy_end; reflexivity|]. apply (tidy_app ["class"] (L "x") (L "</p>")); [apply tidy_none; intros [E|[]]; discriminate|apply tidy_end; reflexivity].
Qed.

(* C95 *)
Theorem C95_paragraphs : forall design_order wikipath now urlencode analysis rst,
  Permutation design_order design_names -> plain now -> (forall p ts t, analysis p = Ok ts -> In t ts -> table_ok t) ->
  forall before after out, (forall line, In line before -> one_line line) -> block_open false before = false ->
  ~ within (L "[[TableOfContent") (lines_text before) -> ~ within (L "[[TableOfContent") after ->
  html design_order wikipath now urlencode analysis rst (lines_text before) = Ok out ->
  html design_order wikipath now urlencode analysis rst (lines_text before ++ [ascii_of_nat 10] ++ after)
  = match html design_order wikipath now urlencode analysis rst after with Ok rest => Ok (out ++ rest) | Exc e => Exc e end.
Proof. exact paragraphs. Qed.
Print Assumptions C95_paragraphs.
(* a list that is still open, a style that is not closed and a citation end at the empty line; without it they go on *)
Example C95_case : show (ex_html (lines_text [L "'''a"; L " * b"; L "> c"] ++ [ascii_of_nat 10] ++ L " * d'''"))
  = "<div>~<strong>~a~</strong>~<ul>~<li>b~</li>~</ul>~<blockquote class='citation'>~<p>~c~</p>~</blockquote>~</div>~<div>~<ul>~<li>d~<strong>~</strong>~</li>~</ul>~</div>~"
  /\ show (ex_html (lines_text [L "'''a"; L " * b"; L "> c"] ++ L " * d'''")) = "<div>~<strong>~a~</strong>~<ul>~<li>b~</li>~<li>d~</li>~</ul>~<blockquote class='citation'>~<p>~c~</p>~</blockquote>~</div>~"
  /\ block_open false [L "'''a"; L " * b"; L "> c"] = false /\ block_open false [L "{{{"; L "a"] = true.
Proof. repeat split; vm_compute; reflexivity. Qed.
