(* Property C125: wiki pages are documents made with the editor; pages that begin with a table of contents *)
From Verif Require Import Py Re HtmlModel HtmlSpec TreeModel TreeSpec TocModel TocSpec WikiModel WikiSpec WikiPage.
From Coq Require Import Permutation.
Open Scope string_scope.
Open Scope list_scope.
Open Scope nat_scope.

(* C125 *)
Theorem C125_edited : forall design_order wikipath now urlencode analysis wiki, exists ops, fst (parse design_order wikipath now urlencode analysis wiki new_doc) = edit new_doc ops.
Proof. exact wiki_edited. Qed.
Print Assumptions C125_edited.
Definition no_analysis (p : str) : res (list table) := Exc IOError.
Definition page (ls : list str) : res str := html design_names (L "/wiki/") (L "today") (fun _ => L "q") no_analysis (fun s => Ok s) (lines_text ls).
Definition shown (r : res str) : res string := match r with Ok s => Ok (string_of_list_ascii (map (fun c => if Ascii.eqb c newline then "~"%char else if Ascii.eqb c quote then "'"%char else c) s)) | Exc e => Exc e end.
(* a line with bold text is a paragraph entered, text added, a bold element entered, filled and left *)
Example C125_edited_case : fst (parse design_names (L "/wiki/") (L "today") (fun _ => L "q") no_analysis (lines_text [L "a'''b'''"]) new_doc)
  = edit new_doc [Enter Div []; AddText (L "a"); Enter Bold []; AddText (L "b"); Leave [Bold]].
Proof. vm_compute. reflexivity. Qed.

(* C125: what html returns for a page whose first line is the macro lists the headings of the page in order, and the start tag of each carries the name its link refers to *)
Theorem C125_contents : forall design_order wikipath now urlencode analysis rst,
  Permutation design_order design_names -> plain now -> (forall p ts t, analysis p = Ok ts -> In t ts -> table_ok t) ->
  forall rest out, (forall line, In line rest -> one_line line) ->
  html design_order wikipath now urlencode analysis rst (lines_text (L "[[TableOfContent]]" :: rest)) = Ok out ->
  exists d l es x y, parse design_order wikipath now urlencode analysis (lines_text (L "[[TableOfContent]]" :: rest)) new_doc = (d, Ok tt)
    /\ in_order (nodes d) root l /\ Forall2 (entry (nodes d)) (titles (nodes d) l) es /\ out = x ++ contents_html es ++ y
    /\ forall k i, nth_error (titles (nodes d) l) k = Some i -> exists n u o v al, nth_error (nodes d) i = Some n /\ y = u ++ o ++ v
       /\ open design_order (marked n k) = Ok o /\ attributes o = Some al /\ In (L "id", mark k) al.
Proof. exact contents_page. Qed.
Print Assumptions C125_contents.
(* two headings are listed with links to them *)
Example C125_contents_case : shown (page [L "[[TableOfContent]]"; L "= one ="; L "text"; L "== two =="]) =
  Ok "<div>~</div>~<ol>~<li><a href='#fragment0'>~ one ~</a>~</li>~<ol>~<li><a href='#fragment1'>~ two ~</a>~</li>~</ol>~</ol>~<div>~<h1 id='fragment0'>~ one ~</h1>~text~<h2 id='fragment1'>~ two ~</h2>~</div>~".
Proof. vm_compute. reflexivity. Qed.
(* after headings the table lists them all, too; its links are dead *)
Example C125_late : shown (page [L "= one ="; L "[[TableOfContent]]"]) = Ok "<div>~<h1>~ one ~</h1>~</div>~<ol>~<li><a href='#fragment0'>~ one ~</a>~</li>~</ol>~".
Proof. vm_compute. reflexivity. Qed.
