(* Properties C126 and C127: the ampersands in the HTML of a wiki text, and the links made of URLs *)
From Verif Require Import Py Re HtmlModel HtmlSpec TreeModel TreeSpec TocModel TocSpec WikiModel WikiSpec WikiAmp WikiLink.
From Coq Require Import Permutation.
Open Scope string_scope.
Open Scope list_scope.
Open Scope nat_scope.

(* C126: the HTML of a text with a URL that has an ampersand has an ampersand that begins no reference *)
Theorem C126_refuted : exists design_order wikipath now urlencode analysis rst wiki out, Permutation design_order design_names
  /\ plain now /\ references now /\ (forall p, analysis p = Ok []) /\ (forall s o, rst s = Ok o -> references o)
  /\ html design_order wikipath now urlencode analysis rst wiki = Ok out /\ ~ references out.
Proof. exact references_refuted. Qed.
Print Assumptions C126_refuted.
Definition page (s : str) : res str := html design_names (L "/wiki/") (L "today") (fun _ => L "q") (fun _ => Exc IOError) (fun s => Ok s) s.
Definition shown (r : res str) : res string := match r with Ok s => Ok (string_of_list_ascii (map (fun c => if Ascii.eqb c newline then "~"%char else if Ascii.eqb c quote then "'"%char else c) s)) | Exc e => Exc e end.
(* the text of the link is not escaped: read as HTML it shows a copyright sign *)
Example C126_refuted_case : shown (page (L "see http://a.b/?c=d&copy=2 there")) =
  Ok "<div>~see ~<a class='ext-link' title='title' href='http://a.b/?c=d&amp;amp;copy=2'>~<span class='icon'>~http://a.b/?c=d&copy=2~</span>~</a>~ there~</div>~".
Proof. vm_compute. reflexivity. Qed.

(* C126: in the HTML of any other text every ampersand begins one of the references lt, gt and amp *)
Theorem C126_partial : forall design_order wikipath now urlencode analysis rst,
  Permutation design_order design_names -> plain now -> references now ->
  (forall p ts t, analysis p = Ok ts -> In t ts -> table_ok t /\ forall r c, In r (rows t) -> In c (snd r) -> references (ctext c)) -> (forall s o, rst s = Ok o -> references o) ->
  forall wiki out, ~ amp_url wiki -> html design_order wikipath now urlencode analysis rst wiki = Ok out -> references out.
Proof. exact wiki_references. Qed.
Print Assumptions C126_partial.
(* other ampersands are escaped, in links with a name for them, too *)
Example C126_partial_case : shown (page (L "R&D '''<&'''")) = Ok "<div>~R&amp;D ~<strong>~&lt;&amp;~</strong>~</div>~"
  /\ ~ amp_url (L "R&D '''<&'''")
  /\ shown (page (L "[http://a.b/?c&d A&B]")) = Ok "<div>~<a class='ext-link' title='A&amp;amp;B' href='http://a.b/?c&amp;amp;d'>~<span class='icon'>~A&amp;B~</span>~</a>~</div>~".
Proof.
  split; [vm_compute; reflexivity|]. split; [|vm_compute; reflexivity]. intros (sc & u & I & _ & _ & a & b & E).
  assert (In ":"%char (L "R&D '''<&'''")) as N by (rewrite E; apply in_or_app; right; apply in_or_app; left; apply in_or_app; left; destruct I as [<-|[<-|[]]]; cbn; tauto).
  cbn in N. repeat (destruct N as [N|N]; [discriminate N|]). exact N.
Qed.

(* C127: a URL with an ampersand becomes a link to another URL *)
Theorem C127_refuted : exists design_order wikipath now urlencode analysis rst url out, Permutation design_order design_names
  /\ url = L "http://a.b/?c=d&e=f" /\ html design_order wikipath now urlencode analysis rst url = Ok out
  /\ links out (L "http://a.b/?c=d&amp;e=f") /\ forall h, links out h -> h <> url.
Proof. exact url_refuted. Qed.
Print Assumptions C127_refuted.
Example C127_refuted_case : shown (page (L "http://a.b/?c=d&e=f")) =
  Ok "<div>~<a class='ext-link' title='title' href='http://a.b/?c=d&amp;amp;e=f'>~<span class='icon'>~http://a.b/?c=d&e=f~</span>~</a>~</div>~".
Proof. vm_compute. reflexivity. Qed.

(* C127: every text that is a URL gives a page with one link, to the escaped URL, which is that URL exactly if it has no ampersand *)
Theorem C127_partial : forall design_order wikipath now urlencode analysis rst scheme u, In scheme [L "http://"; L "https://"] -> u <> [] -> (forall c, In c u -> url_char c = true) ->
  exists out, html design_order wikipath now urlencode analysis rst (scheme ++ u) = Ok out /\ (forall h, links out h <-> h = escape (scheme ++ u)) /\ (links out (scheme ++ u) <-> ~ In "&"%char u).
Proof. exact url_links. Qed.
Print Assumptions C127_partial.
Example C127_partial_case : shown (page (L "https://a.b/~c#d")) =
  Ok "<div>~<a class='ext-link' title='title' href='https://a.b/~c#d'>~<span class='icon'>~https://a.b/~c#d~</span>~</a>~</div>~".
Proof. vm_compute. reflexivity. Qed.
