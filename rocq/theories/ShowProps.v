(* Properties C133 and C134: what a page of text, marks and references shows *)
From Verif Require Import Py HtmlModel HtmlSpec TreeModel TreeSpec WikiModel WikiSpec ShowSpec ShowPlain.
Open Scope string_scope.
Open Scope list_scope.

(* C133: a page of text, marks and references shows exactly these *)
Theorem C133_page_shown : forall design_order wikipath now urlencode analysis rst ls out, Forall good_line ls -> page_shown wikipath None ls = Some out ->
  html design_order wikipath now urlencode analysis rst (lines_text (map line_text ls)) = Ok out.
Proof. exact page_shown_as_written. Qed.
Print Assumptions C133_page_shown.
Definition chars (s : string) : list token := map Ch (L s).
Definition ex_lines : list (list token) :=
  [[Mark MH1] ++ chars " A ""title"" " ++ [Mark MH1];
   [Mark MBold] ++ chars "see " ++ [Ref (MatchM (L "12"))] ++ chars " & " ++ [Mark MItalic; Ref (Camel [("T"%char, L "est"); ("P"%char, L "age2")]); Mark MItalic; Ref (Entry (L "7")); Mark MBold] ++ chars "!";
   chars "not " ++ [OffRef (Query (L "5")); Ch " "; OffMark MSup; Ch " "; Ref (Query (L "5"))];
   [];
   [Ref (UrlNamed (L "http://a.b/?x") (L "a < b")); Mark MUnder] ++ chars "left on"].
Definition ex_shown : list string :=
  ["<div>"; "<h1>"; " A 'title' "; "</h1>"; "<strong>"; "see "; "<a class='match' title='title' href='/match/12'>"; "m12"; "</a>"; " &amp; "; "<i>";
   "<a class='wiki-link' title='TestPage2' href='/wiki/TestPage2'>"; "TestPage2"; "</a>"; "</i>"; "<a class='entry' title='#7' href='/entry/7'>"; "#7"; "</a>"; "</strong>";
   "!not {5} ^ "; "<a class='query' title='{5}' href='/query/5'>"; "{5}"; "</a>"; "</div>";
   "<div>"; "<a class='ext-link' title='a &amp;lt; b' href='http://a.b/?x'>"; "<span class='icon'>"; "a &lt; b"; "</span>"; "</a>"; "<span class='underline'>left on"; "</span>"; "</div>"].
Definition as_lines (l : list string) : str := flat_map (fun s => map (fun c => if Ascii.eqb c "'" then quote else c) (L s) ++ ShowSpec.nl) l.
Ltac no_end := let s := fresh in let E := fresh in intros s E; apply (f_equal (@rev ascii)) in E; rewrite rev_app_distr in E; vm_compute in E; discriminate E.
Ltac good := split; [cbn [all_stand chars map app L list_ascii_of_string]; repeat match goal with
  | |- _ /\ _ => split
  | |- True => exact I
  | |- stands (Ch _) _ => split; [vm_compute; reflexivity|first [discriminate | intros _; vm_compute; reflexivity]]
  | |- stands (Mark _) _ => vm_compute; reflexivity
  | |- stands (OffMark _) _ => vm_compute; reflexivity
  | |- stands _ _ => split; [|vm_compute; reflexivity]
  | |- good_ref _ => split
  | |- url_text _ => exists (L "http://"), (L "a.b/?x"); split; [reflexivity|]; split; [left; reflexivity|]
  | |- _ <> [] => discriminate
  | |- ~ In _ _ => let J := fresh in intro J; cbn in J; intuition discriminate
  | |- forall c w, In _ _ -> _ => let J := fresh in intros c w J; cbn in J; repeat (destruct J as [J|J]; [injection J as <- <-; repeat split; discriminate|]); destruct J
  | |- _ = true => reflexivity
  | |- _ <= _ => cbn; repeat constructor
  end|split; [vm_compute; reflexivity|split; [no_end|intros c J; vm_compute in J; repeat (destruct J as [<-|J]; [split; discriminate|]); destruct J]]].
Example C133_case : lines_text (map line_text ex_lines) = lines_text
    [L "= A ""title"" ="; L "'''see m12 & ''TestPage2''#7'''!"; L "not !{5} !^ {5}"; []; L "[http://a.b/?x a < b]__left on"]
  /\ Forall good_line ex_lines /\ page_shown (L "/wiki/") None ex_lines = Some (as_lines ex_shown).
Proof.
  split; [reflexivity|]. split; [|vm_compute; reflexivity]. repeat (constructor; [good|]). constructor.
Qed.
(* text that says something else than its characters is no text *)
Example C133_not_text : begins (L "m12") = true /\ begins (L "TestPage") = true /\ begins (L "'' ") = true /\ begins (L "Test") = false /\ begins (L "match") = false /\ begins (L "'") = false.
Proof. repeat split; reflexivity. Qed.

(* C134: the number of a room is taken for that of a match *)
Theorem C134_refuted : exists s out, words_line s /\ forall design_order wikipath now urlencode analysis rst,
  html design_order wikipath now urlencode analysis rst (lines_text [s]) = Ok out /\ out <> paragraph s
  /\ out = paragraph (L "in roo" ++ ShowSpec.nl ++ L "<a" ++ tag_attr "class" (L "match") ++ tag_attr "title" (L "title") ++ tag_attr "href" (L "/match/12") ++ L ">" ++ ShowSpec.nl ++ L "m12" ++ ShowSpec.nl ++ L "</a>").
Proof. exact words_refuted. Qed.
Print Assumptions C134_refuted.
Example C134_case : name_inside (L "ask McGuire") /\ words_line (L "ask McGuire").
Proof. split; [exists (L "ask "), "M"%char, (L "c"), "G"%char, "u"%char, (L "ire"); repeat split; discriminate|repeat split; discriminate]. Qed.

(* for single lines of letters, digits and blanks exactly these two things are in the way *)
Theorem C134_words_partial : forall design_order wikipath now urlencode analysis rst s, words_line s ->
  (html design_order wikipath now urlencode analysis rst (lines_text [s]) = Ok (paragraph s) <-> ~ match_inside s /\ ~ name_inside s).
Proof. exact words_iff. Qed.
Print Assumptions C134_words_partial.
Example C134_words_case : words_line (L "The 2 men of Room 12") /\ ~ match_inside (L "The 2 men of Room 12") /\ ~ name_inside (L "The 2 men of Room 12").
Proof.
  split; [repeat split; discriminate|]. split.
  - intros (a & d & b & E & D). repeat (destruct a as [|? a]; [cbn in E; try discriminate E; injection E as <- <-; discriminate D|cbn [app L list_ascii_of_string] in E; injection E as _ E]); destruct a; discriminate E.
  - intros (a & c & w & d & x & b & E & C & N & F & D & X).
    repeat (destruct a as [|? a]; [cbn [app L list_ascii_of_string] in E; injection E as <- E; try discriminate C;
      repeat (destruct w as [|? w]; [first [congruence | cbn [app] in E; injection E as <- E; discriminate D]|cbn [app] in E; injection E as <- E; try (cbn in F; discriminate F)]) |cbn [app L list_ascii_of_string] in E; injection E as _ E]).
    destruct a; discriminate E.
Qed.

(* several lines: they are shown without anything between them *)
Theorem C134_lines_partial : forall design_order wikipath now urlencode analysis rst s ls, (forall l, In l (s :: ls) -> words_line l /\ ~ match_inside l /\ ~ name_inside l) ->
  html design_order wikipath now urlencode analysis rst (lines_text (s :: ls)) = Ok (paragraph (List.concat (s :: ls))).
Proof. exact lines_are_joined. Qed.
Print Assumptions C134_lines_partial.
(* the end of the first line is shown as nothing, so two words become one *)
Example C134_lines_case : (forall l, In l [L "foo"; L "bar"] -> words_line l /\ ~ match_inside l /\ ~ name_inside l) /\ paragraph (List.concat [L "foo"; L "bar"]) = as_lines ["<div>"; "foobar"; "</div>"].
Proof.
  split; [|vm_compute; reflexivity]. intros l [<-|[<-|[]]]; (split; [repeat split; discriminate|]); split;
    try (intros (a & d & b & E & D); do 4 (destruct a as [|? a]; [discriminate E|cbn [app L list_ascii_of_string] in E; try discriminate E; injection E as _ E]); discriminate E);
    intros (a & c & w & d & x & b & E & C & _); do 4 (destruct a as [|? a]; [cbn [app L list_ascii_of_string] in E; first [discriminate E | injection E as <- E; discriminate C]|cbn [app L list_ascii_of_string] in E; try discriminate E; injection E as _ E]); discriminate E.
Qed.
