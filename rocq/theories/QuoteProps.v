(* Properties C146 and C147: pages with citations and quotes *)
From Verif Require Import Py HtmlModel HtmlSpec TreeModel TreeSpec TocModel TocSpec WikiModel WikiSpec ShowSpec ListSpec QuoteSpec QuotePage.
Open Scope string_scope.
Open Scope list_scope.
Open Scope nat_scope.

(* C146: a line that is not cited lies in a citation *)
Theorem C146_refuted : exists out before after, html design_names [] [] (fun _ => []) (fun _ => Exc KeyError) (fun s => Ok s) (lines_text [L ">> a"; L "b"]) = Ok out
  /\ out = before ++ L "b" ++ after /\ citations_around before = 1.
Proof. exact still_cited. Qed.
Print Assumptions C146_refuted.

(* C146: the page of cited and indented lines *)
Theorem C146_citations_partial : forall order wikipath now urlencode analysis rst xs out, Forall q_good xs -> quote_page wikipath None xs = Some out ->
  html order wikipath now urlencode analysis rst (lines_text (map q_written xs)) = Ok out
  /\ (forall n a, 1 <= n -> citations (around (cited n a)) = n) /\ (forall a, citations (around (said a)) = citations (around a) - 1).
Proof. exact quotes_partial. Qed.
Print Assumptions C146_citations_partial.
Definition letters (s : string) : list token := map Ch (L s).
Definition cited_page : list qline :=
  [Cited 2 (letters "original text"); Cited 1 (letters "reply text"); Cited 3 [Mark MBold; Ch "e"; Mark MBold]; Cited 2 (letters "two"); Said (letters "My reply"); Said (letters "more"); Said []; Cited 1 (letters "a"); Indented 2 (letters "b"); Said (letters "c")].
Definition open_citation : str := L "<blockquote class=" ++ [quote] ++ L "citation" ++ [quote] ++ L ">".
Example C146_case : Forall q_good cited_page /\ lines_text (map q_written cited_page) = lines_text [L ">> original text"; L "> reply text"; L ">>> '''e'''"; L ">> two"; L "My reply"; L "more"; []; L "> a"; L "  b"; L "c"]
  /\ quote_page [] None cited_page = Some (lines_text [L "<div>"; open_citation; open_citation; L "<p>"; L "original text"; L "</p>"; L "</blockquote>"; L "<p>"; L "reply text"; open_citation; open_citation; L "<strong>"; L "e"; L "</strong>"; L "</blockquote>"; L "two";
       L "</blockquote>"; L "My reply"; L "</p>"; L "</blockquote>"; L "more"; L "</div>"; L "<div>"; open_citation; L "<p>"; L "a"; L "</p>"; L "</blockquote>"; L "<blockquote>"; L "<p>"; L "b"; L "</p>"; L "</blockquote>"; L "c"; L "</div>"]).
Proof.
  split; [|split; vm_compute; reflexivity].
  assert (O : forall s, forallb (fun c => negb (Ascii.eqb c (ascii_of_nat 10)) && negb (Ascii.eqb c (ascii_of_nat 13))) s = true -> one_line s).
  { intros s H c I. rewrite forallb_forall in H. specialize (H c I). apply andb_prop in H. destruct H as [H1 H2]. apply negb_true_iff, Ascii.eqb_neq in H1. apply negb_true_iff, Ascii.eqb_neq in H2. split; assumption. }
  assert (E : forall t, last t "a"%char <> ":"%char -> forall s, t <> s ++ L "::").
  { intros t H s ->. apply H. change (L "::") with ([":"%char] ++ [":"%char]). rewrite app_assoc. apply last_last. }
  assert (I : forall s, forallb (fun c => negb (Ascii.eqb c " ")) s = true -> no_item s).
  { intros s H b r _ ->. rewrite forallb_app in H. apply andb_prop in H. destruct H as [_ H]. discriminate H. }
  unfold cited_page. repeat (first [apply O; reflexivity|apply E; vm_compute; discriminate|apply I; reflexivity|constructor]); cbn; try tauto; try discriminate; try (intros; discriminate); try reflexivity; try lia.
Qed.

(* C147: the quote of the lines and the line after it *)
Theorem C147_quotes : forall order wikipath now urlencode analysis rst xs l out o pend out2 o2 pend2, xs <> [] -> Forall (fun x => q_good (Indented (fst x) (snd x))) xs -> forallb (fun x => no_headings (snd x)) xs = true -> l <> [] -> good_line l ->
  line_shown wikipath [] None (flat_map snd xs) = Some (out, o, pend) -> line_shown wikipath [] None l = Some (out2, o2, pend2) ->
  html order wikipath now urlencode analysis rst (lines_text (map (fun x => repeat " "%char (fst x) ++ line_text (snd x)) xs ++ [line_text l]))
  = Ok (L "<div>" ++ ShowSpec.nl ++ (L "<blockquote>" ++ ShowSpec.nl ++ L "<p>" ++ ShowSpec.nl) ++ out ++ settled pend ++ flat_map mark_close o ++ (L "</p>" ++ ShowSpec.nl ++ L "</blockquote>" ++ ShowSpec.nl) ++ out2 ++ settled pend2 ++ flat_map mark_close o2 ++ L "</div>" ++ ShowSpec.nl).
Proof. exact quoted_lines. Qed.
Print Assumptions C147_quotes.
Definition quoted_page : list (nat * list token) := [(2, letters "This text is a quote"); (3, [Mark MItalic] ++ letters "from")].
Example C147_case : quoted_page <> [] /\ Forall (fun x => q_good (Indented (fst x) (snd x))) quoted_page /\ forallb (fun x => no_headings (snd x)) quoted_page = true /\ letters "after it" <> [] /\ good_line (letters "after it")
  /\ (exists s, line_shown [] [] None (flat_map snd quoted_page) = Some (s, [MItalic], Some (L "from"))) /\ line_shown [] [] None (letters "after it") = Some ([], [], Some (L "after it")).
Proof.
  assert (O : forall s, forallb (fun c => negb (Ascii.eqb c (ascii_of_nat 10)) && negb (Ascii.eqb c (ascii_of_nat 13))) s = true -> one_line s).
  { intros s H c I. rewrite forallb_forall in H. specialize (H c I). apply andb_prop in H. destruct H as [H1 H2]. apply negb_true_iff, Ascii.eqb_neq in H1. apply negb_true_iff, Ascii.eqb_neq in H2. split; assumption. }
  assert (E : forall t, last t "a"%char <> ":"%char -> forall s, t <> s ++ L "::").
  { intros t H s ->. apply H. change (L "::") with ([":"%char] ++ [":"%char]). rewrite app_assoc. apply last_last. }
  assert (I1 : forall s, forallb (fun c => negb (Ascii.eqb c " ")) s = true -> no_item s).
  { intros s H b r _ ->. rewrite forallb_app in H. apply andb_prop in H. destruct H as [_ H]. discriminate H. }
  assert (I2 : no_item (L "This text is a quote")).
  { intros b r G X. destruct b as [|n|n|c dot|c dot|s dot]; cbn [bullet_text] in X.
    - discriminate X.
    - destruct n; [cbn in G; lia|discriminate X].
    - destruct n; [cbn in G; lia|discriminate X].
    - destruct dot; discriminate X.
    - destruct dot; discriminate X.
    - destruct G as [Gn Ga]. destruct s as [|c s]; [congruence|]. injection X as Ec _. specialize (Ga c (or_introl eq_refl)). rewrite <- Ec in Ga. destruct Ga as [Ga|[Ga|[]]]; discriminate Ga. }
  split; [discriminate|]. split.
  { repeat (first [exact I2|apply O; reflexivity|apply E; vm_compute; discriminate|apply I1; reflexivity|constructor]); cbn; try tauto; try discriminate; try (intros; discriminate); try reflexivity; try lia. }
  split; [reflexivity|]. split; [discriminate|]. split.
  { repeat (first [apply O; reflexivity|apply E; vm_compute; discriminate|constructor]); cbn; try tauto; try discriminate; try (intros; discriminate); try reflexivity; try lia. }
  split; [eexists; vm_compute; reflexivity|vm_compute; reflexivity].
Qed.
