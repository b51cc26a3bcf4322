(* Properties C141-C144: the fuzzer *)
From Verif Require Import Py HtmlModel HtmlSpec TreeModel TreeSpec TocModel TocSpec WikiModel WikiSpec WellSpec FuzzModel FuzzSpec WikiAttrs FuzzProofs.
From Coq Require Import Permutation.
Open Scope string_scope.
Open Scope list_scope.
Open Scope Z_scope.

(* C141: the texts of genes of a length are the texts of so many words *)
Theorem C141_gene_texts : forall k n t, 0 < count k -> 0 <= n ->
  (spelt k (Z.to_nat n) t <-> exists draw g, draws k draw /\ new_gene k draw (AInt n) = Ok g /\ get_text g = Ok t).
Proof. exact gene_texts. Qed.
Print Assumptions C141_gene_texts.
Example C141_case : spelt wGene 3 (L "http:/X") /\ get_text (mkgene wGene [47; 23; 25] None) = Ok (L "http:/X") /\ count wGene = 55
  /\ Forall (spelt wGene 1) [L "http:"; L "https:"; L "query:"; L "entry:"; L "match:"; L "wiki:"; L "||"; L "CamelWord"].
Proof.
  split; [|split; [vm_compute; reflexivity|split; [vm_compute; reflexivity|]]].
  2: { repeat constructor; match goal with |- spelt _ _ ?w => rewrite <- (app_nil_r w) end; apply spelt_more; try constructor; cbn; tauto. }
  apply (spelt_more wGene (L "http:") 2 (L "/X")); [cbn; tauto|]. apply (spelt_more wGene (L "/") 1 (L "X")); [cbn; tauto|]. apply (spelt_more wGene (L "X") 0 []); [cbn; tauto|constructor].
Qed.

(* C141: format gives a verdict for every formatter: true exactly if it parses and makes HTML *)
Theorem C141_format_verdict : forall St (fparse : str -> res St) fmake k draw n g, draws k draw -> new_gene k draw (AInt n) = Ok g ->
  exists t g' v, get_text g = Ok t /\ format fparse fmake g = (g', Ok v)
  /\ gklass g' = gklass g /\ code g' = code g /\ get_text g' = Ok t
  /\ ((v = True_ /\ exists st h, fparse t = Ok st /\ fmake st = Ok h /\ ghtml g' = h)
      \/ (exists e, v = FormatError e /\ ghtml g' = None /\ (fparse t = Exc e \/ exists st, fparse t = Ok st /\ fmake st = Exc e))).
Proof. exact format_verdict. Qed.
Print Assumptions C141_format_verdict.
Example C141_format_case : let g := mkgene Gene [0; 1; 2; 3] None in
  snd (format (fun t => if str_eqb t (L "gtac") then Exc ValueError else Ok t) (fun t => Ok (Some t)) g) = Ok (FormatError ValueError)
  /\ snd (format (fun t => Ok t) (fun t => Exc KeyError : res (option str)) g) = Ok (FormatError KeyError)
  /\ format (fun t => Ok t) (fun t => Ok (Some t)) g = (mkgene Gene [0; 1; 2; 3] (Some (L "gtac")), Ok True_).
Proof. repeat split; vm_compute; reflexivity. Qed.

(* C141: verify gives a verdict exactly if there is HTML that is not empty *)
Theorem C141_verify_verdict : forall validate g, match verify validate g with
  | Ok v => has_html g /\ ((v = True_ /\ exists h, ghtml g = Some h /\ validate h = Ok tt) \/ exists e h, v = ParseError e /\ ghtml g = Some h /\ validate h = Exc e)
  | Exc e => e = AssertionError /\ ~ has_html g end.
Proof. exact verify_verdict. Qed.
Print Assumptions C141_verify_verdict.
Example C141_verify_case : verify (fun _ => Exc ValueError) (mkgene Gene [] (Some (L "<b>"))) = Ok (ParseError ValueError) /\ verify (fun _ => Ok tt) (mkgene Gene [] (Some (L "b"))) = Ok True_
  /\ verify (fun _ => Ok tt) (mkgene Gene [] (Some [])) = Exc AssertionError.
Proof. repeat split. Qed.

(* C142: the gene of a list with a signed and an unsigned item fails *)
Theorem C142_mixed_refuted : exists draw g, draws wGene draw /\ new_gene wGene draw (AInt 9) = Ok g /\ get_text g = Ok (List.concat mixed)
  /\ wiki_child g = (false, Exits 1) /\ says_timed_out (wiki_parse design_names [] [] (fun _ => []) (fun _ => Ok [])) (wiki_make design_names (fun _ => Ok [])) (fun _ => Ok tt) true g = true.
Proof. exact mixed_fails. Qed.
Print Assumptions C142_mixed_refuted.

(* C142: the gene of an empty line raises *)
Theorem C142_blank_refuted : exists draw g, draws wGene draw /\ new_gene wGene draw (AInt 1) = Ok g /\ get_text g = Ok [ascii_of_nat 10] /\ wiki_child g = (false, Raises AssertionError).
Proof. exact blank_fails. Qed.
Print Assumptions C142_blank_refuted.

(* C142: a gene of the wiki is formatted, or it mixes signed and unsigned items and the error is a KeyError *)
Theorem C142_format_partial : forall design_order wikipath now urlencode analysis rst,
  Permutation design_order design_names -> plain now -> (forall p ts t, analysis p = Ok ts -> In t ts -> table_ok t) -> (forall s, exists o, rst s = Ok o) ->
  forall draw n g, draws wGene draw -> new_gene wGene draw (AInt n) = Ok g ->
  exists t g' v, get_text g = Ok t /\ format (wiki_parse design_order wikipath now urlencode analysis) (wiki_make design_order rst) g = (g', Ok v)
  /\ ((v = True_ /\ exists out, html design_order wikipath now urlencode analysis rst t = Ok out /\ ghtml g' = Some out)
      \/ (v = FormatError KeyError /\ ghtml g' = None
          /\ ~ (forall line, line_of t line -> ~ signed_item line) /\ ~ (forall line, line_of t line -> ~ unsigned_item line))).
Proof. exact wgene_formatted. Qed.
Print Assumptions C142_format_partial.
Example C142_case : exists g, new_gene wGene (spell wGene [L "="; L " "; L "CamelWord"; L " "; L "="]) (AInt 5) = Ok g /\ get_text g = Ok (L "= CamelWord =") /\ wiki_child g = (true, Exits 0)
  /\ draws wGene (spell wGene [L "="; L " "; L "CamelWord"; L " "; L "="]).
Proof.
  eexists. split; [reflexivity|]. split; [vm_compute; reflexivity|]. split; [vm_compute; reflexivity|].
  apply spell_draws. intros w I. cbn in I. repeat (destruct I as [<-|I]; [vm_compute; reflexivity|]). destruct I.
Qed.

(* C142: without quotation marks in labels of links, ampersands in URLs and mixed lists a gene passes, unless its page is empty *)
Theorem C142_passes_partial : forall design_order wikipath now urlencode analysis rst validate,
  Permutation design_order design_names -> legal_text now -> plain now -> references now -> legal_text wikipath -> quiet wikipath -> (forall p, legal_text (urlencode p) /\ quiet (urlencode p)) ->
  (forall p ts t, analysis p = Ok ts -> In t ts -> table_fit t) -> (forall s, exists o, rst s = Ok o /\ (legal_text s -> well_formed o)) ->
  (forall s, well_formed s -> validate s = Ok tt) ->
  forall draw n g t, draws wGene draw -> new_gene wGene draw (AInt n) = Ok g -> get_text g = Ok t ->
  ~ quoted_label t -> ~ amp_url t -> (forall line, line_of t line -> ~ signed_item line) \/ (forall line, line_of t line -> ~ unsigned_item line) ->
  exists out, html design_order wikipath now urlencode analysis rst t = Ok out
  /\ (out <> [] -> child (wiki_parse design_order wikipath now urlencode analysis) (wiki_make design_order rst) validate g = (true, Exits 0))
  /\ (out = [] -> child (wiki_parse design_order wikipath now urlencode analysis) (wiki_make design_order rst) validate g = (false, Raises AssertionError)).
Proof. exact wgene_passes. Qed.
Print Assumptions C142_passes_partial.
Example C142_passes_case : exists g out, new_gene wGene (spell wGene [L "="; L " "; L "CamelWord"; L " "; L "="]) (AInt 5) = Ok g
  /\ html design_names [] [] (fun _ => []) (fun _ => Ok []) (fun _ => Ok []) (L "= CamelWord =") = Ok out /\ out <> [] /\ wiki_child g = (true, Exits 0).
Proof.
  eexists. assert (N : forall c, In c (L "+-&") -> ~ In c (L "= CamelWord =")).
  { intros c Ic J. cbn in Ic. repeat (destruct Ic as [<-|Ic]; [cbn in J; repeat (destruct J as [J|J]; [discriminate J|]); exact J|]). destruct Ic. }
  edestruct (C142_passes_partial design_names [] [] (fun _ => []) (fun _ => Ok []) (fun _ => Ok []) (fun _ => Ok tt)) with (draw := spell wGene [L "="; L " "; L "CamelWord"; L " "; L "="]) (n := 5) (t := L "= CamelWord =") as (out & O & P & _).
  - apply Permutation_refl.
  - intros c [].
  - intros c [].
  - intros a b E. destruct a; discriminate E.
  - intros c [].
  - intros [].
  - intros p. split; [intros c []|intros []].
  - intros p ts t E I. injection E as <-. destruct I.
  - intro s. exists []. split; [reflexivity|]. intros _. constructor.
  - reflexivity.
  - apply spell_draws. intros w I. cbn in I. repeat (destruct I as [<-|I]; [vm_compute; reflexivity|]). destruct I.
  - reflexivity.
  - vm_compute. reflexivity.
  - apply labels_unquoted. vm_compute. reflexivity.
  - intros (sc & u & _ & _ & J & a & b & E). apply (N "&"%char); [cbn; tauto|]. rewrite E. apply in_or_app. right. apply in_or_app. left. apply in_or_app. right. exact J.
  - left. intros line (_ & a & b & E & _) (n & m & rest & -> & I).
    assert (J : exists c, In c m /\ In c (L "+-&")) by (cbn in I; repeat (destruct I as [<-|I]; [eexists; split; [left; reflexivity|cbn; tauto]|]); destruct I).
    destruct J as (c & J1 & J2). apply (N c J2). rewrite E. apply in_or_app. right. apply in_or_app. left. apply in_or_app. right. apply in_or_app. left. exact J1.
  - exists out. split; [reflexivity|]. split; [exact O|]. assert (NE : out <> []) by (intro Z; rewrite Z in O; vm_compute in O; discriminate O). split; [exact NE|]. exact (P NE).
Qed.

(* C143: a trial that fails at once is said to be timed out *)
Theorem C143_timed_out_refuted : exists draw g, draws wGene draw /\ new_gene wGene draw (AInt 9) = Ok g
  /\ says_timed_out (wiki_parse design_names [] [] (fun _ => []) (fun _ => Ok [])) (wiki_make design_names (fun _ => Ok [])) (fun _ => Ok tt) true g = true.
Proof. exact failed_timed_out. Qed.
Print Assumptions C143_timed_out_refuted.

(* C143: nothing is said exactly of the trials that pass in time *)
Theorem C143_timed_out_partial : forall St (fparse : str -> res St) fmake validate quick g,
  says_timed_out fparse fmake validate quick g = false <-> child fparse fmake validate g = (true, Exits 0) /\ quick = true.
Proof. exact timed_out_exact. Qed.
Print Assumptions C143_timed_out_partial.
Example C143_case : says_timed_out (fun t => Ok t) (fun t => Ok (Some t)) (fun _ => Ok tt) true (mkgene Gene [0] None) = false
  /\ says_timed_out (fun t => Ok t) (fun t => Ok (Some t)) (fun _ => Exc ValueError) true (mkgene Gene [0] None) = true.
Proof. split; vm_compute; reflexivity. Qed.

(* C144: no shorter gene is given *)
Theorem C144_subset_refuted : exists draw g, draws Gene draw /\ new_gene Gene draw (AInt 2) = Ok g
  /\ (forall g', ~ In (Ok g') (iter_subset draw g)) /\ (forall g', ~ In (Ok g') (shorter_fails g)).
Proof. exact subset_refuted. Qed.
Print Assumptions C144_subset_refuted.

(* C144: a gene of any length but 0 raises TypeError instead *)
Theorem C144_subset_partial : forall draw g, (code g = [] -> iter_subset draw g = []) /\ (code g <> [] -> iter_subset draw g = [Exc TypeError]) /\ shorter_fails g = [Exc NameError].
Proof. exact subset_raises. Qed.
Print Assumptions C144_subset_partial.
Example C144_case : iter_subset (fun _ => 0) (mkgene Gene [0; 1] None) = [Exc TypeError] /\ iter_subset (fun _ => 0) (mkgene Gene [] None) = [].
Proof. split; reflexivity. Qed.
