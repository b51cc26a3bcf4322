(* How terms are read *)
From Verif Require Import Py PyFacts Re Rx RxFacts HtmlModel HtmlSpec TreeSpec TocSpec WikiModel WikiSpec WikiMatch WikiLink CmpProofs AnalysisPage ShowSpec ShowRead ShowMatch ListSpec ListMatch QuoteSpec QuoteMatch DefSpec.
Open Scope string_scope.
Open Scope list_scope.
Open Scope nat_scope.

Definition colon_caps : list (string * str) := [("_pattern_comsume_definition_header", L "::")].
Lemma colons_run : forall f, run (regexp line_patterns) Some (mkspot f (L "::") []) = Some (mkspot false [] colon_caps).
Proof. intros []; vm_compute; reflexivity. Qed.
Lemma find_term : forall l n f, stand_before l (L "::") -> one_line (line_text l) -> (f = true -> head_is (fun c => Ascii.eqb c " " || Ascii.eqb c ">") (line_text l) = false) ->
  List.length (line_text l ++ L "::") < n -> finditer n (regexp line_patterns) f (line_text l ++ L "::") = map token_caps l ++ [colon_caps].
Proof.
  induction l as [|t l IH]; intros n f A O Hf Ln.
  - change (line_text [] ++ L "::") with (L "::") in *. destruct n as [|n]; [lia|]. cbn [finditer]. rewrite colons_run. cbn [left caps]. change (Nat.ltb (List.length (@nil ascii)) (List.length (L "::"))) with true. cbn match.
    replace (finditer n (regexp line_patterns) false []) with (@nil (list (string * str))); [reflexivity|]. destruct n as [|m]; [reflexivity|]. cbn [finditer]. match goal with |- _ = match ?r with _ => _ end => replace r with (@None spot) by (vm_compute; reflexivity) end. reflexivity.
  - destruct A as [St A]. pose proof (token_some t _ St) as N. change (line_text (t :: l)) with (token_text t ++ line_text l) in *. rewrite <- app_assoc in *. destruct n as [|n]; [lia|]. cbn [finditer]. set (r := line_text l ++ L "::") in *.
    assert (Lr : 2 <= List.length r) by (unfold r; rewrite app_length; cbn; lia).
    assert (Lt : List.length r < List.length (token_text t ++ r)) by (rewrite app_length; destruct (token_text t); [congruence|cbn; lia]).
    rewrite (token_run f t r St).
    + cbn [left caps map app]. destruct (Nat.ltb_spec (List.length r) (List.length (token_text t ++ r))); [|lia]. f_equal. apply IH; [exact A| |discriminate|unfold r in *; lia].
      intros c I. apply O. apply in_or_app. right. exact I.
    + intros c I. unfold r in I. rewrite app_assoc in I. apply in_app_or in I. destruct I as [I|I]; [exact (O c I)|]. destruct I as [<-|[<-|[]]]; split; discriminate.
    + intros F. specialize (Hf F). destruct (token_text t) as [|c s]; [congruence|]. exact Hf.
    + intros E. apply (f_equal (@List.length ascii)) in E. cbn [List.length L list_ascii_of_string] in E. lia.
Qed.
Lemma term_matches : forall l, d_good (Term l) -> matches (d_written (Term l)) = map token_caps l ++ [colon_caps].
Proof. intros l (A & H & O). unfold matches, find_all. cbn [d_written]. apply find_term; auto. Qed.
