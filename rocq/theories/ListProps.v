(* Property C145: pages with lists *)
From Verif Require Import Py HtmlModel HtmlSpec TreeModel TreeSpec TocModel TocSpec WikiModel WikiSpec ShowSpec ListSpec ListPage.
From Coq Require Import Permutation.
Open Scope string_scope.
Open Scope list_scope.
Open Scope nat_scope.

(* C145: an item that is indented by two lies in one list *)
Theorem C145_refuted : exists out before after, html design_names [] [] (fun _ => []) (fun _ => Exc KeyError) (fun s => Ok s) (lines_text [L " * a"; L "   * b"; L "  * c"]) = Ok out
  /\ out = before ++ L "c" ++ after /\ lists_around before = 1.
Proof. exact over_indented. Qed.
Print Assumptions C145_refuted.

(* C145: the page of well indented lists *)
Theorem C145_lists_partial : forall order wikipath now urlencode analysis rst, Permutation order design_names -> forall xs out, Forall good xs -> list_page wikipath None xs = Some out ->
  html order wikipath now urlencode analysis rst (lines_text (map written xs)) = Ok out.
Proof. exact lists_partial. Qed.
Print Assumptions C145_lists_partial.
Definition letters (s : string) : list token := map Ch (L s).
Definition a_page : list line :=
  [Plain (letters "openings"); Item 1 Star (letters "a"); Item 2 (Number "1" true) (letters "b"); Plain (letters "more"); Item 2 (Number "2" true) (letters "c"); Item 3 (Plus 2) (letters "d"); Item 3 (Minus 1) [Mark MBold; Ch "e"; Mark MBold];
   Item 1 Star (letters "f"); Plain []; Item 1 (Roman (L "iv") false) (letters "g")].
Example C145_case : Forall good a_page /\ lines_text (map written a_page) = lines_text [L "openings"; L " * a"; L "  1. b"; L "more"; L "  2. c"; L "   ++ d"; L "   - '''e'''"; L " * f"; []; L " iv g"]
  /\ list_page [] None a_page = Some (lines_text [L "<div>"; L "openings"; L "<ul>"; L "<li>a"; L "<ol>"; L "<li>bmore"; L "</li>"; L "<li>c"; L "<ul class=" ++ [quote] ++ L "sign" ++ [quote] ++ L ">"; L "<li class=" ++ [quote] ++ L "doubleplus" ++ [quote] ++ L ">d"; L "</li>";
       L "<li class=" ++ [quote] ++ L "minus" ++ [quote] ++ L "><strong>"; L "e"; L "</strong>"; L "</li>"; L "</ul>"; L "</li>"; L "</ol>"; L "</li>"; L "<li>f"; L "</li>"; L "</ul>"; L "</div>";
       L "<div>"; L "<ol class=" ++ [quote] ++ L "lowerroman" ++ [quote] ++ L ">"; L "<li>g"; L "</li>"; L "</ol>"; L "</div>"]).
Proof.
  split; [|split; vm_compute; reflexivity].
  assert (O : forall s, forallb (fun c => negb (Ascii.eqb c (ascii_of_nat 10)) && negb (Ascii.eqb c (ascii_of_nat 13))) s = true -> one_line s).
  { intros s H c I. rewrite forallb_forall in H. specialize (H c I). apply andb_prop in H. destruct H as [H1 H2]. apply negb_true_iff, Ascii.eqb_neq in H1. apply negb_true_iff, Ascii.eqb_neq in H2. split; assumption. }
  assert (E : forall t, last t "a"%char <> ":"%char -> forall s, t <> s ++ L "::").
  { intros t H s ->. apply H. change (L "::") with ([":"%char] ++ [":"%char]). rewrite app_assoc. apply last_last. }
  unfold a_page. repeat (first [apply O; reflexivity|apply E; vm_compute; discriminate|match goal with |- good_bullet _ => cbn; solve [tauto|lia|split; [discriminate|tauto]] end|solve [intros c I; exact I]|constructor]); cbn; try tauto; try discriminate; try (intros; discriminate); try reflexivity; try lia; try (intros c [<-|[<-|[]]]; tauto).
Qed.
