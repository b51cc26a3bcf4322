(* Properties C152 and C153: pages with preformatted blocks *)
From Verif Require Import Py HtmlModel HtmlSpec TreeModel TreeSpec TocModel TocSpec WikiModel WikiSpec ShowSpec ListSpec BlockSpec BlockPage.
From Coq Require Import Permutation.
Open Scope string_scope.
Open Scope list_scope.
Open Scope nat_scope.

(* C152: what is written after a block is shown before it *)
Theorem C152_refuted : exists order wikipath now urlencode analysis rst before b after out i j, Permutation order design_names /\
  html order wikipath now urlencode analysis rst (lines_text ([before; L "{{{"; b; L "}}}"; after])) = Ok out
  /\ starts after (skipn i out) = true /\ starts (pre_html [b]) (skipn j out) = true /\ i < j /\ (forall k, starts after (skipn k out) = true -> k <= i).
Proof. exact after_block. Qed.
Print Assumptions C152_refuted.
Example C152_shown : html design_names [] [] (fun _ => []) (fun _ => Exc KeyError) (fun s => Ok s) (lines_text [L "a"; L "{{{"; L "x"; L "}}}"; L "b"]) = Ok (lines_text [L "<div>"; L "ab"; L "</div>"] ++ pre_html [L "x"]).
Proof. exact block_last. Qed.

(* C152: the page of text, lists and blocks *)
Theorem C152_blocks_partial : forall order wikipath now urlencode analysis rst, Permutation order design_names -> forall xs out, Forall b_good xs -> block_page wikipath rst None [] xs = Some out ->
  html order wikipath now urlencode analysis rst (lines_text (flat_map b_written xs)) = Ok out.
Proof. exact blocks_partial. Qed.
Print Assumptions C152_blocks_partial.
Definition letters (s : string) : list token := map Ch (L s).
Definition a_reader (s : str) : res str := Ok (L "<p>" ++ s ++ L "</p>").
Definition a_page : list bline :=
  [Read (Plain (letters "see")); Block [L "x < '''y'''"; []; L " 1"]; Read (Item 1 Star (letters "a")); Block [L "#!rst"; L "Title"]; Read (Plain [Mark MBold; Ch "b"]); Read (Plain []); Block [L "#!sgf"; L "z"]; Read (Plain (letters "c"))].
Example C152_case : Forall b_good a_page
  /\ lines_text (flat_map b_written a_page) = lines_text [L "see"; L "{{{"; L "x < '''y'''"; []; L " 1"; L "}}}"; L " * a"; L "{{{"; L "#!rst"; L "Title"; L "}}}"; L "'''b"; []; L "{{{"; L "#!sgf"; L "z"; L "}}}"; L "c"]
  /\ block_page [] a_reader None [] a_page = Some (lines_text [L "<div>"; L "see"; L "<ul>"; L "<li>a"; L "<strong>"; L "b"; L "</strong>"; L "</li>"; L "</ul>"; L "</div>";
       L "<pre class=" ++ [quote] ++ L "wiki" ++ [quote] ++ L ">x &lt; '''y'''"; []; L " 1"; L "</pre>"] ++ L "<p>Title" ++ [ascii_of_nat 10] ++ L "</p>"
       ++ lines_text [L "<div>"; L "c"; L "</div>"; L "<pre class=" ++ [quote] ++ L "wiki" ++ [quote] ++ L ">z"; L "</pre>"]).
Proof.
  split; [|split; vm_compute; reflexivity].
  assert (O : forall s, forallb (fun c => negb (Ascii.eqb c (ascii_of_nat 10)) && negb (Ascii.eqb c (ascii_of_nat 13))) s = true -> one_line s).
  { intros s H c I. rewrite forallb_forall in H. specialize (H c I). apply andb_prop in H. destruct H as [H1 H2]. apply negb_true_iff, Ascii.eqb_neq in H1. apply negb_true_iff, Ascii.eqb_neq in H2. split; assumption. }
  assert (E : forall t, last t "a"%char <> ":"%char -> forall s, t <> s ++ L "::").
  { intros t H s ->. apply H. change (L "::") with ([":"%char] ++ [":"%char]). rewrite app_assoc. apply last_last. }

  unfold a_page. repeat (first [apply O; reflexivity|apply E; vm_compute; discriminate|match goal with |- good_bullet _ => cbn; solve [tauto|lia|split; [discriminate|tauto]] end|solve [intros c I; exact I]|constructor]); cbn; try tauto; try discriminate; try (intros; discriminate); try reflexivity; try lia; try (intros c [<-|[<-|[]]]; tauto).
Qed.

(* C153: the paragraph without its blocks, and then the blocks *)
Theorem C153_paragraph_with_blocks : forall order wikipath now urlencode analysis rst, Permutation order design_names -> forall xs out t, Forall b_good xs -> reads xs <> [] -> ~ In (Plain []) (reads xs) ->
  list_page wikipath None (reads xs) = Some out -> blocks_shown rst (blocks xs) = Ok t ->
  html order wikipath now urlencode analysis rst (lines_text (map written (reads xs))) = Ok out /\ html order wikipath now urlencode analysis rst (lines_text (flat_map b_written xs)) = Ok (out ++ t).
Proof. exact paragraph_blocks. Qed.
Print Assumptions C153_paragraph_with_blocks.
Definition a_paragraph : list bline := [Block [L "first"]; Read (Plain (letters "a")); Block [L "#!rst"; L "second"]; Read (Plain (letters "b"))].
Example C153_case : Forall b_good a_paragraph /\ reads a_paragraph <> [] /\ ~ In (Plain []) (reads a_paragraph) /\ list_page [] None (reads a_paragraph) = Some (lines_text [L "<div>"; L "ab"; L "</div>"])
  /\ blocks_shown a_reader (blocks a_paragraph) = Ok (pre_html [L "first"] ++ L "<p>second" ++ [ascii_of_nat 10] ++ L "</p>").
Proof.
  split; [|split; [discriminate|split; [intros [H|[H|[]]]; discriminate H|split; vm_compute; reflexivity]]].
  assert (O : forall s, forallb (fun c => negb (Ascii.eqb c (ascii_of_nat 10)) && negb (Ascii.eqb c (ascii_of_nat 13))) s = true -> one_line s).
  { intros s H c I. rewrite forallb_forall in H. specialize (H c I). apply andb_prop in H. destruct H as [H1 H2]. apply negb_true_iff, Ascii.eqb_neq in H1. apply negb_true_iff, Ascii.eqb_neq in H2. split; assumption. }
  assert (E : forall t, last t "a"%char <> ":"%char -> forall s, t <> s ++ L "::").
  { intros t H s ->. apply H. change (L "::") with ([":"%char] ++ [":"%char]). rewrite app_assoc. apply last_last. }

  unfold a_paragraph. repeat (first [apply O; reflexivity|apply E; vm_compute; discriminate|match goal with |- good_bullet _ => cbn; solve [tauto|lia|split; [discriminate|tauto]] end|solve [intros c I; exact I]|constructor]); cbn; try tauto; try discriminate; try (intros; discriminate); try reflexivity; try lia; try (intros c [<-|[<-|[]]]; tauto).
Qed.
