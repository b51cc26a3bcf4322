(* Properties C148 and C149: pages with tables *)
From Verif Require Import Py HtmlModel HtmlSpec TreeModel TreeSpec TocModel TocSpec WikiModel WikiSpec ShowSpec ListSpec TableSpec TablePage.
Open Scope string_scope.
Open Scope list_scope.
Open Scope nat_scope.

(* C148: a line after a table is in the table, but not in a cell *)
Theorem C148_refuted : exists out before after, html design_names [] [] (fun _ => []) (fun _ => Exc KeyError) (fun s => Ok s) (lines_text [L "||a||"; L "b"]) = Ok out
  /\ out = before ++ L "b" ++ after /\ tables_around before = 1 /\ occurrences (L "<td>") before = occurrences (L "</td>") before.
Proof. exact still_in_table. Qed.
Print Assumptions C148_refuted.

(* C148: the page of lines with bars *)
Theorem C148_tables_partial : forall order wikipath now urlencode analysis rst rs out, Forall row_good rs -> table_page wikipath None rs = Some out ->
  html order wikipath now urlencode analysis rst (lines_text (map row_text rs)) = Ok out.
Proof. exact tables_partial. Qed.
Print Assumptions C148_tables_partial.
Definition letters (s : string) : list piece := map (fun c => Tok (Ch c)) (L s).
Definition mixed_page : list trow :=
  [mkrow (letters "openings") None; mkrow ([Bar] ++ letters "a" ++ [Bar; Tok (Mark MBold)] ++ letters "b") (Some 2); mkrow ([Bar] ++ letters "c") None; mkrow ([Tok (Ref (Entry (L "7"))); Bar; OffBar] ++ letters "d") (Some 0); mkrow (letters "after") None;
   mkrow [] None; mkrow (letters "more") (Some 1)].
Definition table_line : str := L "<table class=" ++ [quote] ++ L "wiki" ++ [quote] ++ L ">".
Example C148_case : Forall row_good mixed_page /\ lines_text (map row_text mixed_page) = lines_text [L "openings"; L "||a||'''b||  "; L "||c"; L "#7||!||d||"; L "after"; []; L "more|| "]
  /\ table_page [] None mixed_page = Some (lines_text [L "<div>"; L "openings"; table_line; L "<tr>"; L "<td>"; L "a"; L "</td>"; L "<td>"; L "<strong>"; L "b"; L "</strong>"; L "</td>"; L "</tr>"; L "<tr>"; L "<td>"; L "c";
       L "<a class=" ++ [quote] ++ L "entry" ++ [quote] ++ L " title=" ++ [quote] ++ L "#7" ++ [quote] ++ L " href=" ++ [quote] ++ L "/entry/7" ++ [quote] ++ L ">"; L "#7"; L "</a>"; L "</td>"; L "<td>"; L "||d"; L "</td>"; L "</tr>"; L "after"; L "</table>"; L "</div>"; L "<div>"; L "more"; L "</div>"]).
Proof.
  split; [|split; vm_compute; reflexivity].
  assert (O : forall s, forallb (fun c => negb (Ascii.eqb c (ascii_of_nat 10)) && negb (Ascii.eqb c (ascii_of_nat 13))) s = true -> one_line s).
  { intros s H c I. rewrite forallb_forall in H. specialize (H c I). apply andb_prop in H. destruct H as [H1 H2]. apply negb_true_iff, Ascii.eqb_neq in H1. apply negb_true_iff, Ascii.eqb_neq in H2. split; assumption. }
  assert (E : forall t, last t "a"%char <> ":"%char -> forall s, t <> s ++ L "::").
  { intros t H s ->. apply H. change (L "::") with ([":"%char] ++ [":"%char]). rewrite app_assoc. apply last_last. }
  unfold mixed_page. repeat (first [apply O; reflexivity|apply E; vm_compute; discriminate|constructor]); cbn; try tauto; try discriminate; try (intros; discriminate); try reflexivity; try lia.
Qed.

(* C149: rows of cells are one table *)
Theorem C149_table_of_cells : forall order wikipath now urlencode analysis rst rows out, rows <> [] -> Forall (fun x => fst x <> []) rows -> Forall (fun x => row_good (cells_row (fst x) (snd x))) rows -> forallb (fun x => forallb no_headings (fst x)) rows = true ->
  all_shown (row_shown wikipath) (map fst rows) = Some out ->
  html order wikipath now urlencode analysis rst (lines_text (map (fun x => flat_map (fun l => L "||" ++ line_text l) (fst x) ++ L "||" ++ repeat " "%char (snd x)) rows))
  = Ok (L "<div>" ++ ShowSpec.nl ++ table_open ++ out ++ table_close ++ L "</div>" ++ ShowSpec.nl).
Proof. exact table_of_cells. Qed.
Print Assumptions C149_table_of_cells.
Definition words (s : string) : list token := map Ch (L s).
Definition some_rows : list (list (list token) * nat) := [([words "Cell 1"; words "Cell 2"; []], 0); ([words "Cell 4"; [Mark MItalic] ++ words "5"; words " "], 1)].
Example C149_case : some_rows <> [] /\ Forall (fun x => fst x <> []) some_rows /\ Forall (fun x => row_good (cells_row (fst x) (snd x))) some_rows /\ forallb (fun x => forallb no_headings (fst x)) some_rows = true
  /\ all_shown (row_shown []) (map fst some_rows) = Some (lines_text [L "<tr>"; L "<td>"; L "Cell 1"; L "</td>"; L "<td>"; L "Cell 2"; L "</td>"; L "<td>"; L "</td>"; L "</tr>"; L "<tr>"; L "<td>"; L "Cell 4"; L "</td>"; L "<td>"; L "<i>"; L "5"; L "</i>"; L "</td>"; L "<td>"; L " "; L "</td>"; L "</tr>"]).
Proof.
  split; [discriminate|]. split; [repeat constructor; discriminate|]. split; [|split; vm_compute; reflexivity].
  assert (O : forall s, forallb (fun c => negb (Ascii.eqb c (ascii_of_nat 10)) && negb (Ascii.eqb c (ascii_of_nat 13))) s = true -> one_line s).
  { intros s H c I. rewrite forallb_forall in H. specialize (H c I). apply andb_prop in H. destruct H as [H1 H2]. apply negb_true_iff, Ascii.eqb_neq in H1. apply negb_true_iff, Ascii.eqb_neq in H2. split; assumption. }
  assert (E : forall t, last t "a"%char <> ":"%char -> forall s, t <> s ++ L "::").
  { intros t H s ->. apply H. change (L "::") with ([":"%char] ++ [":"%char]). rewrite app_assoc. apply last_last. }
  unfold some_rows. repeat (first [apply O; reflexivity|apply E; vm_compute; discriminate|constructor]); cbn; try tauto; try discriminate; try (intros; discriminate); try reflexivity; try lia.
Qed.
