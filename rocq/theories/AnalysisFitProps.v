(* Property C132: pages that show analyses are well formed *)
From Verif Require Import Py Dict HtmlSpec TreeModel TreeSpec WikiModel WikiSpec WellSpec AnalysisModel AnalysisSpec AnalysisFit.
From Verif Require XmlSpec WikiKeep.
From Coq Require Import Floats.SpecFloat Permutation.
Open Scope string_scope.
Open Scope list_scope.
Open Scope Z_scope.

(* C132: the texts of moves go to the page as they are *)
Theorem C132_refuted : exists db wiki out, (forall pid mid rows r s, db pid mid = Ok (false, rows) -> In r rows -> has r "move" (VText s) -> legal_text s /\ s = L "13/7 & 8/7")
  /\ wiki = L "[[Analysis(vzsAAFhu2xFABA:QYkqASAAIAAA)]]" /\ html design_names [] [] (fun _ => []) (analysis_tables db) (fun s => Ok []) wiki = Ok out /\ ~ well_formed out.
Proof. exact analysis_broken. Qed.
Print Assumptions C132_refuted.
(* with a move that looks like a tag the elements of the page are not even closed *)
Definition no_chance : value := VFloat (S754_zero false).
Definition a_move (s : str) : row := [("nth", VInt 1); ("move", VText s); ("ply", VInt 2); ("equity", VFloat (binary_normalize 53 1024 3 (-2) false)); ("diff", VFloat (S754_infinity true));
  ("Win", VFloat S754_nan); ("WinG", no_chance); ("WinBg", no_chance); ("Lose", no_chance); ("LoseG", no_chance); ("LoseBg", no_chance)].
Example C132_refuted_case : match html design_names [] [] (fun _ => []) (analysis_tables (fun _ _ => Ok (false, [a_move (L "<b>13/7")]))) (fun s => Ok []) (L "[[Analysis(vzsAAFhu2xFABA:QYkqASAAIAAA)]]") with
  Ok out => balanced out = false | Exc _ => False end.
Proof. vm_compute. reflexivity. Qed.

(* C132: every page is well formed if the moves of the data base are texts without markup, whatever its numbers are *)
Theorem C132_partial : forall design_order wikipath now urlencode db rst,
  Permutation design_order design_names -> legal_text now -> plain now -> references now -> legal_text wikipath -> quiet wikipath -> (forall p, legal_text (urlencode p) /\ quiet (urlencode p)) ->
  (forall s o, legal_text s -> rst s = Ok o -> well_formed o) ->
  (forall pid mid rows r s, db pid mid = Ok (false, rows) -> In r rows -> has r "move" (VText s) -> legal_text s /\ plain s /\ references s) ->
  forall wiki out, legal_text wiki -> ~ quoted_label wiki -> ~ amp_url wiki -> html design_order wikipath now urlencode (analysis_tables db) rst wiki = Ok out -> well_formed out.
Proof. exact analysis_well. Qed.
Print Assumptions C132_partial.
(* moves without markup: strange numbers do no harm *)
Example C132_case : (forall pid mid rows r s, (fun _ _ : str => Ok (false, [a_move (L "13/7(2)*")])) pid mid = Ok (false, rows) -> In r rows -> has r "move" (VText s) -> legal_text s /\ plain s /\ references s)
  /\ match html design_names [] [] (fun _ => []) (analysis_tables (fun _ _ => Ok (false, [a_move (L "13/7(2)*")]))) (fun s => Ok []) (L "this [[Analysis(vzsAAFhu2xFABA:QYkqASAAIAAA)]] & that") with
     Ok out => balanced out = true | Exc _ => False end.
Proof.
  split; [|vm_compute; reflexivity]. intros pid mid rows r s H I Hs. injection H as <-. destruct I as [<-|[]]. assert (E : s = L "13/7(2)*") by (vm_compute in Hs; injection Hs as <-; reflexivity). subst s.
  apply tame_fit. reflexivity.
Qed.
