(* Property C131: an analysis is shown as the data base has it *)
From Verif Require Import Py Dict HtmlModel TreeModel AnalysisModel AnalysisSpec AnalysisProofs AnalysisPage.
From Verif Require WikiModel.
Import WikiModel AnalysisModel.
From Coq Require Import Floats.SpecFloat.
Open Scope string_scope.
Open Scope list_scope.
Open Scope Z_scope.

(* C131: an action that is none of the four is shown as one of them *)
Theorem C131_refuted : exists db pid mid r r' q e ts,
  List.length pid = 14%nat /\ List.length mid = 12%nat /\ db pid mid = Ok (true, [r; r']) /\ says_equity r q /\ says_cube r' e /\ c_nth e = 1
  /\ c_action e = -1 /\ analysis_tables db (pid ++ L ":" ++ mid) = Ok ts
  /\ exists t h a, ts = [t; WikiModel.mktable (L "cubeaction") [h; a]] /\ nth 1 (texts a) [] = L "Too good to double".
Proof. exact analysis_refuted. Qed.
Print Assumptions C131_refuted.
(* the action -1 is shown as too good to double, and the action 4 is not shown at all *)
Definition a_zero : value := VFloat (S754_zero false).
Definition some_equity : row := [("ply", VInt 2); ("cubeless", a_zero); ("money", a_zero); ("Win", a_zero); ("WinG", a_zero); ("WinBg", a_zero); ("Lose", a_zero); ("LoseG", a_zero); ("LoseBg", a_zero)].
Definition some_action (a : Z) : row := [("nth", VInt 1); ("action", VInt a); ("equity", a_zero); ("diff", VNone)].
Example C131_refuted_case :
  match analysis_tables (fun _ _ => Ok (true, [some_equity; some_action (-1)])) (L "vzsAAFhu2xFABA:QYkqASAAIAAA") with
  | Ok [_; t] => map texts (rows t) = [map L ["#"; "action"; " Cubeful Eq. "]; map L ["1"; "Too good to double"; "+0.000"; ""]]
  | _ => False
  end
  /\ analysis_tables (fun _ _ => Ok (true, [some_equity; some_action 4])) (L "vzsAAFhu2xFABA:QYkqASAAIAAA") = Exc IndexError.
Proof. split; vm_compute; reflexivity. Qed.

(* C131: with actions of the four kinds the two tables show what the data base says *)
Theorem C131_cube_partial : forall db pid mid r rows q es, List.length pid = 14%nat -> List.length mid = 12%nat -> db pid mid = Ok (true, r :: rows) ->
  says_equity r q -> Forall2 says_cube rows es -> counted c_nth 1 es -> (forall e, In e es -> 0 <= c_action e <= 3) ->
  exists h1 h2 a b h body, analysis_tables db (pid ++ L ":" ++ mid) = Ok [WikiModel.mktable (L "cubeless") [h1; h2; a; b]; WikiModel.mktable (L "cubeaction") (h :: body)]
    /\ heading h1 ["Ply"; "Cubeless Eq. "] /\ heading h2 chances
    /\ (exists t u, texts a = [py_str_int (q_ply q); t ++ L " (Money " ++ u ++ L ")"] /\ shows_equity (q_cubeless q) t /\ shows_equity (q_money q) u)
    /\ Forall2 shows_chance (q_chances q) (texts b) /\ rectangle 7 [] [h1; h2; a; b]
    /\ heading h ["#"; "action"; " Cubeful Eq. "] /\ Forall2 shows_cube es body /\ rectangle 4 [] (h :: body).
Proof. exact analysis_cube. Qed.
Print Assumptions C131_cube_partial.
(* the actions of the data base made for the tests *)
Definition mock_equity : row := [("name", VText (L "CubelessEquity")); ("ply", VInt 2); ("cubeless", VFloat (binary_normalize 53 1024 (3170534137668829) (-58) false)); ("money", VFloat (binary_normalize 53 1024 (1152921504606847) (-57) false)); ("Win", VFloat (binary_normalize 53 1024 (4674736413210575) (-53) false)); ("WinG", VFloat (binary_normalize 53 1024 (5188146770730811) (-56) false)); ("WinBg", VFloat (binary_normalize 53 1024 (1152921504606847) (-59) false));
  ("Lose", VFloat (binary_normalize 53 1024 (4332462841530417) (-53) false)); ("LoseG", VFloat (binary_normalize 53 1024 (3638908498915361) (-55) false)); ("LoseBg", VFloat (binary_normalize 53 1024 (1152921504606847) (-59) false))].
Definition mock_actions : list row :=
  [[("nth", VInt 1); ("action", VInt 0); ("name", VText (L "No double")); ("equity", VFloat (binary_normalize 53 1024 (1062849512059437) (-52) false)); ("diff", VNone); ("actual", VBool true)];
   [("nth", VInt 2); ("action", VInt 2); ("name", VText (L "Double, pass")); ("equity", VFloat (binary_normalize 53 1024 (1062849512059437) (-52) false)); ("diff", VFloat (binary_normalize 53 1024 (3440750115311059) (-52) false))];
   [("nth", VInt 3); ("action", VInt 1); ("name", VText (L "Double, take")); ("equity", VFloat (binary_normalize 53 1024 (-3458764513820541) (-55) false)); ("diff", VFloat (binary_normalize 53 1024 (-5980780305148019) (-54) false))]].
Ltac says := unfold says_equity, says_cube, says_move; repeat match goal with
  | |- _ /\ _ => split
  | |- callable _ => let J := fresh in intro J; cbn in J; intuition discriminate
  | |- says_int _ _ ?z => exists (VInt z); split; [reflexivity|left; reflexivity]
  | |- Forall2 _ _ _ => repeat constructor
  | |- _ => reflexivity
  end.
Example C131_cube_case : (exists q, says_equity mock_equity q) /\ (exists es, Forall2 says_cube mock_actions es /\ counted c_nth 1 es /\ forall e, In e es -> 0 <= c_action e <= 3)
  /\ match analysis_tables (fun _ _ => Ok (true, mock_equity :: mock_actions)) (L "vzsAAFhu2xFABA:QYkqASAAIAAA") with
     | Ok ts => map (fun t => map texts (rows t)) ts
       = [[map L ["Ply"; "Cubeless Eq. "]; map L ["Win"; "WinG"; "WinBg"; "Lose"; "LoseG"; "LoseBg"]; map L ["2"; "+0.011 (Money +0.008)"]; map L ["0.5"; "0.1"; "0.0"; "0.5"; "0.1"; "0.0"]];
          [map L ["#"; "action"; " Cubeful Eq. "]; map L ["1"; "No double"; "+0.236"; ""]; map L ["2"; "Double, pass"; "+0.236"; "+0.764"]; map L ["3"; "Double, take"; "-0.096"; "-0.332"]]]
     | Exc _ => False
     end.
Proof.
  split; [|split; [|vm_compute; reflexivity]].
  - eexists (mkequity 2 _ _ [_; _; _; _; _; _]). says.
  - eexists [mkcube 1 0 _ None true; mkcube 2 2 _ (Some _) false; mkcube 3 1 _ (Some _) false]. split; [|split; [cbn; auto|intros e J; cbn in J; repeat (destruct J as [<-|J]; [cbn; lia|]); destruct J]].
    constructor; [|constructor; [|constructor; [|constructor]]]; says.
    + left. reflexivity.
    + right. split; [intro J; cbn in J; intuition discriminate|reflexivity].
    + right. split; [intro J; cbn in J; intuition discriminate|reflexivity].
Qed.

(* C131: the table of the moves shows what the data base says, and rows that are not so are refused *)
Theorem C131_moves : forall db pid mid rows, List.length pid = 14%nat -> List.length mid = 12%nat -> db pid mid = Ok (false, rows) ->
  (forall es, Forall2 says_move rows es -> counted m_nth 1 es ->
     exists h1 h2 body, analysis_tables db (pid ++ L ":" ++ mid) = Ok [WikiModel.mktable (L "move") (h1 :: h2 :: body)]
       /\ heading h1 ["#"; "move"; "Ply"; "Eq.(diff)"] /\ heading h2 chances /\ shows_moves es body /\ rectangle 9 [] (h1 :: h2 :: body))
  /\ (forall ts, analysis_tables db (pid ++ L ":" ++ mid) = Ok ts -> exists es, Forall2 says_move rows es /\ counted m_nth 1 es).
Proof. exact analysis_moves. Qed.
Print Assumptions C131_moves.
(* the first two moves of the data base made for the tests, the second of them the one that was played *)
Definition mock_moves : list row :=
  [[("nth", VInt 1); ("move", VText (L "21/15(2) 13/7(2)")); ("ply", VInt 2); ("equity", VFloat (binary_normalize 53 1024 (8782019273372467) (-53) false)); ("diff", VFloat (S754_zero false));
   ("Win", VFloat (binary_normalize 53 1024 (3386706919782613) (-52) false)); ("WinG", VFloat (binary_normalize 53 1024 (553942754166571) (-52) false)); ("WinBg", VFloat (binary_normalize 53 1024 (1152921504606847) (-59) false)); ("Lose", VFloat (binary_normalize 53 1024 (1116892707587883) (-52) false)); ("LoseG", VFloat (binary_normalize 53 1024 (8070450532247929) (-58) false)); ("LoseBg", VFloat (S754_zero false))];
   [("nth", VInt 2); ("move", VText (L "21/9(2)")); ("ply", VInt 2); ("equity", VFloat (binary_normalize 53 1024 (8232580118833267) (-53) false)); ("diff", VFloat (binary_normalize 53 1024 (-1098878309078401) (-54) false));
   ("Win", VFloat (binary_normalize 53 1024 (6602277053725147) (-53) false)); ("WinG", VFloat (binary_normalize 53 1024 (3350678122763649) (-55) false)); ("WinBg", VFloat (binary_normalize 53 1024 (1152921504606847) (-60) false)); ("Lose", VFloat (binary_normalize 53 1024 (2404922201015845) (-53) false)); ("LoseG", VFloat (binary_normalize 53 1024 (6052837899185947) (-58) false)); ("LoseBg", VFloat (S754_zero false)); ("actual", VBool true)]].
Example C131_moves_case : (exists es, Forall2 says_move mock_moves es /\ counted m_nth 1 es)
  /\ match analysis_tables (fun _ _ => Ok (false, mock_moves)) (L "cNcxAxCY54YBBg:cAn7ADAAIAAA") with
     | Ok ts => map (fun t => map (fun r => (fst r, texts r)) (rows t)) ts
       = [[(L "headerrow", map L ["#"; "move"; "Ply"; "Eq.(diff)"]); (L "headerrow", map L ["Win"; "WinG"; "WinBg"; "Lose"; "LoseG"; "LoseBg"]);
           (L "oddrow", map L ["1"; "21/15(2) 13/7(2)"; "2"; "+0.975 "]); (L "oddrow", map L ["0.8"; "0.1"; "0.0"; "0.2"; "0.0"; "0.0"]);
           (L "actualrow", map L ["2"; "21/9(2)"; "2"; "+0.914 (-0.061) "]); (L "actualrow", map L ["0.7"; "0.1"; "0.0"; "0.3"; "0.0"; "0.0"])]]
     | Exc _ => False
     end
  (* a row without its number is not shown *)
  /\ analysis_tables (fun _ _ => Ok (false, [[("move", VText (L "21/9(2)")); ("ply", VInt 2)]])) (L "cNcxAxCY54YBBg:cAn7ADAAIAAA") = Exc KeyError.
Proof.
  split; [|split; vm_compute; reflexivity].
  exists [mkmove 1 (L "21/15(2) 13/7(2)") 2 (binary_normalize 53 1024 (8782019273372467) (-53) false) (Some (S754_zero false)) [(binary_normalize 53 1024 (3386706919782613) (-52) false); (binary_normalize 53 1024 (553942754166571) (-52) false); (binary_normalize 53 1024 (1152921504606847) (-59) false); (binary_normalize 53 1024 (1116892707587883) (-52) false); (binary_normalize 53 1024 (8070450532247929) (-58) false); S754_zero false] false;
    mkmove 2 (L "21/9(2)") 2 (binary_normalize 53 1024 (8232580118833267) (-53) false) (Some (binary_normalize 53 1024 (-1098878309078401) (-54) false)) [(binary_normalize 53 1024 (6602277053725147) (-53) false); (binary_normalize 53 1024 (3350678122763649) (-55) false); (binary_normalize 53 1024 (1152921504606847) (-60) false); (binary_normalize 53 1024 (2404922201015845) (-53) false); (binary_normalize 53 1024 (6052837899185947) (-58) false); S754_zero false] true].
  split; [|cbn; auto]. constructor; [|constructor; [|constructor]]; says.
  - split; [discriminate|]. intros (v & H & _). discriminate H.
  - split; [|reflexivity]. intros _. exists (VBool true). split; [reflexivity|]. intros [H|[H|[H|[H|(f & H & _)]]]]; discriminate H.
Qed.

(* C131: the page shows the tables, or the exception of the data base, and nothing else *)
Theorem C131_page : forall design_order wikipath now urlencode analysis rst g, position_name g ->
  html design_order wikipath now urlencode analysis rst (L "[[Analysis(" ++ g ++ L ")]]")
  = match analysis g with Ok ts => Ok (L "<div>" ++ [newline] ++ flat_map written_table ts ++ L "</div>" ++ [newline]) | Exc e => Exc e end.
Proof. exact analysis_page. Qed.
Print Assumptions C131_page.
(* the page of a position *)
Example C131_page_case : position_name (L "cNcxAxCY54YBBg:cAn7ADAAIAAA")
  /\ html [] [] [] (fun _ => []) (fun g => Ok [mktable (L "a") [(L "b", [mkcell true [("rowspan", L "2")] (L "c"); mkcell false [] g])]]) (fun s => Ok []) (L "[[Analysis(cNcxAxCY54YBBg:cAn7ADAAIAAA)]]")
     = Ok (List.concat (map (fun s => L s ++ [newline]) ["<div>"; "<table class=""a"">"; "<tr class=""b"">"; "<th rowspan=""2"">"; "c"; "</th>"; "<td>"; "cNcxAxCY54YBBg:cAn7ADAAIAAA"; "</td>"; "</tr>"; "</table>"; "</div>"])).
Proof.
  split; [|vm_compute; reflexivity]. exists (L "cNcxAxCY54YBBg"), (L "cAn7ADAAIAAA"). split; [reflexivity|]. split; [reflexivity|]. split; [reflexivity|]. intros c J. cbn in J. repeat (destruct J as [<-|J]; [cbn; tauto|]). destruct J.
Qed.
