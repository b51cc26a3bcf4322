(* Property C130: style sheets are read as they are written *)
From Verif Require Import Py HtmlSpec CmpSpec ImageModel SheetSpec SheetProofs.
Open Scope string_scope.
Open Scope list_scope.
Open Scope nat_scope.

(* C130: comments are read as rules, a block without attributes stops everything, and a value with a blank is cut *)
Theorem C130_refuted : exists path l r l' l'' r'',
  comment l /\ load path [l] = Ok [r] /\ load path [L "board {}"; l'] = Exc AssertionError /\ load path [l'] = Ok []
  /\ l'' = L "field {text: two words}" /\ load path [l''] = Ok [r''] /\ block r'' = [(L "text", L "two")].
Proof. exact sheet_refuted. Qed.
Print Assumptions C130_refuted.
(* a line of the theme deutsche that its author put out of use is read as a rule *)
Example C130_refuted_case : load [] [L "#field[player=you] die[id=left] {x: 176; y: 95;  color:#d01020; background:#d8c810}"]
  = Ok [mkrule [] 1 [mksel (L "field") (Some (L "player")) (Some (L "you")) None; mksel (L "die") (Some (L "id")) (Some (L "left")) None]
          [(L "x", L "176"); (L "y", L "95"); (L "color", L "#d01020"); (L "background", L "#d8c810")]].
Proof. vm_compute. reflexivity. Qed.

(* C130: a sheet of written rules and other lines is read as the rules that it says, in their order *)
Theorem C130_partial : forall path l, (forall x, In x l -> good_line x) -> exists rs, load path (map write_line l) = Ok rs /\ Forall2 (reads path) rs (rules_from 1 l).
Proof. exact read_sheet. Qed.
Print Assumptions C130_partial.
(* three lines of the shipped themes, one of them empty, and one with an attribute given twice *)
Definition home_rule : written_rule := mkwritten 0 (mksel (L "home") (Some (L "player")) (Some (L "him")) None) [] 1
  [Attr (L "x") (L "266") 0 0 1 0; Attr (L "y") (L "5") 1 0 1 0; Attr (L "background") (L "#083008") 1 0 1 0; Attr (L "flip") (L "True") 1 0 2 2] [line_break].
Definition cube_rule : written_rule := mkwritten 2 (mksel (L "cubeholder") None None None) [(1, mksel (L "cube") None None (Some (L "64")))] 0
  [Attr (L "x") (L "1") 0 1 0 0; Attr (L "x") (L "2") 0 0 0 0; Nothing 1] [].
Ltac chars := let c := fresh in let I := fresh in split; [discriminate|]; intros c I; cbn in I; repeat (destruct I as [<-|I]; [cbn; tauto|]); destruct I.
Ltac frees := let c := fresh in let I := fresh in let X := fresh in intros c I X; cbn in I, X; repeat (destruct I as [<-|I]; [intuition discriminate|]); destruct I.
Example C130_case : map write_line [Rule home_rule; Plain [line_break]; Rule cube_rule]
    = [L "home[player=him] {x: 266; y: 5; background: #083008; flip:  True  }" ++ [line_break]; [line_break]; L "  cubeholder  cube:data(64){x :1;x:2; }"]
  /\ (forall x, In x [Rule home_rule; Plain [line_break]; Rule cube_rule] -> good_line x)
  /\ load [] (map write_line [Rule home_rule; Plain [line_break]; Rule cube_rule])
     = Ok [mkrule [] 1 [mksel (L "home") (Some (L "player")) (Some (L "him")) None] [(L "x", L "266"); (L "y", L "5"); (L "background", L "#083008"); (L "flip", L "True")];
           mkrule [] 3 [mksel (L "cubeholder") None None None; mksel (L "cube") None None (Some (L "64"))] [(L "x", L "2")]].
Proof.
  split; [reflexivity|]. split; [|vm_compute; reflexivity]. intros x [<-|[<-|[<-|[]]]].
  - split; [split; [chars|]; split; [split; chars|exact I]|]. split; [intros n s []|]. split; [|split; [discriminate|cbn; intuition discriminate]].
    intros i J; cbn in J; repeat (destruct J as [<-|J]; [split; [chars|split; [discriminate|frees]]|]). destruct J.
  - intros [|a [|a' a'']] b c E; try discriminate E.
  - split; [split; [chars|]; split; [exact I|exact I]|]. split; [intros n s [J|[]]; injection J as <- <-; split; [chars|]; split; [exact I|split; [discriminate|frees]]|].
    split; [|split; [discriminate|intros []]]. intros i J; cbn in J. destruct J as [<-|[<-|[<-|[]]]]; [split; [chars|split; [discriminate|frees]]|split; [chars|split; [discriminate|frees]]|exact I].
Qed.
