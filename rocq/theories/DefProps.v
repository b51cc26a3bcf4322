(* Properties C150 and C151: pages with definitions *)
From Verif Require Import Py HtmlModel HtmlSpec TreeModel TreeSpec TocModel TocSpec WikiModel WikiSpec ShowSpec ListSpec QuoteSpec DefSpec DefPage.
Open Scope string_scope.
Open Scope list_scope.
Open Scope nat_scope.

(* C150: a line after definitions is in their list, but in no entry *)
Theorem C150_refuted : exists out before after, html design_names [] [] (fun _ => []) (fun _ => Exc KeyError) (fun s => Ok s) (lines_text [L "a::"; L "  b"; L "c"]) = Ok out
  /\ out = before ++ L "c" ++ after /\ lists_around before = 1 /\ occurrences (L "<dd>") before = occurrences (L "</dd>") before /\ occurrences (L "<dt>") before = occurrences (L "</dt>") before.
Proof. exact still_in_list. Qed.
Print Assumptions C150_refuted.

(* C150: the page of terms, indented lines and other lines *)
Theorem C150_definitions_partial : forall order wikipath now urlencode analysis rst xs out, Forall d_good xs -> def_page wikipath None xs = Some out ->
  html order wikipath now urlencode analysis rst (lines_text (map d_written xs)) = Ok out.
Proof. exact defs_partial. Qed.
Print Assumptions C150_definitions_partial.
Definition w (s : string) : list token := map Ch (L s).
Definition glossary : list dline := [Inset 2 (w "Quoted"); Term (w "Anchor"); Inset 2 (w "Two " ++ [Mark MBold] ++ w "men"); Inset 3 (w "Own"); Words (w "Not"); Inset 2 (w "Body"); Term ([Mark MItalic] ++ w "Blot"); Words []; Words (w "End")].
Example C150_case : Forall d_good glossary /\ map d_written glossary = [L "  Quoted"; L "Anchor::"; L "  Two '''men"; L "   Own"; L "Not"; L "  Body"; L "''Blot::"; []; L "End"]
  /\ def_page [] None glossary = Some (lines_text [L "<div>"; L "<blockquote>"; L "<p>"; L "Quoted"; L "</p>"; L "</blockquote>"; L "<dl>"; L "<dt>"; L "Anchor"; L "</dt>"; L "<dd>"; L "Two "; L "<strong>"; L "men"; L "</strong>"; L "Own"; L "</dd>"; L "Not"; L "<dd>"; L "Body"; L "</dd>";
       L "<dt>"; L "<i>"; L "Blot"; L "</i>"; L "</dt>"; L "<dd>"; L "</dd>"; L "</dl>"; L "</div>"; L "<div>"; L "End"; L "</div>"]).
Proof.
  split; [|split; vm_compute; reflexivity].
  assert (O : forall s, forallb (fun c => negb (Ascii.eqb c (ascii_of_nat 10)) && negb (Ascii.eqb c (ascii_of_nat 13))) s = true -> one_line s).
  { intros s H c I. rewrite forallb_forall in H. specialize (H c I). apply andb_prop in H. destruct H as [H1 H2]. apply negb_true_iff, Ascii.eqb_neq in H1. apply negb_true_iff, Ascii.eqb_neq in H2. split; assumption. }
  assert (E : forall t, last t "a"%char <> ":"%char -> forall s, t <> s ++ L "::").
  { intros t H s ->. apply H. change (L "::") with ([":"%char] ++ [":"%char]). rewrite app_assoc. apply last_last. }
  assert (NI : forall c r, is_capital c = true -> no_item (c :: r)).
  { intros c r H b q G F. destruct b as [|n|n|x dot|x dot|w dot]; cbn [bullet_text good_bullet] in *.
    - injection F as -> _. discriminate H.
    - destruct n as [|n]; [lia|]. injection F as -> _. discriminate H.
    - destruct n as [|n]; [lia|]. injection F as -> _. discriminate H.
    - injection F as -> _. cbn in G. repeat (destruct G as [<-|G]; [discriminate H|]). destruct G.
    - injection F as -> _. cbn in G. repeat (destruct G as [<-|G]; [discriminate H|]). destruct G.
    - destruct G as [G1 G2]. destruct w as [|x w]; [congruence|]. injection F as -> _. specialize (G2 x (or_introl eq_refl)). cbn in G2. repeat (destruct G2 as [<-|G2]; [discriminate H|]). destruct G2. }
  unfold glossary. repeat (first [apply O; reflexivity|apply E; vm_compute; discriminate|apply NI; reflexivity|constructor]); cbn; try tauto; try discriminate; try (intros; discriminate); try reflexivity; try lia.
Qed.

(* C151: terms with their definitions are one list *)
Theorem C151_definitions : forall order wikipath now urlencode analysis rst es out, es <> [] -> Forall entry_good es -> forallb entry_plain es = true -> entries_shown wikipath es = Some out ->
  html order wikipath now urlencode analysis rst (lines_text (flat_map entry_lines es)) = Ok (L "<div>" ++ ShowSpec.nl ++ dl_open ++ out ++ dl_close ++ L "</div>" ++ ShowSpec.nl).
Proof. exact list_of_definitions. Qed.
Print Assumptions C151_definitions.
Definition terms : list entry := [(w "Anchor", [(2, w "Two men"); (4, w "Own " ++ [Mark MBold] ++ w "point"); (2, w "Safe")]); (w "Blot", []); ([Mark MItalic] ++ w "Cube", [(3, w "A die")])].
Example C151_case : terms <> [] /\ Forall entry_good terms /\ forallb entry_plain terms = true /\ flat_map entry_lines terms = [L "Anchor::"; L "  Two men"; L "    Own '''point"; L "  Safe"; L "Blot::"; L "''Cube::"; L "   A die"]
  /\ entries_shown [] terms = Some (lines_text [L "<dt>"; L "Anchor"; L "</dt>"; L "<dd>"; L "Two menOwn "; L "<strong>"; L "point"; L "</strong>"; L "Safe"; L "</dd>"; L "<dt>"; L "Blot"; L "</dt>"; L "<dd>"; L "</dd>"; L "<dt>"; L "<i>"; L "Cube"; L "</i>"; L "</dt>"; L "<dd>"; L "A die"; L "</dd>"]).
Proof.
  split; [discriminate|]. split; [|split; [reflexivity|split; vm_compute; reflexivity]].
  assert (O : forall s, forallb (fun c => negb (Ascii.eqb c (ascii_of_nat 10)) && negb (Ascii.eqb c (ascii_of_nat 13))) s = true -> one_line s).
  { intros s H c I. rewrite forallb_forall in H. specialize (H c I). apply andb_prop in H. destruct H as [H1 H2]. apply negb_true_iff, Ascii.eqb_neq in H1. apply negb_true_iff, Ascii.eqb_neq in H2. split; assumption. }
  assert (E : forall t, last t "a"%char <> ":"%char -> forall s, t <> s ++ L "::").
  { intros t H s ->. apply H. change (L "::") with ([":"%char] ++ [":"%char]). rewrite app_assoc. apply last_last. }
  assert (NI : forall c r, is_capital c = true -> no_item (c :: r)).
  { intros c r H b q G F. destruct b as [|n|n|x dot|x dot|w dot]; cbn [bullet_text good_bullet] in *.
    - injection F as -> _. discriminate H.
    - destruct n as [|n]; [lia|]. injection F as -> _. discriminate H.
    - destruct n as [|n]; [lia|]. injection F as -> _. discriminate H.
    - injection F as -> _. cbn in G. repeat (destruct G as [<-|G]; [discriminate H|]). destruct G.
    - injection F as -> _. cbn in G. repeat (destruct G as [<-|G]; [discriminate H|]). destruct G.
    - destruct G as [G1 G2]. destruct w as [|x w]; [congruence|]. injection F as -> _. specialize (G2 x (or_introl eq_refl)). cbn in G2. repeat (destruct G2 as [<-|G2]; [discriminate H|]). destruct G2. }
  unfold terms. repeat (first [apply O; reflexivity|apply E; vm_compute; discriminate|apply NI; reflexivity|constructor]); cbn; try tauto; try discriminate; try (intros; discriminate); try reflexivity; try lia.
Qed.
