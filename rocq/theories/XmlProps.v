(* Properties C113 to C116: the XML of a board *)
From Verif Require Import Py UtilModel BoardModel BoardSpec ImageModel ImageSpec DrawnSpec ThemeData ThemeModel ThemeSpec XmlModel XmlSpec XmlFinal.
From Coq Require Import Permutation.
Open Scope string_scope.
Open Scope list_scope.
Open Scope Z_scope.

(* dictionaries that list their keys the other way round, and all floats written alike *)
Definition backwards {X} (l : list X) : list X := rev l.
Definition one_float (f : Floats.SpecFloat.spec_float) : str := L "2.0".
(* after 2, 1 for an opening move *)
Definition rolling : board := set_rolled (2, 1) ongoing.
Definition tree_of_board (b : board) : elem := match board_tree b with Ok t => t | Exc _ => Elem (mkhead EBoard [] []) [] end.
(* the texts below the root, by the names on the way *)
Fixpoint texts_at (way : list string) (n : node) : list str :=
  match n, way with
  | Node _ _ ks, [] => flat_map (fun k => match k with inl _ => [] | inr s => [s] end) ks
  | Node _ _ ks, w :: way => flat_map (fun k => match k with inl (Node x g l) => if str_eqb x (L w) then texts_at way (Node x g l) else [] | inr _ => [] end) ks
  end.

(* C113 *)
Theorem C113_reads_back : forall items float_str b t, listed items -> sides_ok b -> board_tree b = Ok t ->
  read_document (xml items float_str t) = Some (L "board", meant items float_str t).
Proof. exact xml_of_board. Qed.
Print Assumptions C113_reads_back.
Example C113_case : sides_ok rolling /\ board_tree rolling = Ok (tree_of_board rolling) /\
  match read_document (xml backwards one_float (tree_of_board rolling)) with
  | Some (root, n) => root = L "board" /\ texts_at ["position"; "field"; "die"] n = [L "2"; L "1"] /\ texts_at ["match"; "action"] n = [L "you to move."]
  | None => False end.
Proof. split; [split; reflexivity|]. split; [vm_compute; reflexivity|]. vm_compute. auto. Qed.

(* C114 *)
Theorem C114_styled_refuted : exists css b t, load (L "t/default.css") [L "board {background: ""red""}"] = Ok css /\ sides_ok b /\ in_style css b t /\
  read_document (xml (fun l => l) (fun _ => L "1.0") t) = None.
Proof. exact xml_quotes. Qed.
Print Assumptions C114_styled_refuted.


Theorem C114_styled_partial : forall items float_str css b t, listed items -> (forall f, bare_value (float_str f) = true) -> (forall r, In r css -> tame r) ->
  sides_ok b -> in_style css b t -> read_document (xml items float_str t) = Some (L "board", meant items float_str t).
Proof. exact xml_of_styled. Qed.
Print Assumptions C114_styled_partial.
Definition calm : list rule := match load (L "t/default.css") [L "board {background: red; width: 341; height: 262}"; L "chequer {image: url(""a.png"")}"] with Ok rs => rs | Exc _ => [] end.
Example C114_case : (forall r, In r calm -> tame r) /\ sides_ok rolling /\ exists t, in_style calm rolling t /\
  match read_document (xml backwards one_float t) with Some (_, Node name given _) => name = L "board" /\ In (L "background", L "red") given | None => False end.
Proof.
  split. { intros r I. apply tameb_tame. assert (T : forallb tameb calm = true) by (vm_compute; reflexivity). rewrite forallb_forall in T. apply T, I. }
  split; [split; reflexivity|].
  exists (match style calm (tree_of_board rolling) with Ok t => t | Exc _ => tree_of_board rolling end). split.
  - left. exists (tree_of_board rolling). split; vm_compute; reflexivity.
  - vm_compute. tauto.
Qed.

Theorem C114_themes : forall items float_str name rs w h b t, listed items -> (forall f, bare_value (float_str f) = true) -> ships name rs w h ->
  sides_ok b -> in_style rs b t -> read_document (xml items float_str t) = Some (L "board", meant items float_str t).
Proof. exact xml_of_theme. Qed.
Print Assumptions C114_themes.
Example C114_themes_case : exists rs t, ships "flower" rs 341 262 /\ in_style rs rolling t.
Proof.
  destruct (theme (nth 1 theme_files ("", ""))) as [rs|] eqn:E; [|vm_compute in E; discriminate].
  exists rs. destruct (style rs (tree_of_board rolling)) as [t|] eqn:F; [|assert (X : match theme (nth 1 theme_files ("", "")) with Ok rs => match style rs (tree_of_board rolling) with Ok _ => true | _ => false end | _ => false end = true) by (vm_compute; reflexivity); rewrite E, F in X; discriminate].
  exists t. split.
  - split; [right; left; reflexivity|]. exists (snd (nth 1 theme_files ("", ""))). split; [right; left; reflexivity|exact E].
  - left. exists (tree_of_board rolling). split; [vm_compute; reflexivity|exact F].
Qed.

(* C115 *)
Theorem C115_valid : forall items keys_of float_str classes, listed items -> listed keys_of -> Permutation classes all_kinds -> (forall f, bare_value (float_str f) = true) ->
  exists ds, read_dtd (make_dtd keys_of classes) = Some ds /\
    (forall b t, sides_ok b -> board_tree b = Ok t -> exists n, read_document (xml items float_str t) = Some (L "board", n) /\ conforms ds n) /\
    (forall css b t, (forall r, In r css -> tame r) -> sides_ok b -> in_style css b t -> exists n, read_document (xml items float_str t) = Some (L "board", n) /\ conforms ds n).
Proof. exact xml_conforms. Qed.
Print Assumptions C115_valid.
Example C115_case : listed (@backwards (str * attr)) /\ Permutation (rev all_kinds) all_kinds /\ (forall f, bare_value (one_float f) = true) /\
  read_dtd (make_dtd backwards (rev all_kinds)) <> None.
Proof. split; [intros l; apply Permutation_sym, Permutation_rev|]. split; [apply Permutation_sym, Permutation_rev|]. split; [reflexivity|]. vm_compute. discriminate. Qed.

(* C116 *)
Theorem C116_same_view : forall items float_str b c t u, listed items -> sides_ok b -> sides_ok c -> board_tree b = Ok t -> board_tree c = Ok u ->
  (xml items float_str t = xml items float_str u <-> same_view b c).
Proof. exact view_xml. Qed.
Print Assumptions C116_same_view.
(* a resignation offered while dice are on the table is not shown; other dice are *)
Example C116_case : let silent := set_resign_offer 2 rolling in let other := set_rolled (1, 2) rolling in
  silent <> rolling /\ same_view silent rolling /\ ~ same_view other rolling /\
  xml backwards one_float (tree_of_board silent) = xml backwards one_float (tree_of_board rolling) /\
  xml backwards one_float (tree_of_board other) <> xml backwards one_float (tree_of_board rolling).
Proof.
  split; [discriminate|]. split. { repeat split; intros; try reflexivity; try discriminate; try assumption; match goal with H : offered _ |- _ => destruct H as (X & _); discriminate X end. }
  split. { intros (_ & _ & _ & _ & X & _). discriminate X. } split; [vm_compute; reflexivity|]. vm_compute. discriminate.
Qed.
