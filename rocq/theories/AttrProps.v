(* Property C103: the kinds of attributes *)
From Verif Require Import Py UtilModel BoardModel BoardSpec ImageModel ImageSpec AttrSpec AttrProofs.
Open Scope string_scope.
Open Scope list_scope.
Open Scope Z_scope.

(* C103 *)
Theorem C103_attribute_kinds : forall rs b t t', sides_ok b -> board_tree b = Ok t -> style rs t = Ok t' ->
  forall p n v, In p (paths [] t') -> get_attr (map ehead (rev p)) n = Ok v -> right_type n v.
Proof. exact attributes_typed. Qed.
Print Assumptions C103_attribute_kinds.
(* a sheet that tries: what it sets is converted, what cannot be converted stops it *)
Definition kinds_sheet : list rule :=
  match load (L "t/default.css") [L "board { width: 100; color: 7; flip: yes }"; L "die { diestyle: numeric }"] with Ok rs => rs | Exc _ => [] end.
Example C103_case : List.length kinds_sheet = 2%nat /\ sides_ok ongoing /\
  match (let! t := board_tree ongoing in style kinds_sheet t) with
  | Ok t => get_attr [ehead t] (L "color") = Ok (VStr (L "7")) /\ get_attr [ehead t] (L "width") = Ok (VInt 100) /\ In [t] (paths [] t)
  | Exc _ => False
  end.
Proof. vm_compute. repeat split. left. reflexivity. Qed.
