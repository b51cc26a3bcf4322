(* Python dictionaries as association lists.  The order of iteration is not
   modelled; operations that depend on it take it as an argument. *)
From Verif Require Import Py.
From Coq Require Import Permutation.

Section Dict.
Context {K V : Type} (eqb : K -> K -> bool).
Fixpoint dget (d : list (K * V)) (k : K) : option V :=
  match d with
  | [] => None
  | (k', v) :: d' => if eqb k k' then Some v else dget d' k
  end.
Fixpoint dset (d : list (K * V)) (k : K) (v : V) : list (K * V) :=
  match d with
  | [] => [(k, v)]
  | (k', v') :: d' => if eqb k k' then (k', v) :: d' else (k', v') :: dset d' k v
  end.
Fixpoint dpop (d : list (K * V)) (k : K) : list (K * V) :=
  match d with
  | [] => []
  | (k', v') :: d' => if eqb k k' then d' else (k', v') :: dpop d' k
  end.
End Dict.
Definition keys {K V} (d : list (K * V)) : list K := map fst d.
