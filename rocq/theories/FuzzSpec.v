(* What the fuzzer is for: texts over an alphabet, and a verdict on each *)
From Verif Require Import Py FuzzModel.
Open Scope string_scope.
Open Scope list_scope.
Open Scope Z_scope.

(* the alphabet *)
Definition words (k : gclass) : list str := single k ++ multi k.
(* a text of so many words *)
Inductive spelt (k : gclass) : nat -> str -> Prop :=
| spelt_none : spelt k 0 []
| spelt_more : forall w n t, In w (words k) -> spelt k n t -> spelt k (S n) (w ++ t).
(* random.randint(0, self.count() - 1) *)
Definition draws (k : gclass) (draw : nat -> Z) : Prop := forall i, 0 <= draw i < count k.
(* an answer that has a document to check *)
Definition has_html (g : gene) : Prop := exists c h, ghtml g = Some (c :: h).
