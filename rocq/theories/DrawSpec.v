(* Specification for C166: a board on which a game may begin *)
From Verif Require Import Py BoardModel ImageSpec.

(* nothing is on offer, the dice lie in the cup or show pips, the cube is a cube *)
Definition laid_out (b : board) : Prop :=
  at_rest b /\ (rolled b = (0, 0) \/ (1 <= fst (rolled b) <= 6 /\ 1 <= snd (rolled b) <= 6)) /\ 0 <= cube_in_logarithm b.
