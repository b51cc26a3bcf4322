(* Specification for C160: the name of a board in the arguments of a macro *)
From Verif Require Import Py BoardModel GnuSpec.

Definition board_name (pid mid : str) : str := pid ++ L ":" ++ mid.
(* the numbers of chequers for which the position identifier has 12 characters *)
Definition short_name (p : list Z * list Z) : Prop := chequers p = 6 \/ chequers p = 14 \/ chequers p = 22.
