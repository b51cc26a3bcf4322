(* Specification for C161: XGIDs whose numbers have a place in a GNU match identifier *)
From Verif Require Import Py BoardModel XgidSpec.

Definition x_in_range (x : xg) : Prop :=
  0 <= x_cube x <= 15 /\ x_r1 x <= 7 /\ x_r2 x <= 7 /\ 0 <= x_your x <= 32767 /\ 0 <= x_his x <= 32767 /\ x_len x <= 32767.
(* an unlimited session in which a point was made *)
Definition x_scored_money (x : xg) : Prop := x_len x = 0 /\ (x_your x <> 0 \/ x_his x <> 0).
