(* Specification for C163: FIBS board lines whose numbers have a place in a GNU match identifier *)
From Verif Require Import Py.

(* field 3 is the length of the match, 9999 if unlimited; 4 and 5 the scores; 33 and 34 your dice; 37 the cube *)
Definition line_in_range (v : nat -> Z) : Prop :=
  1 <= v 3%nat <= 32767 /\ 0 <= v 4%nat <= 32767 /\ 0 <= v 5%nat <= 32767 /\
  0 <= v 33%nat <= 7 /\ 0 <= v 34%nat <= 7 /\ v 37%nat < 65536.
