(* Specification for C165 *)
From Verif Require Import Py BoardModel ImageModel ImageSpec.

(* the picture of a board shows it *)
Definition pictured (b : board) : Prop := exists t, board_tree b = Ok t /\
  shows_chequers b t /\ shows_cube b t /\ shows_dice b t /\ shows_resign b t /\ shows_match b t.
