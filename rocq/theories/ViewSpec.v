(* Specification for C162: the position as the player on action sees it, that side last *)
From Verif Require Import Py BoardModel.

Definition view (m : board) : list Z * list Z :=
  if on_action m =? 0 then (snd (position m), fst (position m)) else position m.
(* the same in everything but where the chequers are *)
Definition same_match (m n : board) : Prop := set_position (position n) m = n.
(* the board with the two sides of the position exchanged and the other player on action *)
Definition turned (m : board) : board := set_on_action (1 - on_action m) (set_position (snd (position m), fst (position m)) m).
