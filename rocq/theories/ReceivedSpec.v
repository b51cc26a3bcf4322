(* Specification for C167: boards that could stand on a table, and their pictures *)
From Verif Require Import Py BoardModel ImageModel ImageSpec.
From Verif Require ThemeSpec.

(* no more than fifteen chequers of either player, dice in the cup or showing pips, and a cube *)
Definition real_board (b : board) : Prop :=
  zsum (fst (position b)) <= 15 /\ zsum (snd (position b)) <= 15 /\
  (rolled b = (0, 0) \/ (1 <= fst (rolled b) <= 6 /\ 1 <= snd (rolled b) <= 6)) /\ 0 <= cube_in_logarithm b.
Definition themed (b : board) : Prop :=
  forall name w h, In (name, (w, h)) ThemeSpec.theme_sizes ->
    exists rs cs, ThemeSpec.ships name rs w h /\ draw rs b (w, h) = Ok cs /\ cs <> [].
