(* Vocabulary for picking up the dice at the end of a turn *)
From Verif Require Import Py UtilModel BoardModel BoardSpec MoveModel MoveSpec GameSpec.

(* a chequer on the bar that cannot enter *)
Definition dancing (b : board) (p : pool) : Prop :=
  count (mover b) 24 > 0 /\ forall pm, ~ legal b p 24 pm.
(* the turn is over in one of the ways that need no look back at its start:
   all dice played, a double, or a chequer that cannot enter *)
Definition plainly_over (b0 : board) (f : factory) : Prop :=
  pool_len (favail f) = 0 \/ fst (rolled b0) = snd (rolled b0) \/ dancing (fboard f) (favail f).
(* a turn by the rules: every step is legal, as many dice are played as can be,
   and a single die played is the largest that can be *)
Definition by_the_rules (b : board) (l : list pmove) (b' : board) (p' : pool) : Prop :=
  legal_run b (new_pool (rolled b)) l b' p' /\
  (forall l2 b2 p2, legal_run b (new_pool (rolled b)) l2 b2 p2 -> (List.length l2 <= List.length l)%nat) /\
  (forall q s pm, l = [q] -> legal b (new_pool (rolled b)) s pm -> die pm <= die q).
(* one chequer on the thirteenth point, a six and a one, and the point seven steps away is made *)
Definition lone : board := sample [(12, 1)] [(18, 2)] (6, 1).
