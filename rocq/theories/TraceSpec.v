(* Vocabulary for C122 to C124: whole GNU ids, records of actions, seats *)
From Verif Require Import Py UtilModel BoardModel TraceModel.

Definition colon : ascii := ":"%char.
(* how often a character occurs *)
Definition occurs (c : ascii) (s : str) : nat := List.length (filter (Ascii.eqb c) s).

(* a record that a game gives: one of the five actions, X or O, and a board;
   [m] is the player who acts *)
Definition says (k s : str) (d : list (str * tval)) : Prop := exists d1 d2,
  d = d1 ++ (k, VText s) :: d2 /\ ~ In k (map fst d1).
Definition is_action (s : str) : Prop := s = L "resign" \/ s = L "move" \/ s = L "take" \/ s = L "drop" \/ s = L "double".
Definition acts (m : Z) (r : record) : Prop := exists d a p, r = ADict d /\
  says (L "action") a d /\ is_action a /\ In (L "board") (map fst d) /\ says (L "player") p d /\
  ((p = L "X" /\ m = 0) \/ (p = L "O" /\ m = 1)).

(* the tracer a program has after it made one and called it *)
Definition traced (b : board) (t : tracer) : Prop := exists cs, t = calls_tracer cs (mkTracer b None).

(* the same table seen from the other chair, as far as a position is concerned *)
Definition turned (b : board) : board := set_on_action (1 - on_action b) (set_position (snd (position b), fst (position b)) b).
