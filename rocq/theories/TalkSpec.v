(* Offers and answers: what a player can do, and which offer an answer answers *)
From Verif Require Import Py UtilModel BoardModel BoardSpec.

(* a game that has begun, with nothing offered yet *)
Definition new_game (b : board) : Prop :=
  player (on_action b) /\ on_inner_action b = on_action b /\ game_state b = 1 /\ doubled b = false /\ resign_offer b = 0.
Definition cube_shown (b : board) : Prop := 0 <= cube_in_logarithm b.
(* the four things to do that the board knows of *)
Definition can_go_on (b : board) (w : Z) : Prop :=
  is_leagal_to_roll b w = true \/ is_leagal_to_move b w = true \/ is_cube_take_or_pass b w = true \/ is_to_accept_resign b w = true.

(* offers that nobody has answered yet: who made them *)
Record offers := mkoffers { of_double : option Z; of_resign : option Z }.
Definition hear (a : action) (o : offers) : offers :=
  match a with
  | ADouble w => mkoffers (Some w) (of_resign o)
  | ATake _ | ADrop _ => mkoffers None (of_resign o)
  | AOffer w _ => mkoffers (of_double o) (Some w)
  | AAccept _ | AReject _ => mkoffers (of_double o) None
  | _ => o
  end.
(* calls that raise do not count *)
Fixpoint heard (l : list action) (b : board) (o : offers) : offers :=
  match l with
  | [] => o
  | a :: l => heard l (fst (act a b)) (match snd (act a b) with Ok _ => hear a o | Exc _ => o end)
  end.
Definition open_offers (l : list action) (b : board) : offers := heard l b (mkoffers None None).
(* an answer to an offer of the opponent *)
Definition answers_offer (a : action) (o : offers) : Prop :=
  match a with
  | ATake w | ADrop w => of_double o = Some (other w)
  | AAccept w | AReject w => of_resign o = Some (other w)
  | _ => True
  end.
Definition is_answer (a : action) : bool := match a with ATake _ | ADrop _ | AAccept _ | AReject _ => true | _ => false end.
(* dice are picked up only by a player who may move, and nobody resigns after a double *)
Fixpoint in_turn (l : list action) (b : board) : Prop :=
  match l with
  | [] => True
  | a :: l => (match a with
               | APickup => is_leagal_to_move b (on_action b) = true
               | AOffer _ _ => doubled b = false
               | _ => True
               end) /\ in_turn l (fst (act a b))
  end.
