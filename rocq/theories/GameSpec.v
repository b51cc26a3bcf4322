(* Vocabulary for whole games: positions of backgammon, pips, fair play. *)
From Verif Require Import Py UtilModel BoardModel BoardSpec MoveModel MoveSpec GameModel.

(* a position that could stand on a board: no negative number of chequers, of
   player w at most lim w, and no point held by both *)
Definition within (lim : Z -> Z) (b : board) : Prop :=
  wf_side (fst (position b)) /\ wf_side (snd (position b)) /\
  (total (fst (position b)) <= lim 0 /\ total (snd (position b)) <= lim 1) /\
  forall k, 0 <= k <= 23 -> count (fst (position b)) k = 0 \/ count (snd (position b)) (23 - k) = 0.
(* a position of backgammon *)
Definition proper (b : board) : Prop := within (fun _ => 15) b.
Definition proper_b (b : board) : bool :=
  let x := fst (position b) in let y := snd (position b) in
  Nat.eqb (List.length x) 25 && Nat.eqb (List.length y) 25 &&
  forallb (Z.leb 0) x && forallb (Z.leb 0) y && (total x <=? 15) && (total y <=? 15) &&
  forallb (fun k => (count x k =? 0) || (count y (23 - k) =? 0)) (zrange 0 24).

(* pips: how far the chequers of a side still have to go *)
Definition pips (l : list Z) : Z := zsum (map (fun k => (k + 1) * count l k) (zrange 0 25)).
(* pips a step takes off its mover, and puts on the opponent *)
Definition gained (pm : pmove) : Z := src pm - dest pm.
Definition sent_back (pm : pmove) : Z := if is_hitting pm then dest pm + 1 else 0.
Definition hits (l : list pmove) : Z := zsum (map (fun pm => if is_hitting pm then 1 else 0) l).

(* the suggestions that look for steps forward, with points that exist *)
Definition forward_ask (q : ask) : Prop :=
  match q with
  | TFrom s => 0 <= s <= 24
  | TTo t => -1 <= t <= 23
  | TPath s t => -1 <= t /\ s <= 24
  | TPoint _ | TBack _ _ => False
  end.
(* a turn by the rules: every step is legal on the board, and with the dice,
   that the steps before it left *)
Inductive legal_run : board -> pool -> list pmove -> board -> pool -> Prop :=
| run_none b p : legal_run b p [] b p
| run_step b p s pm b1 p1 l b2 p2 :
    legal b p s pm -> make_partial_move pm b = (b1, Ok tt) -> consume p (die pm) = Ok p1 ->
    legal_run b1 p1 l b2 p2 -> legal_run b p (pm :: l) b2 p2.
Definition same_position (x y : board) : bool :=
  zlist_eqb (fst (position x)) (fst (position y)) && zlist_eqb (snd (position x)) (snd (position y)).
(* calls that leave dice and chequers alone *)
Definition talk (a : action) : bool :=
  match a with APickup | ARoll _ | AMove _ => false | _ => true end.
Definition fair (d : deed) : Prop :=
  match d with
  | DRoll r => a_die (fst r) /\ a_die (snd r)
  | DAsk q => forward_ask q
  | DPickup => True
  | DTalk a => talk a = true
  end.
(* any suggestion at all *)
Definition any_play (d : deed) : Prop :=
  match d with
  | DRoll r => a_die (fst r) /\ a_die (snd r)
  | DAsk q => match q with
              | TFrom s => 0 <= s <= 24 | TTo t => -1 <= t <= 23 | TPath s t => -1 <= t < s /\ s <= 24
              | TPoint t => 0 <= t <= 23 | TBack s t => -1 <= s < t /\ t <= 24
              end
  | DPickup => True
  | DTalk a => talk a = true
  end.
(* a pick-up that is declined may take the moves of the turn back on the board;
   after one that did, the dice are not offered again in that turn *)
Fixpoint quiet (spoiled : bool) (ds : list deed) (t : table) : Prop :=
  match ds with
  | [] => True
  | d :: ds' =>
      (d = DPickup -> spoiled = false) /\
      quiet (match deal d t with
             | Waiting _ => false
             | Playing f => spoiled ||
                 match d with
                 | DPickup => negb (same_position (fboard f) (board_of t))
                 | _ => false
                 end
             end) ds' (deal d t)
  end.
(* the table at the start of a game from board b *)
Definition seated (b : board) : Prop := player (on_action b) /\ player (on_inner_action b).
(* what a roll is worth, and the player who is not on action *)
Definition worth (r : Z * Z) : Z := if fst r =? snd r then 4 * fst r else fst r + snd r.
Definition waiter (b : board) : list Z := side b (other (on_action b)).
(* a board on which a game can start, and the boards reached by fair play *)
Definition starts (b : board) : Prop :=
  proper b /\ seated b /\ rolled b = (0, 0) /\ seat (cube_owner b) /\ 0 <= match_length b /\
  (crawford b = true -> 0 < match_length b).
Definition reached (b : board) : Prop :=
  exists b0 ds, starts b0 /\ Forall fair ds /\ quiet false ds (Waiting b0) /\ b = board_of (game ds (Waiting b0)).
