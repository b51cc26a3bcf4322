(* Independent vocabulary for the board properties: fields, frames, the
   rule of bearing off, the counts on a side. *)
From Verif Require Import Py UtilModel BoardModel.

(* the twelve fields and what it means for two boards to agree on one *)
Inductive field := FPosition | FCube | FOwner | FOnAction | FCrawford | FState
                 | FInner | FDoubled | FResign | FRolled | FLength | FScore.
Definition agree (f : field) (x y : board) : Prop :=
  match f with
  | FPosition => position x = position y
  | FCube => cube_in_logarithm x = cube_in_logarithm y
  | FOwner => cube_owner x = cube_owner y
  | FOnAction => on_action x = on_action y
  | FCrawford => crawford x = crawford y
  | FState => game_state x = game_state y
  | FInner => on_inner_action x = on_inner_action y
  | FDoubled => doubled x = doubled y
  | FResign => resign_offer x = resign_offer y
  | FRolled => rolled x = rolled y
  | FLength => match_length x = match_length y
  | FScore => score x = score y
  end.
(* y differs from x at most in the fields of l *)
Definition changes_only (l : list field) (x y : board) : Prop :=
  forall f, ~ In f l -> agree f x y.

(* the field a keyword names, and that a board carries its value *)
Definition field_of (a : assign) : option field :=
  match a with
  | KPosition _ => Some FPosition | KCube _ => Some FCube | KOwner _ => Some FOwner
  | KOnAction _ => Some FOnAction | KCrawford _ => Some FCrawford | KState _ => Some FState
  | KInner _ => Some FInner | KDoubled _ => Some FDoubled | KResign _ => Some FResign
  | KRolled _ => Some FRolled | KLength _ => Some FLength | KScore _ => Some FScore
  | KOther _ => None
  end.
Definition carries (a : assign) (b : board) : Prop :=
  match a with
  | KPosition v => position b = v | KCube v => cube_in_logarithm b = v
  | KOwner v => cube_owner b = v | KOnAction v => on_action b = v
  | KCrawford v => crawford b = v | KState v => game_state b = v
  | KInner v => on_inner_action b = v | KDoubled v => doubled b = v
  | KResign v => resign_offer b = v | KRolled v => rolled b = v
  | KLength v => match_length b = v | KScore v => score b = v
  | KOther _ => True
  end.

Definition player (w : Z) : Prop := w = 0 \/ w = 1.
Definition other (w : Z) : Z := 1 - w.
(* chequers of player w: the first half of the position belongs to player 0 *)
Definition side (b : board) (w : Z) : list Z := if w =? 0 then fst (position b) else snd (position b).
Definition count (l : list Z) (n : Z) : Z := nth (Z.to_nat n) l 0.
Definition points (b : board) (w : Z) : Z := if w =? 0 then fst (score b) else snd (score b).
Definition total (l : list Z) : Z := fold_right Z.add 0 l.

(* a side as the library stores it: 24 points and the bar, no negative count *)
Definition wf_side (l : list Z) : Prop := List.length l = 25%nat /\ Forall (fun x => 0 <= x) l.

(* the rule book on bearing off from point n (0-based) with a die *)
Definition all_home (l : list Z) : Prop := forall k, 6 <= k <= 24 -> count l k = 0.
Definition may_bear_off (l : list Z) (n die : Z) : Prop :=
  0 <= n <= 24 /\ count l n > 0 /\ all_home l /\
  (n + 1 = die \/ (n + 1 < die /\ forall k, n < k <= 24 -> count l k = 0)).

(* the dice are still to be thrown and the game is on *)
Definition before_roll (b : board) : Prop := rolled b = (0, 0) /\ game_state b = 1.

(* what one chequer movement does to the mover's count on point k and to the
   opponent's count on the opponent's point k; moving up means taking back *)
Definition here (x k : Z) : Z := if x =? k then 1 else 0.
Definition mover_delta (pm : pmove) (k : Z) : Z := here (dest pm) k - here (src pm) k.
Definition opp_delta (pm : pmove) (k : Z) : Z :=
  if is_hitting pm then
    if src pm <? dest pm then here (23 - src pm) k - here 24 k
    else here 24 k - here (23 - dest pm) k
  else 0.
(* ends between off (-1) and the bar (24), a hit happens on one of the 24 points *)
Definition pm_ok (pm : pmove) : Prop :=
  -1 <= src pm <= 24 /\ -1 <= dest pm <= 24 /\
  (is_hitting pm = true -> if src pm <? dest pm then 0 <= src pm <= 23 else 0 <= dest pm <= 23).
Definition inverse (pm : pmove) : pmove := mkPM (die pm) (dest pm) (src pm) (is_hitting pm).
(* the object an operation is aimed at *)
Definition aim (op : hop) : option nat :=
  match op with
  | HSet i _ => Some i | HAct i _ => Some i | HFlip i => Some i
  | _ => None
  end.
(* the fields an object shows, and whether two objects are of one class *)
Definition fields_of (o : obj) : board := match o with OBoard b => b | OEditor b _ => b end.
Definition same_class (x y : obj) : Prop :=
  match x, y with OBoard _, OBoard _ | OEditor _ _, OEditor _ _ => True | _, _ => False end.
(* the seat across the table; the cube may also stand in the middle (3) *)
Definition swap_seat (v : Z) : Z := if v =? 0 then 1 else if v =? 1 then 0 else v.
Definition seat (v : Z) : Prop := v = 0 \/ v = 1 \/ v = 3.
(* chequers of the player on action *)
Definition mover (b : board) : list Z := side b (on_action b).
(* whose turn it is to answer a double, to resign, to answer a resignation *)
Definition may_answer_double (b : board) (w : Z) : Prop :=
  doubled b = true /\ on_inner_action b = w /\ on_action b <> w.
Definition may_resign (b : board) (w : Z) : Prop := on_action b = w /\ on_inner_action b = w.
Definition may_answer_resign (b : board) (w : Z) : Prop :=
  1 <= resign_offer b <= 3 /\ on_inner_action b = w.
(* the game is over: finished, resigned or doubled out *)
Definition ended (b : board) : Prop := 2 <= game_state b <= 4.
(* the two actions that award points *)
Definition scoring (a : action) : bool := match a with ADrop _ | AAccept _ => true | _ => false end.
(* sample boards *)
Definition ongoing : board := set_game_state ON_GOING default_board.
Definition last_chequer : board :=
  set_position ([1; 0; 0; 0; 0; 0; 0; 0; 0; 0; 0; 0; 0; 0; 0; 0; 0; 0; 0; 0; 0; 0; 0; 0; 0],
                snd INITIAL_POSITION) ongoing.
