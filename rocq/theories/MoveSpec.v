(* Vocabulary for the move properties: dice held, effect of a list of partial
   moves, the rules for one step, chains of steps. *)
From Verif Require Import Py UtilModel BoardModel BoardSpec MoveModel.

(* ---------- dice ---------- *)
Definition a_die (d : Z) : Prop := 1 <= d <= 6.
(* number of dice of value d in a pool *)
Definition held (p : pool) (d : Z) : Z :=
  match find (fun kv => fst kv =? d) p with Some kv => snd kv | None => 0 end.
(* a dictionary with the six keys and no negative count *)
Definition wf_pool (p : pool) : Prop :=
  NoDup (map fst p) /\ (forall d, a_die d -> In d (map fst p)) /\ Forall (fun kv => 0 <= snd kv) p.
(* the dice a roll gives: four of a double, else one of each *)
Definition dice_of (r : Z * Z) (d : Z) : Z :=
  if fst r =? snd r then (if d =? fst r then 4 else 0)
  else (if d =? fst r then 1 else 0) + (if d =? snd r then 1 else 0).
Inductive pool_op := PAdd (d : Z) | PConsume (d : Z).
(* a failing call leaves the pool alone *)
Definition pool_step (p : pool) (o : pool_op) : pool :=
  match (match o with PAdd d => pool_add p d | PConsume d => consume p d end) with
  | Ok p' => p' | Exc _ => p
  end.
(* what one operation does to the number of dice of value k *)
Definition held_step (h : Z -> Z) (o : pool_op) : Z -> Z :=
  match o with
  | PAdd d => fun k => if (1 <=? d) && (d <=? 6) && (k =? d) then h k + 1 else h k
  | PConsume d => fun k => if (1 <=? d) && (d <=? 6) && (k =? d) && (0 <? h k) then h k - 1 else h k
  end.

(* ---------- lists of partial moves ---------- *)
(* one object has one content *)
Definition ids_ok (l : list pobj) : Prop := forall x y, In x l -> In y l -> fst x = fst y -> x = y.
(* a chequer that stays where it is hits nothing *)
Definition sane (pm : pmove) : Prop := src pm = dest pm -> is_hitting pm = false.
Definition forward (pm : pmove) : Prop := dest pm < src pm.
(* a forward step with a die, with ends on the board *)
Definition stepping (pm : pmove) : Prop := a_die (die pm) /\ forward pm /\ pm_ok pm.
(* dice used by a list, counting a take-back as minus one *)
Definition used (l : list pmove) (d : Z) : Z :=
  fold_right (fun pm n => (if die pm =? d then (if src pm <? dest pm then -1 else 1) else 0) + n) 0 l.

(* ---------- rules for one step ---------- *)
Definition wf_board (b : board) : Prop :=
  player (on_action b) /\ wf_side (fst (position b)) /\ wf_side (snd (position b)).
(* opponent's chequers on the mover's point t *)
Definition opposing (b : board) (t : Z) : Z := count (side b (other (on_action b))) (23 - t).
Definition legal (b : board) (p : pool) (s : Z) (pm : pmove) : Prop :=
  a_die (die pm) /\ held p (die pm) > 0 /\ src pm = s /\ 0 <= s <= 24 /\
  count (mover b) s > 0 /\ (count (mover b) 24 > 0 -> s = 24) /\
  ((s - die pm >= 0 /\ dest pm = s - die pm /\ opposing b (dest pm) < 2 /\
    (is_hitting pm = true <-> opposing b (dest pm) = 1)) \/
   (s - die pm < 0 /\ dest pm = -1 /\ is_hitting pm = false /\ may_bear_off (mover b) s (die pm))).

(* a chain of legal steps of one chequer from s to t; each step is played on
   the board, and with the dice, the previous one left *)
Inductive chain : board -> pool -> Z -> Z -> list pmove -> Prop :=
| chain_one b p s t pm : legal b p s pm -> dest pm = t -> chain b p s t [pm]
| chain_more b p s t pm b1 p1 l :
    legal b p s pm -> make_partial_move pm b = (b1, Ok tt) -> consume p (die pm) = Ok p1 ->
    chain b1 p1 (dest pm) t l -> chain b p s t (pm :: l).

(* dice left over from one roll: copies of one value, or at most one each of two *)
Definition roll_pool (p : pool) : Prop :=
  exists x y, (forall d, a_die d -> d <> x -> d <> y -> held p d = 0) /\
    (x = y \/ (held p x <= 1 /\ held p y <= 1)).

(* a chain of take-backs of moves in [played], lifting one chequer from s to t *)
Inductive undo_chain (played : list pmove) : Z -> Z -> list pmove -> Prop :=
| undo_one s t pm : In pm played -> dest pm = s -> src pm = t -> undo_chain played s t [inverse pm]
| undo_more s t pm l : In pm played -> dest pm = s -> src pm < t ->
    undo_chain played (src pm) t l -> undo_chain played s t (inverse pm :: l).
(* no chequer on the 24 points can step with these dice *)
Definition no_step (b : board) (p : pool) : Prop := forall s pm, 0 <= s <= 23 -> ~ legal b p s pm.
(* boards for examples *)
Definition opening31 : board := set_rolled (3, 1) ongoing.
Definition opening61 : board := set_rolled (6, 1) ongoing.
Definition one_side (l : list (Z * Z)) : list Z :=
  map (fun n => zsum (map (fun kv => if fst kv =? n then snd kv else 0) l)) (zrange 0 25).
(* chequers of the player on action at the listed points, the opponent's at the
   listed points of their own count *)
Definition sample (mine his : list (Z * Z)) (r : Z * Z) : board :=
  set_rolled r (set_position (one_side mine, one_side his) ongoing).
