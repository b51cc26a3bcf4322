(* Model of bglib/model/move.py.
   Simplifications: the print statements are dropped; the text of a
   MoveFactory.Error is dropped (a falsy Error is [None]), except that the calls
   made while building the text are kept when they can raise.  A PartialMove
   object is its identity paired with its contents, because Move.append removes
   by identity (list.remove on a class without __eq__). *)
From Verif Require Import Py UtilModel BoardModel.

(* ---------- AvailableToPlay ---------- *)
(* the dictionary _imp, as an association list *)
Definition pool := list (Z * Z).
Fixpoint dget (d : pool) (k : Z) : option Z :=
  match d with
  | [] => None
  | (k', v) :: d' => if k' =? k then Some v else dget d' k
  end.
Fixpoint dset (d : pool) (k v : Z) : pool :=
  match d with
  | [] => [(k, v)]
  | (k', v') :: d' => if k' =? k then (k, v) :: d' else (k', v') :: dset d' k v
  end.
(* move.py:19 *)
Definition empty_pool : pool := [(1, 0); (2, 0); (3, 0); (4, 0); (5, 0); (6, 0)].
(* move.py:14-30, rolled given *)
Definition new_pool (rolled : Z * Z) : pool :=
  if fst rolled =? 0 then empty_pool
  else if fst rolled =? snd rolled then dset empty_pool (fst rolled) 4
  else dset (dset empty_pool (fst rolled) 1) (snd rolled) 1.
(* key in [1, 2, 3, 4, 5, 6] *)
Definition is_die (k : Z) : bool := zmem k [1; 2; 3; 4; 5; 6].
(* move.py:32-34 *)
Definition pool_get (p : pool) (k : Z) : res Z :=
  if is_die k then match dget p k with Some v => Ok v | None => Exc KeyError end
  else Exc AssertionError.
(* move.py:36-38 *)
Definition pool_in (p : pool) (k : Z) : res bool :=
  let! v := pool_get p k in Ok (0 <? v).
(* move.py:44-48 *)
Definition pool_len (p : pool) : Z := zsum (map snd p).
(* move.py:50-55; the bare raise has no active exception: TypeError *)
Definition consume (p : pool) (k : Z) : res pool :=
  let! i := pool_in p k in
  if i then let! v := pool_get p k in Ok (dset p k (v - 1))
  else Exc TypeError.
(* move.py:57-59 *)
Definition pool_add (p : pool) (k : Z) : res pool :=
  let! v := pool_get p k in Ok (dset p k (v + 1)).
(* move.py:64-68 *)
Definition pool_is_doubles (p : pool) : bool := existsb (fun kv => 1 <? snd kv) p.
(* move.py:70-74 *)
Fixpoint max_in (p : pool) (l : list Z) : res (option Z) :=
  match l with
  | [] => Ok None
  | i :: l' => let! c := pool_in p i in if c then Ok (Some i) else max_in p l'
  end.
Definition get_max (p : pool) : res (option Z) := max_in p (zrange_down 6 0).

(* ---------- Move ---------- *)
(* move.py:101-102 *)
Definition is_dance (pm : pmove) : bool := src pm =? dest pm.
(* move.py:105-114 *)
Definition are_invertible (p q : pmove) : bool :=
  (die p =? die q) && (src p =? dest q) && (dest p =? src q) && Bool.eqb (is_hitting p) (is_hitting q).
(* a PartialMove object: identity and contents *)
Definition pobj := (nat * pmove)%type.
(* list.remove(p): drop the first element that is the object p *)
Fixpoint remove_obj (p : pobj) (l : list pobj) : list pobj :=
  match l with
  | [] => []
  | q :: l' => if Nat.eqb (fst q) (fst p) then l' else q :: remove_obj p l'
  end.
(* move.py:135-141 *)
Definition mv_append (l : list pobj) (pm : pobj) : list pobj :=
  match find (fun p => are_invertible (snd p) (snd pm)) (rev l) with
  | Some p => remove_obj p l
  | None => l ++ [pm]
  end.
(* move.py:143-146 *)
Definition mv_add (l : list pobj) (m : list pobj) : list pobj := fold_left mv_append m l.
(* move.py:148-151, the first value of the generator *)
Definition mv_find_first (l : list pobj) (d : Z) : option pobj :=
  find (fun p => dest (snd p) =? d) (rev l).

(* ---------- MoveFactory ---------- *)
Record factory := mkFac { fboard : board; fmove : list pobj; favail : pool }.
(* move.py:171-183; an empty move or an empty pool is falsy *)
Definition new_factory (b : board) (move : option (list pobj)) (available : option pool) : factory :=
  mkFac b
    (match move with Some m => m | None => [] end)
    (match available with
     | Some p => if pool_len p =? 0 then new_pool (rolled b) else p
     | None => new_pool (rolled b)
     end).

(* move.py:189-196 *)
Definition fac_append (f : factory) (pm : pobj) : factory * res unit :=
  let f1 := mkFac (fboard f) (mv_append (fmove f) pm) (favail f) in
  match (if is_undo (snd pm) then pool_add (favail f) (die (snd pm))
         else consume (favail f) (die (snd pm))) with
  | Exc e => (f1, Exc e)
  | Ok p =>
      let (b', r) := make_partial_move (snd pm) (fboard f) in
      (mkFac b' (fmove f1) p, r)
  end.
(* move.py:198-201 *)
Fixpoint fac_add (f : factory) (m : list pobj) : factory * res unit :=
  match m with
  | [] => (f, Ok tt)
  | pm :: m' => match fac_append f pm with
                | (f', Ok _) => fac_add f' m'
                | (f', Exc e) => (f', Exc e)
                end
  end.

(* move.py:258-304; recursion on fuel, [OutOfFuel] when it runs out *)
Fixpoint single_from_source (fuel : nat) (b : board) (available : pool) (s : Z) : res (option pmove) :=
  match fuel with
  | O => Exc OutOfFuel
  | S fuel' =>
    let! m := get_max available in
    match m with
    | None => Ok None
    | Some d =>
      let! c := has_chequer_to_move b s in
      if c =? 0 then Ok None else
      let t := s - d in
      if t <? 0 then
        let! ok := is_ok_to_bearoff_from b s d in
        if ok then Ok (Some (mkPM d s OFF false))
        else
          let! av := consume available d in
          if pool_len available =? 0 then Ok None
          else single_from_source fuel' b av s
      else if zmem t POINTS then
        let! o := is_open_to_land b t in
        if o then let! h := is_hitting_to_land b t in Ok (Some (mkPM d s t h))
        else let! av := consume available d in single_from_source fuel' b av s
      else Ok None
    end
  end.
(* enough fuel: one more than the dice in the pool *)
Definition pool_fuel (p : pool) : nat := S (Z.to_nat (zsum (map (fun kv => Z.max 0 (snd kv)) p))).
Definition guess_single_from_source (b : board) (available : pool) (s : Z) : res (option pmove) :=
  single_from_source (pool_fuel available) b available s.

(* move.py:306-344; the pool passed in is consumed in place when dest = -1, so
   it is returned *)
Fixpoint single_from_dest (fuel : nat) (b : board) (available : pool) (t : Z) : pool * res (option pmove) :=
  match fuel with
  | O => (available, Exc OutOfFuel)
  | S fuel' =>
    match get_max available with
    | Exc e => (available, Exc e)
    | Ok None => (available, Ok None)
    | Ok (Some d) =>
      if t =? -1 then
        match find_src_of_bearoff_with b d with
        | Exc e => (available, Exc e)
        | Ok (Some s) => (available, Ok (Some (mkPM d s t false)))
        | Ok None =>
            match consume available d with
            | Exc e => (available, Exc e)
            | Ok av => single_from_dest fuel' b av t
            end
        end
      else if zmem t POINTS then
        match is_open_to_land b t with
        | Exc e => (available, Exc e)
        | Ok false => (available, Ok None)
        | Ok true =>
            match has_chequer_to_move b (t + d) with
            | Exc e => (available, Exc e)
            | Ok c =>
                if c =? 0 then
                  (* a fresh copy is consumed: the caller's pool stays *)
                  match consume available d with
                  | Exc e => (available, Exc e)
                  | Ok av => (available, snd (single_from_dest fuel' b av t))
                  end
                else
                  match is_hitting_to_land b t with
                  | Exc e => (available, Exc e)
                  | Ok h => (available, Ok (Some (mkPM d (t + d) t h)))
                  end
            end
        end
      else (available, Exc AssertionError)
    end
  end.
Definition guess_single_from_dest (b : board) (available : pool) (t : Z) : pool * res (option pmove) :=
  single_from_dest (pool_fuel available) b available t.

(* move.py:384 and 226, 412: the inverse partial move *)
Definition inv_pm (pm : pmove) : pmove := mkPM (die pm) (dest pm) (src pm) (is_hitting pm).
(* an unused identity *)
Definition fresh (l : list pobj) : nat := S (fold_right (fun p n => Nat.max (fst p) n) O l).

(* move.py:346-397; board and pool are mutated in place, so both are returned *)
Fixpoint multiple_pms (fuel : nat) (b : board) (available : pool) (mv : list pobj) (s t : Z)
  : board * pool * res (option (list pobj)) :=
  match fuel with
  | O => (b, available, Exc OutOfFuel)
  | S fuel' =>
    if negb (t <? s) then (b, available, Exc AssertionError) else
    match guess_single_from_source b available s with
    | Exc e => (b, available, Exc e)
    | Ok None => (b, available, Ok None)
    | Ok (Some pm) =>
      if negb (src pm =? s) then (b, available, Exc AssertionError)
      else if dest pm =? t then (b, available, Ok (Some (mv_append mv (fresh mv, pm))))
      else if t <? dest pm then
        let mv1 := mv_append mv (fresh mv, pm) in
        match consume available (die pm) with
        | Exc e => (b, available, Exc e)
        | Ok av =>
          match make_partial_move pm b with
          | (b1, Exc e) => (b1, av, Exc e)
          | (b1, Ok _) =>
            match multiple_pms fuel' b1 av mv1 (dest pm) t with
            | (b2, av2, Exc e) => (b2, av2, Exc e)
            | (b2, av2, Ok r) =>
                match make_partial_move (inv_pm pm) b2 with
                | (b3, Exc e) => (b3, av2, Exc e)
                | (b3, Ok _) => (b3, av2, Ok r)
                end
            end
          end
        end
      else
        match consume available (die pm) with
        | Exc e => (b, available, Exc e)
        | Ok av => multiple_pms fuel' b av mv s t
        end
    end
  end.
Definition guess_multiple_pms (b : board) (available : pool) (s t : Z) :=
  multiple_pms (pool_fuel available) b available [] s t.

(* move.py:399-425 on factory f; returns the board it leaves behind.  The pool
   is a private copy unless the caller passes one, and is not read: it is
   dropped, but the assertion of add on the die is kept. *)
Fixpoint partial_undoes (fuel : nat) (played : list pobj) (b : board) (mv : list pobj) (s t : Z)
  : board * res (option (list pobj)) :=
  match fuel with
  | O => (b, Exc OutOfFuel)
  | S fuel' =>
    if negb (s <? t) then (b, Exc AssertionError) else
    match mv_find_first played s with
    | None => (b, let! _ := move_ntop s in let! _ := move_ntop t in Ok None)
    | Some (_, pm) =>
        let i := inv_pm pm in
        let mv1 := mv_append mv (fresh mv, i) in
        if dest i =? t then (b, Ok (Some mv1))
        else if dest i <? t then
          match make_partial_move i b with
          | (b1, Exc e) => (b1, Exc e)
          | (b1, Ok _) =>
              if is_die (die i) then partial_undoes fuel' played b1 mv1 (dest i) t
              else (b1, Exc AssertionError)
          end
        else (b, let! _ := move_ntop s in let! _ := move_ntop t in Ok None)
    end
  end.
Definition guess_partial_undoes (f : factory) (s t : Z) : board * res (option (list pobj)) :=
  partial_undoes (S (Z.to_nat (t - s))) (fmove f) (fboard f) [] s t.

(* move.py:427-446; consume and make_partial_move return None, so the second
   search runs with b=None, available=None, that is on self.board (already
   mutated) and a copy of self.available (undiminished) *)
Definition making_point (f : factory) (t : Z) : board * res (option (list pmove)) :=
  match snd (guess_single_from_dest (fboard f) (favail f) t) with
  | Exc e => (fboard f, Exc e)
  | Ok None => (fboard f, Ok None)
  | Ok (Some pm) =>
      match consume (new_pool (rolled (fboard f))) (die pm) with
      | Exc e => (fboard f, Exc e)
      | Ok _ =>
          match make_partial_move pm (fboard f) with
          | (b1, Exc e) => (b1, Exc e)
          | (b1, Ok _) =>
              (b1, match snd (guess_single_from_dest b1 (favail f) t) with
                   | Exc e => Exc e
                   | Ok None => Ok None
                   | Ok (Some pm2) => Ok (Some [pm; pm2])
                   end)
          end
      end
  end.

(* for pt in pts: if b.has_chequer_to_move(pt): if guess_single(pt): return True *)
Fixpoint any_single (b : board) (available : pool) (pts : list Z) : res bool :=
  match pts with
  | [] => Ok false
  | pt :: pts' =>
      let! c := has_chequer_to_move b pt in
      if c =? 0 then any_single b available pts' else
      let! g := guess_single_from_source b available pt in
      match g with Some _ => Ok true | None => any_single b available pts' end
  end.
(* move.py:237-243, the loop over dst for one src; the board may be left
   changed by an exception *)
Fixpoint any_double_dst (b : board) (available : pool) (s : Z) (dsts : list Z) : board * res bool :=
  match dsts with
  | [] => (b, Ok false)
  | t :: dsts' =>
      match (let! o := is_open_to_land b t in
             if o then Ok true else is_hitting_to_land b t) with
      | Exc e => (b, Exc e)
      | Ok false => any_double_dst b available s dsts'
      | Ok true =>
          match guess_multiple_pms b available s t with
          | (b', _, Exc e) => (b', Exc e)
          | (b', _, Ok (Some l)) => if Nat.eqb (List.length l) 2 then (b', Ok true)
                                    else any_double_dst b' available s dsts'
          | (b', _, Ok None) => any_double_dst b' available s dsts'
          end
      end
  end.
(* move.py:235-243 *)
Fixpoint any_double (b : board) (available : pool) (srcs : list Z) : board * res bool :=
  match srcs with
  | [] => (b, Ok false)
  | s :: srcs' =>
      match has_chequer_to_move b s with
      | Exc e => (b, Exc e)
      | Ok c =>
          if c =? 0 then any_double b available srcs'
          else match any_double_dst b available s (zrange 0 s) with
               | (b', Ok false) => any_double b' available srcs'
               | r => r
               end
      end
  end.
(* move.py:225-226: the inverses, as fresh objects *)
Fixpoint inverses_from (n : nat) (l : list pobj) : list pobj :=
  match l with
  | [] => []
  | (_, pm) :: l' => (n, inv_pm pm) :: inverses_from (S n) l'
  end.

(* move.py:203-256; returns the board it leaves behind (shared with mf) *)
Definition is_leagal_to_pickup_dice (f : factory) : board * res bool :=
  let b := fboard f in
  if zpair_eqb (rolled b) (0, 0) then (b, Exc AssertionError) else
  if pool_len (favail f) =? 0 then (b, Ok true) else
  match has_chequer_to_move b BAR with
  | Exc e => (b, Exc e)
  | Ok onbar =>
    match (if onbar =? 0 then Ok (Some (mkPM 0 0 0 false)) else guess_single_from_source b (favail f) BAR) with
    | Exc e => (b, Exc e)
    | Ok None => (b, Ok true)
    | Ok (Some _) =>
      match any_single b (favail f) POINTS with
      | Exc e => (b, Exc e)
      | Ok true => (b, Ok false)
      | Ok false =>
        match is_doubles b with
        | Exc e => (b, Exc e)
        | Ok true => (b, Ok true)
        | Ok false =>
          let mf := new_factory b (Some (fmove f)) (Some (favail f)) in
          match fac_add mf (inverses_from (fresh (fmove f)) (fmove mf)) with
          | (mf1, Exc e) => (fboard mf1, Exc e)
          | (mf1, Ok _) =>
            if negb (Nat.eqb (List.length (fmove mf1)) 0) then (fboard mf1, Exc AssertionError) else
            match any_double (fboard mf1) (favail mf1) POINTS with
            | (b2, Exc e) => (b2, Exc e)
            | (b2, Ok true) => (b2, Ok false)
            | (b2, Ok false) =>
              (b2,
               let! m := get_max (favail f) in
               let! m1 := get_max (favail mf1) in
               match m, m1 with
               | Some x, Some y =>
                   if negb (x =? y) then Ok true
                   else let! r := any_single b2 (new_pool (y, 0)) POINTS in Ok (negb r)
               | None, None => Ok true  (* AvailableToPlay((None, 0)) has no die to play *)
               | _, _ => Ok true
               end)
            end
          end
        end
      end
    end
  end.
(* move.py:185-187 *)
Definition fac_pickupdice (f : factory) : board * res unit :=
  match is_leagal_to_pickup_dice f with
  | (b, Exc e) => (b, Exc e)
  | (b, Ok false) => (b, Exc AssertionError)
  | (b, Ok true) => pickupdice b
  end.
