(* Model of bglib/model/board.py and bglib/model/boardeditor.py.
   Simplifications: field values are typed as the library itself uses them
   (position = pair of integer sequences, score/rolled = pairs of integers,
   crawford/doubled = booleans, the rest integers); the print statements of
   BoardEditor are dropped; a frozen Board and an editor share one record of
   twelve fields, the class is kept in [obj]. *)
From Verif Require Import Py UtilModel.

(* board.py:13-26, the keys of AbstractBoard.defaults *)
Record board := mkBoard {
  position : list Z * list Z;
  cube_in_logarithm : Z;
  cube_owner : Z;
  on_action : Z;
  crawford : bool;
  game_state : Z;
  on_inner_action : Z;
  doubled : bool;
  resign_offer : Z;
  rolled : Z * Z;
  match_length : Z;
  score : Z * Z }.

(* board.py:13-26 *)
Definition default_board : board :=
  mkBoard INITIAL_POSITION 0 CENTER YOU false NOT_STARTED YOU false RESIGN_NONE (0, 0) 0 (0, 0).

(* attribute assignment on the field record: boardeditor.py:35-37 *)
Definition set_position v b := mkBoard v (cube_in_logarithm b) (cube_owner b) (on_action b) (crawford b) (game_state b) (on_inner_action b) (doubled b) (resign_offer b) (rolled b) (match_length b) (score b).
Definition set_cube_in_logarithm v b := mkBoard (position b) v (cube_owner b) (on_action b) (crawford b) (game_state b) (on_inner_action b) (doubled b) (resign_offer b) (rolled b) (match_length b) (score b).
Definition set_cube_owner v b := mkBoard (position b) (cube_in_logarithm b) v (on_action b) (crawford b) (game_state b) (on_inner_action b) (doubled b) (resign_offer b) (rolled b) (match_length b) (score b).
Definition set_on_action v b := mkBoard (position b) (cube_in_logarithm b) (cube_owner b) v (crawford b) (game_state b) (on_inner_action b) (doubled b) (resign_offer b) (rolled b) (match_length b) (score b).
Definition set_crawford v b := mkBoard (position b) (cube_in_logarithm b) (cube_owner b) (on_action b) v (game_state b) (on_inner_action b) (doubled b) (resign_offer b) (rolled b) (match_length b) (score b).
Definition set_game_state v b := mkBoard (position b) (cube_in_logarithm b) (cube_owner b) (on_action b) (crawford b) v (on_inner_action b) (doubled b) (resign_offer b) (rolled b) (match_length b) (score b).
Definition set_on_inner_action v b := mkBoard (position b) (cube_in_logarithm b) (cube_owner b) (on_action b) (crawford b) (game_state b) v (doubled b) (resign_offer b) (rolled b) (match_length b) (score b).
Definition set_doubled v b := mkBoard (position b) (cube_in_logarithm b) (cube_owner b) (on_action b) (crawford b) (game_state b) (on_inner_action b) v (resign_offer b) (rolled b) (match_length b) (score b).
Definition set_resign_offer v b := mkBoard (position b) (cube_in_logarithm b) (cube_owner b) (on_action b) (crawford b) (game_state b) (on_inner_action b) (doubled b) v (rolled b) (match_length b) (score b).
Definition set_rolled v b := mkBoard (position b) (cube_in_logarithm b) (cube_owner b) (on_action b) (crawford b) (game_state b) (on_inner_action b) (doubled b) (resign_offer b) v (match_length b) (score b).
Definition set_match_length v b := mkBoard (position b) (cube_in_logarithm b) (cube_owner b) (on_action b) (crawford b) (game_state b) (on_inner_action b) (doubled b) (resign_offer b) (rolled b) v (score b).
Definition set_score v b := mkBoard (position b) (cube_in_logarithm b) (cube_owner b) (on_action b) (crawford b) (game_state b) (on_inner_action b) (doubled b) (resign_offer b) (rolled b) (match_length b) v.

(* ---------- objects and construction ---------- *)

(* one keyword argument / attribute assignment; [KOther name] is any name that
   is not one of the twelve fields *)
Inductive assign : Type :=
| KPosition (v : list Z * list Z) | KCube (v : Z) | KOwner (v : Z) | KOnAction (v : Z)
| KCrawford (v : bool) | KState (v : Z) | KInner (v : Z) | KDoubled (v : bool)
| KResign (v : Z) | KRolled (v : Z * Z) | KLength (v : Z) | KScore (v : Z * Z)
| KOther (name : str).
Definition assign_field (a : assign) (b : board) : board :=
  match a with
  | KPosition v => set_position v b | KCube v => set_cube_in_logarithm v b
  | KOwner v => set_cube_owner v b | KOnAction v => set_on_action v b
  | KCrawford v => set_crawford v b | KState v => set_game_state v b
  | KInner v => set_on_inner_action v b | KDoubled v => set_doubled v b
  | KResign v => set_resign_offer v b | KRolled v => set_rolled v b
  | KLength v => set_match_length v b | KScore v => set_score v b
  | KOther _ => b
  end.
Definition is_other (a : assign) : bool := match a with KOther _ => true | _ => false end.

(* An object: a frozen Board (board.py:195) or a BoardEditor (boardeditor.py:14)
   whose dictionary may hold extra names assigned by the user. *)
Inductive obj : Type :=
| OBoard (b : board)
| OEditor (b : board) (extra : list str).

(* board.py:199-208  Board with keywords kw: unknown key -> AssertionError *)
Definition new_board (kw : list assign) : res obj :=
  if existsb is_other kw then Exc AssertionError
  else Ok (OBoard (fold_left (fun b a => assign_field a b) kw default_board)).
(* boardeditor.py:15-30  unknown keywords are ignored; a BoardEditor source is
   copied with its dictionary *)
Definition new_editor (src : option obj) (kw : list assign) : obj :=
  let (b, extra) := match src with
                    | None => (default_board, [])
                    | Some (OBoard b) => (b, [])
                    | Some (OEditor b extra) => (b, extra)
                    end in
  OEditor (fold_left (fun b a => assign_field a b) kw b) extra.
(* board.py:210-211 and boardeditor.py:35-37 *)
Definition obj_setattr (o : obj) (a : assign) : obj * res unit :=
  match o with
  | OBoard b => (o, Exc TypeError)
  | OEditor b extra =>
      match a with
      | KOther n => (OEditor b (n :: extra), Ok tt)
      | _ => (OEditor (assign_field a b) extra, Ok tt)
      end
  end.
(* boardeditor.py:39-40  Board built from the keywords self._d.  Called on a frozen board: no such
   method, AttributeError *)
Definition obj_freeze (o : obj) : res obj :=
  match o with
  | OBoard _ => Exc AttributeError
  | OEditor b [] => Ok (OBoard b)
  | OEditor b (_ :: _) => Exc AssertionError
  end.

(* board.py:35-37, the comparison of the twelve fields *)
Definition board_eqb (a b : board) : bool :=
  zlist_eqb (fst (position a)) (fst (position b)) &&
  zlist_eqb (snd (position a)) (snd (position b)) &&
  (cube_in_logarithm a =? cube_in_logarithm b) &&
  (cube_owner a =? cube_owner b) &&
  (on_action a =? on_action b) &&
  Bool.eqb (crawford a) (crawford b) &&
  (game_state a =? game_state b) &&
  (on_inner_action a =? on_inner_action b) &&
  Bool.eqb (doubled a) (doubled b) &&
  (resign_offer a =? resign_offer b) &&
  zpair_eqb (rolled a) (rolled b) &&
  (match_length a =? match_length b) &&
  zpair_eqb (score a) (score b).
(* board.py:32-38 *)
Definition obj_eq (x y : obj) : res bool :=
  match x, y with
  | OBoard a, OBoard b => Ok (board_eqb a b)
  | OEditor a _, OEditor b _ => Ok (board_eqb a b)
  | _, _ => Exc TypeError
  end.
(* board.py:40-46 *)
Definition obj_ne (x y : obj) : res bool :=
  match x, y with
  | OBoard a, OBoard b => Ok (negb (board_eqb a b))
  | OEditor a _, OEditor b _ => Ok (negb (board_eqb a b))
  | _, _ => Exc TypeError
  end.

(* ---------- queries ---------- *)

(* board.py:49-52 and 73-76: the local names to_move, to_hit; unbound when
   on_action is no player *)
Definition sides (b : board) : option (list Z * list Z) :=
  if on_action b =? YOU then Some (fst (position b), snd (position b))
  else if on_action b =? HIM then Some (snd (position b), fst (position b))
  else None.

(* board.py:48-57 *)
Definition is_open_to_land (b : board) (n : Z) : res bool :=
  if zmem n POINTS then
    match sides b with
    | None => Exc UnboundLocalError
    | Some (_, to_hit) => let! v := pyget to_hit (flip_point n) in Ok (v <? 2)
    end
  else if n =? -1 then Ok true else Exc AssertionError.

(* board.py:59-70; False is the integer 0 *)
Definition has_chequer_to_move (b : board) (n : Z) : res Z :=
  match sides b with
  | None => Exc AssertionError
  | Some (to_move, _) =>
      let! bar := pyget to_move BAR in
      if bar =? 0 then pyget to_move n
      else if n =? BAR then pyget to_move n
      else Ok 0
  end.

(* board.py:72-81 *)
Definition is_hitting_to_land (b : board) (n : Z) : res bool :=
  if zmem n POINTS then
    match sides b with
    | None => Exc UnboundLocalError
    | Some (_, to_hit) => let! v := pyget to_hit (flip_point n) in Ok (v =? 1)
    end
  else if n =? -1 then Ok false else Exc AssertionError.

(* for i in l: if self.has_chequer_to_move(i): return ...   (first hit wins) *)
Fixpoint first_chequer (b : board) (l : list Z) : res (option Z) :=
  match l with
  | [] => Ok None
  | i :: l' => let! c := has_chequer_to_move b i in
               if c =? 0 then first_chequer b l' else Ok (Some i)
  end.

(* board.py:83-98 *)
Definition is_ok_to_bearoff_from (b : board) (n die : Z) : res bool :=
  if n + 1 <? die then
    let! f := first_chequer b (zrange (n + 1) (BAR + 1)) in
    Ok (match f with Some _ => false | None => true end)
  else if n + 1 =? die then
    let! f := first_chequer b NONE_BEAROFF_POINTS in
    match f with
    | Some _ => Ok false
    | None => let! c := has_chequer_to_move b n in Ok (negb (c =? 0))
    end
  else Ok false.

(* board.py:100-107 *)
Definition is_leagal_to_roll (b : board) (who : Z) : bool :=
  (game_state b =? ON_GOING) && (resign_offer b =? RESIGN_NONE) &&
  zpair_eqb (rolled b) (0, 0) && (on_action b =? who) && (on_inner_action b =? who).

(* board.py:109-120 *)
Definition is_leagal_to_move (b : board) (who : Z) : bool :=
  (game_state b =? ON_GOING) && (on_action b =? who) && (on_inner_action b =? who) &&
  (resign_offer b =? RESIGN_NONE) && negb (zpair_eqb (rolled b) (0, 0)).

(* board.py:122-125 *)
Definition has_rolled (b : board) : bool := negb (zpair_eqb (rolled b) (0, 0)).
(* board.py:127-129 *)
Definition is_doubles (b : board) : res bool :=
  if has_rolled b then Ok (fst (rolled b) =? snd (rolled b)) else Exc AssertionError.

(* board.py:131-133 *)
Definition is_cube_take_or_pass (b : board) (who : Z) : bool :=
  doubled b && negb (on_inner_action b =? on_action b) && (on_inner_action b =? who).

(* board.py:135-147 *)
Definition find_src_of_bearoff_with (b : board) (die : Z) : res (option Z) :=
  let! f := first_chequer b NONE_BEAROFF_POINTS in
  match f with
  | Some _ => Ok None
  | None =>
    let! c := has_chequer_to_move b (die - 1) in
    if negb (c =? 0) then Ok (Some (die - 1)) else
    let! g := first_chequer b (zrange (die - 1) 6) in
    match g with
    | Some _ => Ok None
    | None => first_chequer b (zrange_down die 0)
    end
  end.

(* board.py:149-177; pow(2, cube) is only evaluated in match play *)
Definition is_leagal_to_double (b : board) (who : Z) : res bool :=
  if negb (zpair_eqb (rolled b) (0, 0)) then Exc AssertionError
  else if negb (game_state b =? ON_GOING) then Exc AssertionError
  else if crawford b then Ok false
  else if doubled b then Ok false
  else if on_action b =? YOU then
    if negb (who =? YOU) then Ok false
    else if on_inner_action b =? YOU then
      if match_length b =? MONEY_GAME then Ok true
      else let! p := pypow2 (cube_in_logarithm b) in
           Ok (fst (score b) <=? match_length b - p)
    else Ok false
  else if on_action b =? HIM then
    if negb (who =? HIM) then Ok false
    else if on_inner_action b =? HIM then
      if match_length b =? MONEY_GAME then Ok true
      else let! p := pypow2 (cube_in_logarithm b) in
           Ok (snd (score b) <? match_length b - p)
    else Ok false
  else Exc AssertionError.

(* board.py:179-182 *)
Definition is_leagal_to_redouble (b : board) (who : Z) : bool :=
  is_cube_take_or_pass b who && (match_length b =? MONEY_GAME).
(* board.py:184-185 *)
Definition is_leagal_to_resign (b : board) (who : Z) : bool :=
  (on_action b =? who) && (on_inner_action b =? who).
(* board.py:187-192 *)
Definition is_to_accept_resign (b : board) (who : Z) : bool :=
  zmem (resign_offer b) RESIGN_TYPES && (on_inner_action b =? who).

(* ---------- edits (methods of BoardEditor) ---------- *)

(* boardeditor.py:42-65; mutation happens field by field, so a failing assert
   leaves the earlier assignments in place *)
Definition flip_owner (v : Z) : Z := if v =? YOU then HIM else if v =? HIM then YOU else v.
Definition is_side (v : Z) : bool := (v =? YOU) || (v =? HIM) || (v =? CENTER).
Definition flip (b : board) : board * res unit :=
  if negb (is_side (cube_owner b)) then (b, Exc AssertionError) else
  let b := set_cube_owner (flip_owner (cube_owner b)) b in
  let b := set_score (snd (score b), fst (score b)) b in
  let b := set_position (snd (position b), fst (position b)) b in
  if negb (is_side (on_inner_action b)) then (b, Exc AssertionError) else
  let b := set_on_inner_action (flip_owner (on_inner_action b)) b in
  if negb (is_side (on_action b)) then (b, Exc AssertionError) else
  (set_on_action (flip_owner (on_action b)) b, Ok tt).

(* move.py:87-92 PartialMove *)
Record pmove := mkPM { die : Z; src : Z; dest : Z; is_hitting : bool }.
(* move.py:103-104 *)
Definition is_undo (pm : pmove) : bool := src pm <? dest pm.

(* boardeditor.py:74-86: the new pair (to_move, to_hit) *)
Definition move_sides (pm : pmove) (to_move to_hit : list Z) : res (list Z * list Z) :=
  let! m1 := (if OFF <? src pm then pyadd to_move (src pm) (-1) else Ok to_move) in
  let! m2 := (if OFF <? dest pm then pyadd m1 (dest pm) 1 else Ok m1) in
  if is_hitting pm then
    if is_undo pm then
      let! h1 := pyadd to_hit (flip_point (src pm)) 1 in
      let! h2 := pyadd h1 BAR (-1) in Ok (m2, h2)
    else
      let! h1 := pyadd to_hit (flip_point (dest pm)) (-1) in
      let! h2 := pyadd h1 BAR 1 in Ok (m2, h2)
  else Ok (m2, to_hit).

(* boardeditor.py:67-92 *)
Definition make_partial_move (pm : pmove) (b : board) : board * res unit :=
  match sides b with
  | None => (b, Exc AssertionError)
  | Some (to_move, to_hit) =>
      match move_sides pm to_move to_hit with
      | Exc e => (b, Exc e)
      | Ok (m, h) =>
          if on_action b =? YOU then (set_position (m, h) b, Ok tt)
          else (set_position (h, m) b, Ok tt)
      end
  end.

(* boardeditor.py:94-96 *)
Fixpoint make_all (pms : list pmove) (b : board) : board * res unit :=
  match pms with
  | [] => (b, Ok tt)
  | pm :: pms' => match make_partial_move pm b with
                  | (b', Ok _) => make_all pms' b'
                  | (b', Exc e) => (b', Exc e)
                  end
  end.

(* boardeditor.py:98-101 *)
Definition double (who : Z) (b : board) : board * res unit :=
  match is_leagal_to_double b who with
  | Exc e => (b, Exc e)
  | Ok false => (b, Exc AssertionError)
  | Ok true =>
      match get_opp who with
      | Exc e => (b, Exc e)
      | Ok o => (set_doubled true (set_on_inner_action o b), Ok tt)
      end
  end.
(* boardeditor.py:103-104 *)
Definition redouble (b : board) : board * res unit := (b, Ok tt).
(* boardeditor.py:106-109 *)
Definition take (who : Z) (b : board) : board * res unit :=
  if is_cube_take_or_pass b who then (set_on_inner_action (on_action b) b, Ok tt)
  else (b, Exc AssertionError).

(* self.score[i] for the score pair *)
Definition score_get (b : board) (i : Z) : res Z := pyget [fst (score b); snd (score b)] i.
(* tuple(new) where new is the two-element list *)
Definition pair_of (l : list Z) : res (Z * Z) :=
  match l with [x; y] => Ok (x, y) | _ => Exc Unmodelled end.

(* boardeditor.py:111-117 *)
Definition drop (who : Z) (b : board) : board * res unit :=
  if negb (is_cube_take_or_pass b who) then (b, Exc AssertionError) else
  let b := set_game_state DOUBLED_OUT b in
  match (let! s := score_get b who in
         let! new := pyset [0; 0] who s in
         let! o := get_opp who in
         let! so := score_get b o in
         let! p := pypow2 (cube_in_logarithm b) in
         let! new := pyset new o (so + p) in pair_of new) with
  | Exc e => (b, Exc e)
  | Ok sc => (set_score sc b, Ok tt)
  end.

(* boardeditor.py:119-126 *)
Definition offer_resign (who how_much : Z) (b : board) : board * res unit :=
  if negb (is_leagal_to_resign b who) then (b, Exc AssertionError)
  else if negb (zmem how_much RESIGN_TYPES) then (b, Exc AssertionError)
  else
    let b := set_resign_offer how_much b in
    match get_opp who with
    | Exc e => (b, Exc e)
    | Ok o => (set_on_inner_action o b, Ok tt)
    end.

(* boardeditor.py:128-134 *)
Definition accept_resign (who : Z) (b : board) : board * res unit :=
  if negb (is_to_accept_resign b who) then (b, Exc AssertionError) else
  let b := set_game_state RESIGNED b in
  match (let! s := score_get b who in
         let! p := pypow2 (cube_in_logarithm b) in
         let! new := pyset [0; 0] who (s + resign_offer b * p) in
         let! o := get_opp who in
         let! so := score_get b o in
         let! new := pyset new o so in pair_of new) with
  | Exc e => (b, Exc e)
  | Ok sc => (set_score sc b, Ok tt)
  end.

(* boardeditor.py:136-139 *)
Definition reject_resign (who : Z) (b : board) : board * res unit :=
  if negb (is_to_accept_resign b who) then (b, Exc AssertionError) else
  match get_opp who with
  | Exc e => (b, Exc e)
  | Ok o => (set_resign_offer RESIGN_NONE (set_on_inner_action o b), Ok tt)
  end.

(* boardeditor.py:142-147 *)
Definition pickupdice (b : board) : board * res unit :=
  let b := set_rolled (0, 0) b in
  match get_opp (on_action b) with
  | Exc e => (b, Exc e)
  | Ok o =>
      let b := set_on_action o b in
      match get_opp (on_inner_action b) with
      | Exc e => (b, Exc e)
      | Ok i => (set_on_inner_action i b, Ok tt)
      end
  end.

(* the calls a game client makes on an editor; [ARoll] is the assignment
   editor.rolled = (d1, d2) *)
Inductive action : Type :=
| ADouble (who : Z) | ARedouble | ATake (who : Z) | ADrop (who : Z)
| AOffer (who k : Z) | AAccept (who : Z) | AReject (who : Z)
| APickup | ARoll (d : Z * Z) | AMove (pm : pmove).
Definition act (a : action) (b : board) : board * res unit :=
  match a with
  | ADouble w => double w b | ARedouble => redouble b | ATake w => take w b
  | ADrop w => drop w b | AOffer w k => offer_resign w k b
  | AAccept w => accept_resign w b | AReject w => reject_resign w b
  | APickup => pickupdice b | ARoll d => (set_rolled d b, Ok tt)
  | AMove pm => make_partial_move pm b
  end.
(* a client session: an exception from one call does not stop the next *)
Fixpoint acts (l : list action) (b : board) : board :=
  match l with [] => b | a :: l' => acts l' (fst (act a b)) end.

(* ---------- a heap of objects, for aliasing ---------- *)
(* Objects live at indices of [objs].  A frozen board holds its own slots
   (board.py:199-208, __slots__); an editor holds a reference to a dictionary
   (boardeditor.py:30).  dicts[0] is the class attribute
   AbstractBoard.defaults (board.py:13). *)
Definition dict := (board * list str)%type.
Inductive hobj : Type := HBoard (b : board) | HEditor (addr : nat).
Record heap := mkHeap { objs : list hobj; dicts : list dict }.
Definition heap_init : heap := mkHeap [] [(default_board, [])].

Inductive hop : Type :=
| HNewBoard (kw : list assign)
| HNewEditor (from : option nat) (kw : list assign)
| HSet (i : nat) (a : assign)
| HFreeze (i : nat)
| HAct (i : nat) (a : action)
| HFlip (i : nat).

(* what getattr shows of object i *)
Definition view (h : heap) (i : nat) : option obj :=
  match nth_error (objs h) i with
  | None => None
  | Some (HBoard b) => Some (OBoard b)
  | Some (HEditor k) => match nth_error (dicts h) k with
                        | Some (b, extra) => Some (OEditor b extra)
                        | None => None
                        end
  end.
(* board.py:201  x = dict(self.defaults), then overridden by the keywords *)
Definition h_new_board (h : heap) (kw : list assign) : heap * res nat :=
  match nth_error (dicts h) 0 with
  | None => (h, Exc NameError)
  | Some (dflt, _) =>
      if existsb is_other kw then (h, Exc AssertionError)
      else (mkHeap (objs h ++ [HBoard (fold_left (fun b a => assign_field a b) kw dflt)]) (dicts h),
            Ok (List.length (objs h)))
  end.
(* boardeditor.py:15-30: the dictionary d is a fresh copy in every branch
   (lines 17, 21, 23), updated with the keywords *)
Definition h_new_editor (h : heap) (d : dict) (kw : list assign) : heap * res nat :=
  (mkHeap (objs h ++ [HEditor (List.length (dicts h))])
          (dicts h ++ [(fold_left (fun b a => assign_field a b) kw (fst d), snd d)]),
   Ok (List.length (objs h))).
(* a write through an editor goes to its dictionary; a frozen board has no
   such method (AttributeError) and its __setattr__ raises TypeError *)
Definition h_upd (h : heap) (i : nat) (frozen : exn) (f : dict -> dict * res unit) : heap * res nat :=
  match nth_error (objs h) i with
  | None => (h, Exc NameError)
  | Some (HBoard _) => (h, Exc frozen)
  | Some (HEditor k) =>
      match nth_error (dicts h) k with
      | None => (h, Exc NameError)
      | Some d => let (d', r) := f d in
                  (mkHeap (objs h) (list_set (dicts h) k d'),
                   match r with Ok _ => Ok i | Exc e => Exc e end)
      end
  end.
Definition on_fields (f : board -> board * res unit) (d : dict) : dict * res unit :=
  let (b', r) := f (fst d) in ((b', snd d), r).
(* boardeditor.py:35-37 *)
Definition d_setattr (a : assign) (d : dict) : dict * res unit :=
  match a with
  | KOther n => ((fst d, n :: snd d), Ok tt)
  | _ => ((assign_field a (fst d), snd d), Ok tt)
  end.
Definition hstep (h : heap) (op : hop) : heap * res nat :=
  match op with
  | HNewBoard kw => h_new_board h kw
  | HNewEditor None kw =>
      match nth_error (dicts h) 0 with
      | None => (h, Exc NameError)
      | Some d => h_new_editor h d kw
      end
  | HNewEditor (Some i) kw =>
      match view h i with
      | None => (h, Exc NameError)
      | Some (OBoard b) => h_new_editor h (b, []) kw
      | Some (OEditor b extra) => h_new_editor h (b, extra) kw
      end
  | HSet i a => h_upd h i TypeError (d_setattr a)
  | HFreeze i =>
      match view h i with
      | None => (h, Exc NameError)
      | Some o => match obj_freeze o with
                  | Ok (OBoard b) => (mkHeap (objs h ++ [HBoard b]) (dicts h), Ok (List.length (objs h)))
                  | Ok _ => (h, Exc Unmodelled)
                  | Exc e => (h, Exc e)
                  end
      end
  | HAct i a => h_upd h i AttributeError (on_fields (act a))
  | HFlip i => h_upd h i AttributeError (on_fields flip)
  end.
Fixpoint hrun (h : heap) (ops : list hop) : heap :=
  match ops with [] => h | op :: ops' => hrun (fst (hstep h op)) ops' end.
