(* Model of bglib/encoding/FIBS.py.
   Simplified: a numeric attribute of a board line that is missing or is not an
   integer literal gives [Unmodelled] (Python would carry on with a str or a
   shorter tuple).  The name [bglib] is not bound in the module (lines 7-10), nor
   is INVALID; reading either raises NameError.  Regular expressions are written
   out as scanners. *)
From Verif Require Import Py UtilModel BoardModel.

(* FIBS.py:45-58, an attribute of one field, and the 26 numbers of [board] *)
Definition geti (data : list str) (i : nat) : res Z :=
  match nth_error data i with
  | Some s => match py_int s with Ok v => Ok v | Exc _ => Exc Unmodelled end
  | None => Exc Unmodelled
  end.
Definition get_board (data : list str) : res (list Z) := mapM (geti data) (seq 6 26).

(* FIBS.py:60-82 *)
Definition your_chequers (colour x : Z) : Z := if 0 <? colour * x then Z.abs x else 0.
Definition his_chequers (colour x : Z) : Z := if colour * x <? 0 then Z.abs x else 0.
Definition fibs_position (data : list str) : res (list Z * list Z) :=
  let! board := get_board data in
  let! colour := geti data 41 in
  let! direction := geti data 42 in
  let mid := firstn 24 (skipn 1 board) in
  let! b0 := pyget board 0 in
  let! b25 := pyget board 25 in
  let (you, him) :=
    if direction <? 0 then (mid ++ [b25], rev (b0 :: mid))
    else (rev (b0 :: mid), mid ++ [b25]) in
  Ok (map (your_chequers colour) you, map (his_chequers colour) him).

(* FIBS.py:86-91, log(): halvings until the number is at most one *)
Fixpoint plog (p : positive) : Z :=
  match p with xH => 0 | xO q => 1 + plog q | xI q => 1 + plog q end.
Definition fibs_log (n : Z) : Z := match n with Zpos p => plog p | _ => 0 end.

(* FIBS.py:85-141; the editor is returned as it is left *)
Definition decode (m : board) (s : str) : board * res unit :=
  let data := split_on ":"%char s in
  match fibs_position data with
  | Exc e => (m, Exc e)
  | Ok p =>
    let m := set_position p m in
    match geti data 37 with
    | Exc e => (m, Exc e)
    | Ok cube =>
      let m := set_cube_in_logarithm (fibs_log cube) m in
      match geti data 38, geti data 39 with
      | Ok you_may, Ok he_may =>
        let y := negb (you_may =? 0) in
        let h := negb (he_may =? 0) in
        let m := if y && h then set_crawford false (set_cube_owner CENTER m)            (* 99-110 *)
                 else if y && negb h then set_crawford false (set_cube_owner YOU m)
                 else if negb y && h then set_crawford false (set_cube_owner HIM m)
                 else set_crawford true (set_cube_owner CENTER m) in
        match geti data 32, geti data 41 with
        | Ok turn, Ok colour =>
          if turn =? colour then                                                      (* 112-116 *)
            let m := set_on_inner_action YOU (set_on_action YOU m) in
            match geti data 33, geti data 34 with
            | Ok d1, Ok d2 =>
              let m := set_game_state ON_GOING (set_rolled (d1, d2) m) in
              match geti data 40 with                                                 (* 130-135 *)
              | Ok was =>
                let m := if negb (was =? 0) then
                           let m := set_doubled true m in
                           if on_action m =? YOU then set_on_inner_action HIM m
                           else if on_action m =? HIM then set_on_inner_action YOU m else m
                         else m in
                let m := set_resign_offer RESIGN_NONE m in                            (* 137 *)
                match geti data 3 with                                                (* 140-141 *)
                | Ok len =>
                  let m := set_match_length len m in
                  match geti data 4, geti data 5 with
                  | Ok ys, Ok hs => (set_score (ys, hs) m, Ok tt)
                  | _, _ => (m, Exc Unmodelled)
                  end
                | Exc e => (m, Exc e)
                end
              | Exc e => (m, Exc e)
              end
            | _, _ => (m, Exc Unmodelled)
            end
          else if turn =? colour * -1 then                                            (* 117-121 *)
            match geti data 35, geti data 36 with
            | Ok d1, Ok d2 => (set_on_inner_action HIM (set_on_action HIM (set_rolled (d1, d2) m)), Exc NameError)
            | _, _ => (m, Exc Unmodelled)
            end
          else (set_rolled (0, 0) m, Exc NameError)                                   (* 122-124 *)
        | _, _ => (m, Exc Unmodelled)
        end
      | _, _ => (m, Exc Unmodelled)
      end
    end
  end.

(* FIBS.py:147-150 *)
Definition is_die (c : ascii) : bool := let n := nat_of_ascii c in (49 <=? n)%nat && (n <=? 54)%nat.
Definition get_dice (got : str) : res (Z * Z) :=
  match filter is_die got with
  | [a; b] => let! x := py_int [a] in let! y := py_int [b] in Ok (x, y)
  | _ => Exc ValueError
  end.

(* FIBS.py:152-157 *)
Definition in_name (c : ascii) : bool :=
  let n := nat_of_ascii c in
  ((97 <=? n)%nat && (n <=? 122)%nat) || ((65 <=? n)%nat && (n <=? 90)%nat) || (n =? 95)%nat || (n =? 60)%nat || (n =? 62)%nat.
Fixpoint takewhile (f : ascii -> bool) (s : str) : str :=
  match s with
  | c :: s' => if f c then c :: takewhile f s' else []
  | [] => []
  end.
Definition get_name (got : str) : option str :=
  match takewhile in_name got with [] => None | n => Some n end.

(* FIBS.py:159-167: name_expr has no group called 'name', so m.start('name')
   raises IndexError, which is caught *)
Definition get_taker_name (got : str) : res (option str) :=
  match get_name got with None => Ok None | Some _ => Ok None end.

(* FIBS.py:169-188: the first line names bglib *)
Definition get_move (got : str) (who : Z) : res unit := Exc NameError.

(* findall("[0-9]+") *)
Definition is_num (c : ascii) : bool := let n := nat_of_ascii c in (48 <=? n)%nat && (n <=? 57)%nat.
Fixpoint numbers (s : str) : list str :=
  match s with
  | [] => []
  | c :: s' =>
      if is_num c then
        match s' with
        | d :: _ => if is_num d then match numbers s' with h :: t => (c :: h) :: t | [] => [[c]] end else [c] :: numbers s'
        | [] => [[c]]
        end
      else numbers s'
  end.
(* FIBS.py:190-193: int of a list *)
Definition get_score (got : str) : res Z := Exc TypeError.
(* FIBS.py:195-198 *)
Definition get_match_scores (got : str) : res (Z * Z * Z) :=
  match numbers got with
  | [a; b; c] => let! x := py_int a in let! y := py_int b in let! z := py_int c in Ok (x, y, z)
  | _ => Exc ValueError
  end.
(* FIBS.py:200-202 *)
Definition get_resign_score (got : str) : res Z :=
  match numbers got with
  | a :: _ => py_int a
  | [] => Exc IndexError
  end.
