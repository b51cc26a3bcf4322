(* Model of bglib/encoding/xgid.py.  int(s) is [py_int]; every int() in the
   module is applied to a str, so ValueError is the only way it fails. *)
From Verif Require Import Py UtilModel BoardModel.

(* xgid.py:11-13 *)
Definition XGID_PLAYER2 : Z := 1.
Definition XGID_PLAYER1 : Z := -1.
Definition XGID_CENTER : Z := 0.
(* xgid.py:16-17 *)
Definition CHEQUER_HIM : str := L "-abcdefghijklmno".
Definition CHEQUER_YOU : str := L "-ABCDEFGHIJKLMNO".
(* xgid.py:18-19 and dict.get(c, 0): enumerate builds the dictionary, a later
   occurrence of a character would win; all characters are different *)
Fixpoint conv (tbl : str) (i : Z) (c : ascii) : Z :=
  match tbl with
  | [] => 0
  | v :: tbl' => if Ascii.eqb v c then i else conv tbl' (i + 1) c
  end.
Definition conv_him (c : ascii) : Z := conv CHEQUER_HIM 0 c.
Definition conv_you (c : ascii) : Z := conv CHEQUER_YOU 0 c.

(* xgid.py:22-37 *)
Definition decode_position (s : str) : res (list Z * list Z) :=
  if negb (zlen s =? 26) then Exc DecodeError else
  let you := firstn 25 (skipn 1 s) in
  let him := rev (firstn 25 s) in
  Ok (map conv_him him, map conv_you you).

Definition xint (s : str) : res Z :=
  match py_int s with Ok v => Ok v | Exc _ => Exc DecodeError end.

(* xgid.py:40-148; the model passed in is returned as it is left *)
Definition decode (m : board) (s : str) : board * res unit :=
  match s with
  | [] => (m, Exc DecodeError)
  | _ =>
    match split_on ":"%char s with
    | [position; cube_in_logarithm; cube_owner; on_action; rolled; your_score; his_score;
       is_crawford_jacoby; match_length; cube_max] =>
      match decode_position position with                          (* 59-60 *)
      | Exc e => (m, Exc e)
      | Ok p =>
      let m := set_position p m in
      match xint cube_in_logarithm with                            (* 66-69 *)
      | Exc e => (m, Exc e)
      | Ok cube =>
      let m := set_cube_in_logarithm cube m in
      match xint cube_owner with                                   (* 78-81 *)
      | Exc e => (m, Exc e)
      | Ok owner =>
      match (if owner =? XGID_PLAYER1 then Some YOU                (* 83-90 *)
             else if owner =? XGID_PLAYER2 then Some HIM
             else if owner =? XGID_CENTER then Some CENTER else None) with
      | None => (m, Exc InconsistentData)
      | Some o =>
      let m := set_cube_owner o m in
      match xint on_action with                                    (* 96-99 *)
      | Exc e => (m, Exc e)
      | Ok turn =>
      match (if turn =? XGID_PLAYER1 then Some YOU                 (* 100-105 *)
             else if turn =? XGID_PLAYER2 then Some HIM else None) with
      | None => (m, Exc InconsistentData)
      | Some w =>
      let m := set_on_action w m in
      match rolled with                                            (* 107-113 *)
      | [d1; d2] =>
        match xint [d1], xint [d2] with
        | Ok r1, Ok r2 =>
          let m := set_rolled (r1, r2) m in
          match py_int his_score, py_int your_score with           (* 115-118 *)
          | Ok h, Ok y =>
            let m := set_score (h, y) m in
            match xint is_crawford_jacoby with                     (* 120-123 *)
            | Exc e => (m, Exc e)
            | Ok cj =>
            if negb ((cj =? 0) || (cj =? 1)) then (m, Exc InconsistentData) else  (* 125-126 *)
            match xint match_length with                           (* 129-132 *)
            | Exc e => (m, Exc e)
            | Ok ml =>
            if ml =? 0 then                                        (* 134-141 *)
              let m := set_match_length ml (set_crawford false m) in
              (set_on_inner_action (BoardModel.on_action m) (set_game_state ON_GOING m), Ok tt)
            else if 0 <? ml then
              let m := set_match_length ml (set_crawford (negb (cj =? 0)) m) in
              (set_on_inner_action (BoardModel.on_action m) (set_game_state ON_GOING m), Ok tt)
            else (m, Exc InconsistentData)
            end end
          (* the message has one %s and two arguments *)
          | _, _ => (m, Exc TypeError)
          end
        | _, _ => (m, Exc DecodeError)
        end
      | _ => (m, Exc InconsistentData)
      end
      end end end end end end
    | _ => (m, Exc DecodeError)                                    (* 47-54 *)
    end
  end.
