(* Model of bglib/encoding/dbbyte.py.
   Simplifications: a position is a pair of tuples of ints (the isinstance
   assertions hold); __setattr__ of the database expression always raises and
   is not modelled further; the expression is a record of the byte string and
   of the board it came from (its eleven other fields). *)
From Verif Require Import Py UtilModel BoardModel.

(* dbbyte.py:16-22 *)
Definition signedord (c : ascii) : Z := let o := zord c in if 127 <? o then o - 256 else o.
(* dbbyte.py:24-30 *)
Definition signedchr (n : Z) : res ascii :=
  if negb (-129 <? n) then Exc AssertionError
  else if negb (n <? 128) then Exc AssertionError
  else if n <? 0 then pychr (256 + n) else pychr n.
(* dbbyte.py:33-44 *)
Definition encode_position (xs : list Z * list Z) : res str :=
  let (onaction, opponent) := xs in
  if negb (zlen onaction =? 25) then Exc AssertionError
  else if negb (zlen opponent =? 25) then Exc AssertionError
  else
    let onaction := 0 :: onaction in
    let opponent := 0 :: opponent in
    mapM (fun i => let! a := pyget onaction i in
                   let! o := pyget opponent (25 - i) in
                   signedchr (a - o)) (zrange 0 26).
(* dbbyte.py:47-54; l[1:] is tl *)
Definition decode_position (s : str) : res (list Z * list Z) :=
  if negb (zlen s =? 26) then Exc AssertionError
  else
    let onaction := map (fun n => if 0 <? n then n else 0) (map signedord s) in
    let opponent := map (fun n => if n <? 0 then - n else 0) (map signedord (rev s)) in
    Ok (tl onaction, tl opponent).
(* dbbyte.py:57-61; zip stops at the shorter string *)
Definition distance (xs ys : str) : Z :=
  fold_left (fun d p => d + (signedord (fst p) - signedord (snd p)) ^ 2) (combine xs ys) 0.

(* dbbyte.py:64-80: the position as bytes, the other fields as they are *)
Record dbexpr := mkDb { db_bytes : str; db_fields : board }.
Definition db_new (init : board) : res dbexpr :=
  let item := position init in
  let! s := if on_action init =? YOU then encode_position item
            else if on_action init =? HIM then encode_position (snd item, fst item)
            else Exc AssertionError in
  Ok (mkDb s (set_position ([], []) init)).
(* dbbyte.py:91-105 *)
Definition db_tomodel (e : dbexpr) : res board :=
  let! p := if on_action (db_fields e) =? YOU then decode_position (db_bytes e)
            else if on_action (db_fields e) =? HIM then
              let! p := decode_position (db_bytes e) in Ok (snd p, fst p)
            else Exc AssertionError in
  Ok (set_position p (db_fields e)).
