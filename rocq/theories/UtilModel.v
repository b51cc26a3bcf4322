(* Model of bglib/model/constants.py and bglib/model/util.py *)
From Verif Require Import Py.

(* constants.py:9-11 *)
Definition YOU : Z := 0.
Definition HIM : Z := 1.
Definition CENTER : Z := 3.
(* constants.py:13  OWNER_STRING = ('your', 'his', None, 'center') *)
Definition OWNER_STRING : list (option str) :=
  [Some (L "your"); Some (L "his"); None; Some (L "center")].
(* constants.py:15-18 *)
Definition OFF : Z := -1.
Definition BAR : Z := 24.
Definition POINTS : list Z := zrange 0 24.
Definition NONE_BEAROFF_POINTS : list Z := zrange 6 25.
(* constants.py:22-26 *)
Definition NOT_STARTED : Z := 0.
Definition ON_GOING : Z := 1.
Definition FINISHED : Z := 2.
Definition RESIGNED : Z := 3.
Definition DOUBLED_OUT : Z := 4.
(* constants.py:29 *)
Definition MONEY_GAME : Z := 0.
(* constants.py:32-36 *)
Definition RESIGN_NONE : Z := 0.
Definition RESIGN_SINGLE : Z := 1.
Definition RESIGN_GAMMON : Z := 2.
Definition RESIGN_BACKGAMMON : Z := 3.
Definition RESIGN_TYPES : list Z := [RESIGN_SINGLE; RESIGN_GAMMON; RESIGN_BACKGAMMON].
(* constants.py:39 *)
Definition INITIAL_SIDE : list Z :=
  [0; 0; 0; 0; 0; 5; 0; 3; 0; 0; 0; 0; 5; 0; 0; 0; 0; 0; 0; 0; 0; 0; 0; 2; 0].
Definition INITIAL_POSITION : list Z * list Z := (INITIAL_SIDE, INITIAL_SIDE).

(* util.py:11-12 *)
Definition flip_point (n : Z) : Z := 23 - n.

(* util.py:14-26 *)
Definition position_pton (p : str) (on_action : Z) : res Z :=
  if str_eqb p (L "your home") || str_eqb p (L "his home") then Ok (-1)
  else if str_eqb p (L "your bar") || str_eqb p (L "his bar") then Ok 24
  else
    let! i := py_int p in
    if (0 <? i) && (i <? 25) then
      if on_action =? YOU then Ok (i - 1) else Ok (24 - i)
    else Exc ValueError.

(* OWNER_STRING[on_action] + s, util.py:30 and 39; None + str is a TypeError *)
Definition owner_plus (on_action : Z) (s : str) : res str :=
  let! o := pyget OWNER_STRING on_action in
  match o with Some w => Ok (w ++ s) | None => Exc TypeError end.

(* util.py:28-41 *)
Definition position_ntop (n on_action : Z) : res str :=
  if n <? 0 then owner_plus on_action (L " home")
  else if (0 <=? n) && (n <? 24) then
    if on_action =? YOU then Ok (py_str_int (n + 1))
    else if on_action =? HIM then Ok (py_str_int (24 - n))
    else Exc ValueError
  else if n =? 24 then owner_plus on_action (L " bar")
  else Exc ValueError.

(* util.py:43-51 *)
Definition move_ntop (n : Z) : res str :=
  if n <? 0 then Ok (L "off")
  else if (0 <=? n) && (n <? 24) then Ok (py_str_int (n + 1))
  else if n =? 24 then Ok (L "bar")
  else Exc ValueError.

(* util.py:53-64 *)
Definition move_pton (p : str) : res Z :=
  if str_eqb p (L "bar") then Ok 24
  else if str_eqb p (L "off") then Ok (-1)
  else
    let! i := py_int p in
    if (0 <=? i) && (i <=? 25) then Ok (i - 1) else Exc ValueError.

(* util.py:66-71 *)
Definition get_opp (player : Z) : res Z :=
  if player =? HIM then Ok YOU
  else if player =? YOU then Ok HIM
  else Exc ValueError.
