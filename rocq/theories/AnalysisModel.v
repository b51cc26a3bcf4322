(* Model of the tables of the Analysis macro: bglib/doc/macro.py 18-24, 218-528.
   The tables are computed as a whole and then written (WikiModel.write_table); when an
   exception is raised, Python has written some of them before, which nobody sees since
   the exception leaves Formatter.parse.  Floats are IEEE doubles (Coq's SpecFloat). *)
From Verif Require Import Py Dict.
From Verif Require WikiModel.
From Coq Require Import Floats.SpecFloat.
Open Scope string_scope.
Open Scope list_scope.
Open Scope Z_scope.

(* what the data base gives: rows of named values *)
Inductive value := VInt (z : Z) | VBool (b : bool) | VFloat (f : spec_float) | VText (s : str) | VNone.
Definition row := list (string * value).

(* '%.kf' % f: correctly rounded, a tie to the even digit *)
Definition tens (k : nat) : Z := 10 ^ Z.of_nat k.
Definition rounded (k : nat) (m : positive) (e : Z) : Z :=
  if 0 <=? e then Z.pos m * 2 ^ e * tens k
  else let q := Z.pos m * tens k / 2 ^ (- e) in
       match 2 * (Z.pos m * tens k mod 2 ^ (- e)) ?= 2 ^ (- e) with
       | Lt => q
       | Gt => q + 1
       | Eq => if Z.even q then q else q + 1
       end.
Definition digit (d : Z) : ascii := ascii_of_N (Z.to_N (48 + d)).
Fixpoint decimals (k : nat) (n : Z) : str := match k with O => [] | S k => decimals k (n / 10) ++ [digit (n mod 10)] end.
Definition fixed (k : nat) (n : Z) : str := py_str_int (n / tens k) ++ L "." ++ decimals k (n mod tens k).
Definition absolute (k : nat) (f : spec_float) : str :=
  match f with
  | S754_zero _ => fixed k 0
  | S754_finite _ m e => fixed k (rounded k m e)
  | S754_infinity _ => L "inf"
  | S754_nan => L "nan"
  end.
Definition negative (f : spec_float) : bool := match f with S754_zero s | S754_finite s _ _ | S754_infinity s => s | S754_nan => false end.
(* 18-20 *)
Definition signed_one_three (f : spec_float) : str := (if negative f then L "-" else L "+") ++ absolute 3 f.
(* 22-24: without the sign of positive numbers; the width 2 is always reached *)
Definition percent_two_one (f : spec_float) : str := (if negative f then L "-" else []) ++ absolute 1 f.

(* Python's operators on the values *)
Definition nonzero (f : spec_float) : bool := match f with S754_zero _ => false | _ => true end.
Definition truth (v : value) : bool :=
  match v with VInt z => negb (z =? 0) | VBool b => b | VFloat f => nonzero f | VText s => match s with [] => false | _ => true end | VNone => false end.
Definition float_is (f : spec_float) (z : Z) : bool :=
  match f with
  | S754_zero _ => z =? 0
  | S754_finite s m e => let a := if s then - Z.pos m else Z.pos m in if 0 <=? e then a * 2 ^ e =? z else a =? z * 2 ^ (- e)
  | _ => false
  end.
Definition z_of_bool (b : bool) : Z := if b then 1 else 0.
Definition eq_int (v : value) (z : Z) : bool :=
  match v with VInt y => y =? z | VBool b => z_of_bool b =? z | VFloat f => float_is f z | _ => false end.
(* isinstance *)
Definition int_of (v : value) : res Z := match v with VInt z => Ok z | VBool b => Ok (z_of_bool b) | _ => Exc AssertionError end.
Definition float_of (v : value) : res spec_float := match v with VFloat f => Ok f | _ => Exc AssertionError end.
Definition text_of (v : value) : res str := match v with VText s => Ok s | _ => Exc AssertionError end.
Definition float_or_none (v : value) : res (option spec_float) := match v with VNone => Ok None | VFloat f => Ok (Some f) | _ => Exc AssertionError end.
(* a keyword argument with and without a default; a row that has a key 'editor' is a TypeError *)
Definition arg (r : row) (name : string) (default : value) : value := match dget String.eqb r name with Some v => v | None => default end.
Definition need (r : row) (name : string) : res value := match dget String.eqb r name with Some v => Ok v | None => Exc TypeError end.
Definition call (r : row) : res unit := match dget String.eqb r "editor" with Some _ => Exc TypeError | None => Ok tt end.

Definition th (a : list (string * str)) (s : str) : WikiModel.cell := WikiModel.mkcell true a s.
Definition td (a : list (string * str)) (s : str) : WikiModel.cell := WikiModel.mkcell false a s.
Definition even_odd (nth : Z) : str := if nth mod 2 =? 0 then L "evenrow" else L "oddrow".
Definition hidden_zero : value := VFloat (S754_zero false).

(* constants.py 44-48 *)
Definition CUBEACTION_TYPES : list Z := [0; 1; 2; 3].
Definition CUBEACTION_STRINGS : list str := [L "No double"; L "Double, take"; L "Double, pass"; L "Too good to double"].
Definition action_text (v : value) : res str :=
  match v with VInt z => pyget CUBEACTION_STRINGS z | VBool b => pyget CUBEACTION_STRINGS (z_of_bool b) | _ => Exc TypeError end.

(* CubeAction_table_header, 243-258 *)
Definition cubeaction_header : list (str * list WikiModel.cell) :=
  [(L "headerrow", [th [] (L "#"); th [] (L "action"); th [("colspan", L "2")] (L " Cubeful Eq. ")])].
(* CubeAction_table_row, 260-293 *)
Definition cubeaction_row (r : row) : res (list (str * list WikiModel.cell)) :=
  let! _ := call r in
  let! nth := int_of (arg r "nth" (VInt 0)) in
  let actual := arg r "actual" (VBool false) in
  let! _ := passert (existsb (eq_int actual) CUBEACTION_TYPES) in
  let! equity := float_of (arg r "equity" hidden_zero) in
  let! diff := float_or_none (arg r "diff" VNone) in
  let diff := match diff with Some d => if nonzero d then signed_one_three d else [] | None => [] end in
  let klass := if truth actual then L "actualrow" else even_odd nth in
  let! action := action_text (arg r "action" (VInt 0)) in
  Ok [(klass, [th [] (py_str_int nth); td [] action; td [] (signed_one_three equity); td [] diff])].

(* Movelisting_header, 298-337 *)
Definition chance_header : str * list WikiModel.cell :=
  (L "headerrow", [th [] (L "Win"); th [] (L "WinG"); th [] (L "WinBg"); th [] (L "Lose"); th [] (L "LoseG"); th [] (L "LoseBg")]).
Definition move_header : list (str * list WikiModel.cell) :=
  [(L "headerrow", [th [("rowspan", L "2")] (L "#"); th [("rowspan", L "2")] (L "move"); th [("rowspan", L "2")] (L "Ply"); th [("colspan", L "6")] (L "Eq.(diff)")]);
   chance_header].
(* Movelisting_row, 340-423 *)
Definition move_row (r : row) : res (list (str * list WikiModel.cell)) :=
  let! _ := call r in
  let! nth := need r "nth" in let! move := need r "move" in let! ply := need r "ply" in let! equity := need r "equity" in let! diff := need r "diff" in
  let! win := need r "Win" in let! wing := need r "WinG" in let! winbg := need r "WinBg" in
  let! lose := need r "Lose" in let! loseg := need r "LoseG" in let! losebg := need r "LoseBg" in
  let! nth := int_of nth in let! move := text_of move in let! ply := int_of ply in let! equity := float_of equity in let! diff := float_or_none diff in
  let! win := float_of win in let! wing := float_of wing in let! winbg := float_of winbg in
  let! lose := float_of lose in let! loseg := float_of loseg in let! losebg := float_of losebg in
  let klass := if truth (arg r "actual" VNone) then L "actualrow" else even_odd nth in
  let diff := match diff with Some d => if nonzero d then L "(" ++ signed_one_three d ++ L ") " else [] | None => [] end in
  Ok [(klass, [th [("rowspan", L "2")] (py_str_int nth); td [("rowspan", L "2")] move; td [("rowspan", L "2")] (py_str_int ply);
               td [("class", L "Equity"); ("colspan", L "6")] (signed_one_three equity ++ L " " ++ diff)]);
      (klass, [td [] (percent_two_one win); td [] (percent_two_one wing); td [] (percent_two_one winbg);
               td [] (percent_two_one lose); td [] (percent_two_one loseg); td [] (percent_two_one losebg)])].

(* CubelessEquity, 428-528 *)
Definition cubeless (r : row) : res WikiModel.table :=
  let! _ := call r in
  let! ply := int_of (arg r "ply" (VInt 0)) in let! money := float_of (arg r "money" hidden_zero) in let! cubeless := float_of (arg r "cubeless" hidden_zero) in
  let! win := float_of (arg r "Win" hidden_zero) in let! wing := float_of (arg r "WinG" hidden_zero) in let! winbg := float_of (arg r "WinBg" hidden_zero) in
  let! lose := float_of (arg r "Lose" hidden_zero) in let! loseg := float_of (arg r "LoseG" hidden_zero) in let! losebg := float_of (arg r "LoseBg" hidden_zero) in
  Ok (WikiModel.mktable (L "cubeless")
    [(L "headerrow", [th [("rowspan", L "2")] (L "Ply"); th [("colspan", L "6")] (L "Cubeless Eq. ")]);
     chance_header;
     (L "oddrow", [td [("rowspan", L "2")] (py_str_int ply); td [("class", L "Equity"); ("colspan", L "6")] (signed_one_three cubeless ++ L " (Money " ++ signed_one_three money ++ L ")")]);
     (L "oddrow", [td [] (percent_two_one win); td [] (percent_two_one wing); td [] (percent_two_one winbg);
                   td [] (percent_two_one lose); td [] (percent_two_one loseg); td [] (percent_two_one losebg)])]).

(* for i, row in enumerate(...): assert i + 1 == row['nth'] *)
Fixpoint each_row (f : row -> res (list (str * list WikiModel.cell))) (i : Z) (l : list row) : res (list (str * list WikiModel.cell)) :=
  match l with
  | [] => Ok []
  | r :: l =>
      let! nth := match dget String.eqb r "nth" with Some v => Ok v | None => Exc KeyError end in
      let! _ := passert (eq_int nth (i + 1)) in
      let! a := f r in
      let! b := each_row f (i + 1) l in
      Ok (a ++ b)
  end.
(* Analysis, 218-239, given the data base; [gid] is 14 characters, a colon and 12 characters *)
Definition analysis_tables (get_analysis : str -> str -> res (bool * list row)) (gid : str) : res (list WikiModel.table) :=
  let! answer := get_analysis (firstn 14 gid) (firstn 12 (skipn 15 gid)) in
  let (cubeaction, analysis) := answer in
  if cubeaction then
    match analysis with
    | [] => Exc IndexError
    | first :: others =>
        let! t := cubeless first in
        let! rs := each_row cubeaction_row 0 others in
        Ok [t; WikiModel.mktable (L "cubeaction") (cubeaction_header ++ rs)]
    end
  else
    let! rs := each_row move_row 0 analysis in
    Ok [WikiModel.mktable (L "move") (move_header ++ rs)].
