(* What the tables of an analysis have to show *)
From Verif Require Import Py Dict.
From Verif Require HtmlModel TreeSpec WikiModel AnalysisModel.
From Coq Require Import Floats.SpecFloat.
Import AnalysisModel.
Open Scope string_scope.
Open Scope list_scope.
Open Scope Z_scope.

(* ---- numbers ---- *)
(* the text is n / 10 ^ k written with k decimals *)
Definition number (s : str) : Z := fold_left (fun a c => 10 * a + (zord c - 48)) s 0.
Definition digits (s : str) : Prop := forall c, In c s -> 48 <= zord c <= 57.
Definition written_with (k : nat) (n : Z) (t : str) : Prop :=
  exists q b, t = py_str_int q ++ L "." ++ b /\ 0 <= q /\ List.length b = k /\ digits b /\ n = q * 10 ^ Z.of_nat k + number b.
(* no other number of k decimals is nearer to m 2^e than n / 10 ^ k: the distance is at most half a unit of the last decimal *)
Definition nearest (k : nat) (m : positive) (e n : Z) : Prop :=
  if 0 <=? e then n = Z.pos m * 2 ^ e * 10 ^ Z.of_nat k
  else 2 * Z.abs (n * 2 ^ (- e) - Z.pos m * 10 ^ Z.of_nat k) <= 2 ^ (- e).
(* the number without its sign *)
Definition shows (k : nat) (f : spec_float) (t : str) : Prop :=
  match f with
  | S754_zero _ => written_with k 0 t
  | S754_finite _ m e => exists n, nearest k m e n /\ written_with k n t
  | S754_infinity _ => t = L "inf"
  | S754_nan => t = L "nan"
  end.
Definition minus (f : spec_float) : Prop := match f with S754_zero s | S754_finite s _ _ | S754_infinity s => s = true | S754_nan => False end.
(* with a sign always, and three decimals *)
Definition shows_equity (f : spec_float) (t : str) : Prop := exists u, shows 3 f u /\ ((minus f /\ t = L "-" ++ u) \/ (~ minus f /\ t = L "+" ++ u)).
(* with one decimal *)
Definition shows_chance (f : spec_float) (t : str) : Prop := exists u, shows 1 f u /\ ((minus f /\ t = L "-" ++ u) \/ (~ minus f /\ t = u)).
Definition is_zero (f : spec_float) : Prop := exists s, f = S754_zero s.

(* ---- what a row of the data base says ---- *)
Definition has (r : row) (name : string) (v : value) : Prop := dget String.eqb r name = Some v.
Definition whole (v : value) (z : Z) : Prop := v = VInt z \/ (v = VBool true /\ z = 1) \/ (v = VBool false /\ z = 0).
Definition says_int (r : row) (name : string) (z : Z) : Prop := exists v, has r name v /\ whole v z.
Definition says_float (r : row) (name : string) (f : spec_float) : Prop := has r name (VFloat f).
Definition says_diff (r : row) (d : option spec_float) : Prop := has r "diff" (match d with Some f => VFloat f | None => VNone end).
Definition false_value (v : value) : Prop := v = VNone \/ v = VBool false \/ v = VInt 0 \/ v = VText [] \/ exists f, v = VFloat f /\ is_zero f.
Definition marked (r : row) : Prop := exists v, has r "actual" v /\ ~ false_value v.
Definition callable (r : row) : Prop := ~ In "editor"%string (keys r).
Definition chances : list string := ["Win"; "WinG"; "WinBg"; "Lose"; "LoseG"; "LoseBg"].

Record move_entry := mkmove { m_nth : Z; m_move : str; m_ply : Z; m_equity : spec_float; m_diff : option spec_float; m_chances : list spec_float; m_actual : bool }.
Definition says_move (r : row) (e : move_entry) : Prop :=
  callable r /\ says_int r "nth" (m_nth e) /\ has r "move" (VText (m_move e)) /\ says_int r "ply" (m_ply e) /\ says_float r "equity" (m_equity e)
  /\ says_diff r (m_diff e) /\ Forall2 (says_float r) chances (m_chances e) /\ (m_actual e = true <-> marked r).
(* rows are numbered from one *)
Fixpoint counted {X} (nth : X -> Z) (from : Z) (l : list X) : Prop := match l with [] => True | x :: l => nth x = from /\ counted nth (from + 1) l end.

Record cube_entry := mkcube { c_nth : Z; c_action : Z; c_equity : spec_float; c_diff : option spec_float; c_actual : bool }.
Definition says_cube (r : row) (e : cube_entry) : Prop :=
  callable r /\ says_int r "nth" (c_nth e) /\ says_int r "action" (c_action e) /\ says_float r "equity" (c_equity e) /\ says_diff r (c_diff e)
  /\ (has r "actual" (VBool (c_actual e)) \/ (~ In "actual"%string (keys r) /\ c_actual e = false)).
(* the four actions, and their names *)
Definition action_name (a : Z) (t : str) : Prop :=
  (a = 0 /\ t = L "No double") \/ (a = 1 /\ t = L "Double, take") \/ (a = 2 /\ t = L "Double, pass") \/ (a = 3 /\ t = L "Too good to double").

Record equity_entry := mkequity { q_ply : Z; q_cubeless : spec_float; q_money : spec_float; q_chances : list spec_float }.
Definition says_equity (r : row) (e : equity_entry) : Prop :=
  callable r /\ says_int r "ply" (q_ply e) /\ says_float r "cubeless" (q_cubeless e) /\ says_float r "money" (q_money e) /\ Forall2 (says_float r) chances (q_chances e).

(* ---- tables ---- *)
Definition texts (r : str * list WikiModel.cell) : list str := map WikiModel.ctext (snd r).
Definition heading (r : str * list WikiModel.cell) (l : list string) : Prop :=
  fst r = L "headerrow" /\ texts r = map L l /\ Forall (fun c => WikiModel.header c = true) (snd r).
Definition row_class (actual : bool) (nth : Z) (s : str) : Prop :=
  if actual then s = L "actualrow" else if Z.even nth then s = L "evenrow" else s = L "oddrow".
(* a difference of nothing is not shown *)
Definition shows_diff (before after : string) (d : option spec_float) (t : str) : Prop :=
  match d with
  | Some f => (is_zero f /\ t = []) \/ (~ is_zero f /\ exists u, shows_equity f u /\ t = L before ++ u ++ L after)
  | None => t = []
  end.
(* two rows for a move *)
Definition shows_move (e : move_entry) (a b : str * list WikiModel.cell) : Prop :=
  row_class (m_actual e) (m_nth e) (fst a) /\ fst b = fst a
  /\ (exists t u, texts a = [py_str_int (m_nth e); m_move e; py_str_int (m_ply e); t ++ L " " ++ u] /\ shows_equity (m_equity e) t /\ shows_diff "(" ") " (m_diff e) u)
  /\ Forall2 shows_chance (m_chances e) (texts b).
Fixpoint shows_moves (l : list move_entry) (rs : list (str * list WikiModel.cell)) : Prop :=
  match l, rs with
  | [], [] => True
  | e :: l, a :: b :: rs => shows_move e a b /\ shows_moves l rs
  | _, _ => False
  end.
(* one row for an action of the cube *)
Definition shows_cube (e : cube_entry) (a : str * list WikiModel.cell) : Prop :=
  row_class (c_actual e) (c_nth e) (fst a)
  /\ exists n t u, texts a = [py_str_int (c_nth e); n; t; u] /\ action_name (c_action e) n /\ shows_equity (c_equity e) t /\ shows_diff "" "" (c_diff e) u.
(* the columns of a row: its cells, and those that reach down into it; [down] are the widths of these, with how many rows are still to come *)
Definition span (name : string) (c : WikiModel.cell) : Z :=
  match dget String.eqb (WikiModel.cattrs c) name with Some s => match py_int s with Ok z => z | Exc _ => 0 end | None => 1 end.
Definition width (down : list (Z * Z)) (r : list WikiModel.cell) : Z := zsum (map fst down) + zsum (map (span "colspan") r).
Definition next_down (down : list (Z * Z)) (r : list WikiModel.cell) : list (Z * Z) :=
  filter (fun p => 0 <? snd p) (map (fun p => (fst p, snd p - 1)) (down ++ map (fun c => (span "colspan" c, span "rowspan" c)) r)).
Fixpoint rectangle (n : Z) (down : list (Z * Z)) (rs : list (str * list WikiModel.cell)) : Prop :=
  match rs with
  | [] => down = []
  | r :: rs => width down (snd r) = n /\ rectangle n (next_down down (snd r)) rs
  end.

(* ---- the page: how a table is written, and the names of positions ---- *)
Definition written_attr (kv : string * str) : str := L " " ++ L (fst kv) ++ L "=" ++ [TreeSpec.quote] ++ HtmlModel.escape (snd kv) ++ [TreeSpec.quote].
Definition written_element (name : string) (a : list (string * str)) (inside : str) : str :=
  L "<" ++ L name ++ flat_map written_attr a ++ L ">" ++ [HtmlModel.newline] ++ inside ++ L "</" ++ L name ++ L ">" ++ [HtmlModel.newline].
Definition written_cell (c : WikiModel.cell) : str :=
  written_element (if WikiModel.header c then "th" else "td") (WikiModel.cattrs c) (WikiModel.ctext c ++ [HtmlModel.newline]).
Definition written_row (r : str * list WikiModel.cell) : str := written_element "tr" [("class", fst r)] (flat_map written_cell (snd r)).
Definition written_table (t : WikiModel.table) : str := written_element "table" [("class", WikiModel.tclass t)] (flat_map written_row (WikiModel.rows t)).
Definition id_char (c : ascii) : Prop := In c (L "ABCDEFGHIJKLMNOPQRSTUVWXYZabcdefghijklmnopqrstuvwxyz0123456789+/").
Definition position_name (g : str) : Prop :=
  exists pid mid, g = pid ++ L ":" ++ mid /\ List.length pid = 14%nat /\ List.length mid = 12%nat /\ (forall c, In c (pid ++ mid) -> id_char c).
