(* Model of bglib/encoding/bearoff (__init__.py, gnubgdb.py, nori.py, trice.py).
   tonic.combination is not in the repository.  C is assumed to be the binomial
   coefficient; C_Hash and C_RHash are section variables (what is assumed of
   them is [hash_spec] in BearoffSpec.v).  Not modelled: Python's recursion
   limit, print statements. *)
From Verif Require Import Py.

(* rows of Pascal's triangle *)
Fixpoint addrow (a b : list Z) : list Z :=
  match a, b with
  | x :: a', y :: b' => x + y :: addrow a' b'
  | _, _ => []
  end.
Fixpoint row (n : nat) : list Z :=
  match n with
  | O => [1]
  | S n' => let r := row n' in addrow (0 :: r) (r ++ [0])
  end.
Definition C (n k : Z) : Z := if (0 <=? k) && (k <=? n) then nth (Z.to_nat k) (row (Z.to_nat n)) 0 else 0.

(* __init__.py:14-18; [fuel] bounds the loop, see [backward] *)
Fixpoint backward_loop (fuel : nat) (t : list Z) (i : Z) : res Z :=
  match fuel with
  | O => Exc OutOfFuel
  | S f => let! x := pyget t i in if x =? 0 then backward_loop f t (i - 1) else Ok (i + 1)
  end.
Definition backward (t : list Z) : res Z := backward_loop (26 + List.length t) t 24.
(* __init__.py:20-24 *)
Definition count (t : list Z) : Z := fold_left (fun s x => s + x) t 0.
(* __init__.py:27-34 *)
Definition D (n m : Z) : Z := C (n + m - 1) m.
(* __init__.py:44 *)
Definition WTN : Z := 18528584051601162496.
(* __init__.py:50-56 *)
Definition BackgammonCombination (m : Z) : Z := C 24 m * D (m + 2) (15 - m) * D (26 - m) 15.
Definition BackgammonCombination_allC (m : Z) : Z := C 24 m * C 16 (15 - m) * C (40 - m) 15.

(* ---------- DBReader.rawread, __init__.py:69-79 ---------- *)
Section Reader.
(* the operating system: how many bytes a read at an offset delivers when n are
   asked for and some are left (forced into 1..n) *)
Variable delivered : Z -> Z -> Z.
Definition os_read (file : str) (pos n : Z) : str :=
  firstn (Z.to_nat (Z.max 1 (Z.min n (delivered pos n)))) (skipn (Z.to_nat pos) file).
Fixpoint read_loop (fuel : nat) (file : str) (datalen pos : Z) (buf : str) : res str :=
  match fuel with
  | O => Exc OutOfFuel
  | S f =>
      if zlen buf <? datalen then
        match os_read file pos datalen with
        | [] => Exc IndexError
        | r => read_loop f file datalen (pos + zlen r) (buf ++ r)
        end
      else Ok (firstn (Z.to_nat datalen) buf)
  end.
(* seek to a negative offset is an IOError, outside the model *)
Definition rawread (file : str) (datalen index : Z) : res str :=
  if index <? 0 then Exc Unmodelled
  else read_loop (S (Z.to_nat datalen)) file datalen (index * datalen) [].
End Reader.

(* ---------- gnubgdb.py ---------- *)
(* gnubgdb.py:16-25 *)
Fixpoint f (fuel : nat) (b n r : Z) : res Z :=
  match fuel with
  | O => Exc OutOfFuel
  | S fu =>
      let! _ := passert (-1 <? b) in
      let! _ := passert (-1 <? n) in
      let! _ := passert (-1 <? r) in
      if n =? r then Ok 0
      else if n - 1 <? 0 then Exc ValueError            (* negative shift count *)
      else if Z.testbit b (n - 1) then
        let! x := f fu b (n - 1) (r - 1) in Ok (C (n - 1) r + x)
      else f fu b (n - 1) r
  end.
(* gnubgdb.py:27-40; the first loop reads t[0] .. t[p-1], the second reads the
   same items again *)
Definition oneside_index (t : list Z) (p c : Z) : res Z :=
  let! xs := mapM (pyget t) (zrange 0 p) in
  let j := fold_left (fun j x => j + x) xs (p - 1) in
  if j <? 0 then Exc ValueError else                    (* negative shift count *)
  let bits := Z.shiftl 1 j in
  let (_, bits) :=
    fold_left (fun s x => let '(j, bits) := s in
                          let j := j - (x + 1) in
                          if -1 <? j then (j, Z.lor bits (Z.shiftl 1 j)) else (j, bits)) xs (j, bits) in
  f (S (Z.to_nat (p + c))) bits (p + c) p.
(* gnubgdb.py:42-44 *)
Definition bearoff_param (us them : list Z) : res (Z * Z) :=
  let! bu := backward us in
  let! bt := backward them in
  Ok (Z.max (Z.max bu bt) 0, Z.max (Z.max (count us) (count them)) 0).

(* ---------- nori.py and trice.py ---------- *)
(* nori.py:16-19 *)
Fixpoint sigma (i : nat) : Z := match i with O => 1 | S k => sigma k + D 6 (Z.of_nat (S k)) end.
Definition sigmaD (i : Z) : res Z :=
  if i =? -1 then Ok 0 else if (0 <=? i) && (i <=? 15) then Ok (sigma (Z.to_nat i)) else Exc KeyError.

Section Hash.
Variable C_Hash : list Z -> Z -> Z.
Variable C_RHash : Z -> Z -> Z -> list Z.

(* nori.py:21-31 *)
Definition oneside_upto6_t2k (t : list Z) : res Z :=
  let! _ := passert (zlen t =? 6) in
  let xs := flat_map (fun i => repeat 1 (Z.to_nat i) ++ [0]) t in
  let c := count t in
  let! s := sigmaD (c - 1) in
  Ok (s + C_Hash (rev xs) c).

(* nori.py:40-46 *)
Fixpoint spread (b : list Z) (k : Z) (xs : list Z) : res (list Z) :=
  match b with
  | [] => Ok xs
  | j :: b' =>
      if j =? 1 then let! xs := pyadd xs k 1 in spread b' k xs
      else if j =? 0 then spread b' (k + 1) xs
      else Exc AssertionError
  end.
(* nori.py:34-49 *)
Fixpoint k2t_loop (n : Z) (cs : list Z) : res (list Z) :=
  match cs with
  | [] => Exc AssertionError
  | c :: cs' =>
      let! s := sigmaD c in
      if n <? s then
        let! s1 := sigmaD (c - 1) in
        let! xs := spread (C_RHash (n - s1) (6 + c - 1) c) 0 [0; 0; 0; 0; 0; 0] in
        Ok (rev xs)
      else k2t_loop n cs'
  end.
Definition oneside_upto6_k2t (n : Z) : res (list Z) := k2t_loop n (zrange 0 15).

(* trice.py:17-42; line 20 reads us[i], them[i] for i < 6 and the result is thrown away *)
Definition trice_t2k (us them : list Z) : res Z :=
  let! _ := mapM (fun i => let! a := pyget us i in let! b := pyget them i in Ok (a, b)) (zrange 0 6) in
  let xs := flat_map (fun p => [fst p; snd p]) (combine us them) in
  let c := count xs in
  let b := 0 :: flat_map (fun i => repeat 1 (Z.to_nat i) ++ [0]) xs in
  Ok (if c =? 0 then 0
      else if c =? 1 then 1 + C_Hash b c
      else D (c - 1) 7 ^ 2 + C_Hash b c).
End Hash.
