(* Vocabulary for C34-C38 and C41: the published GNU Backgammon formats. *)
From Verif Require Import Py UtilModel BoardModel BoardSpec.

(* position: each count as that many ones and a zero *)
Definition unary (x : Z) : list bool := repeat true (Z.to_nat x) ++ [false].
Definition position_bits (p : list Z * list Z) : list bool := flat_map unary (fst p ++ snd p).
(* the bits of a number, low bit first *)
Definition lowbits (w : nat) (v : Z) : list bool := map (fun j => Z.odd (v / 2 ^ Z.of_nat j)) (seq 0 w).
Definition bits_of_string (s : str) : list bool := flat_map (fun c => lowbits 8 (Z.of_nat (nat_of_ascii c))) s.
Definition chequers (p : list Z * list Z) : Z := total (fst p) + total (snd p).
(* characters of base64 *)
Definition is_b64 (c : ascii) : bool :=
  let n := nat_of_ascii c in
  (Nat.leb 65 n && Nat.leb n 90) || (Nat.leb 97 n && Nat.leb n 122) || (Nat.leb 48 n && Nat.leb n 57)
  || Nat.eqb n 43 || Nat.eqb n 47.
Definition significant (s : str) : Z := Z.of_nat (List.length (filter is_b64 s)).

(* match: the fields that fit, and the 66 bits *)
Definition fits (b : board) : Prop :=
  0 <= cube_in_logarithm b <= 15 /\ 0 <= cube_owner b <= 3 /\ player (on_action b) /\
  0 <= game_state b <= 7 /\ player (on_inner_action b) /\ 0 <= resign_offer b <= 3 /\
  (0 <= fst (rolled b) <= 7 /\ 0 <= snd (rolled b) <= 7) /\ 0 <= match_length b <= 32767 /\
  (0 <= fst (score b) <= 32767 /\ 0 <= snd (score b) <= 32767).
Definition match_bits (b : board) : list bool :=
  lowbits 4 (cube_in_logarithm b) ++ lowbits 2 (cube_owner b) ++ lowbits 1 (on_action b) ++ [crawford b] ++
  lowbits 3 (game_state b) ++ lowbits 1 (on_inner_action b) ++ [doubled b] ++ lowbits 2 (resign_offer b) ++
  lowbits 3 (fst (rolled b)) ++ lowbits 3 (snd (rolled b)) ++ lowbits 15 (match_length b) ++
  lowbits 15 (fst (score b)) ++ lowbits 15 (snd (score b)).
(* a running money session with points on the score sheet *)
Definition scored_money (b : board) : Prop :=
  game_state b = 1 /\ match_length b = 0 /\ (fst (score b) > 0 \/ snd (score b) > 0).
