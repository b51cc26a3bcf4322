(* Vocabulary for C30-C33: the published byte layout of a position. *)
From Verif Require Import Py UtilModel BoardModel BoardSpec.
From Coq Require Import Reals.

(* the two's complement value of a byte *)
Definition value_of (c : ascii) (v : Z) : Prop := -128 <= v <= 127 /\ v mod 256 = Z.of_nat (nat_of_ascii c).
(* a position that fits the code: 25 counts a side, no point shared by the two
   sides (the points are numbered from either end), counts in a signed byte *)
Definition codable (p : list Z * list Z) : Prop :=
  List.length (fst p) = 25%nat /\ List.length (snd p) = 25%nat /\
  Forall (fun x => 0 <= x <= 127) (fst p) /\ Forall (fun x => 0 <= x <= 128) (snd p) /\
  (forall n, 0 <= n <= 23 -> count (fst p) n = 0 \/ count (snd p) (23 - n) = 0).
(* byte k of the code: the opponent's bar, points 1 to 24, the own bar *)
Definition layout (p : list Z * list Z) (k v : Z) : Prop :=
  (k = 0 -> v = - count (snd p) 24) /\
  (1 <= k <= 24 -> v = count (fst p) (k - 1) - count (snd p) (24 - k)) /\
  (k = 25 -> v = count (fst p) 24).
Definition byte_at (s : str) (k v : Z) : Prop := exists c, nth_error s (Z.to_nat k) = Some c /\ value_of c v.

(* Euclidean distance on the values *)
Definition euclid (n : nat) (f g : nat -> Z) : Z := fold_right Z.add 0 (map (fun i => (f i - g i) * (f i - g i)) (seq 0 n)).
Definition root (n : Z) : R := sqrt (IZR n).
