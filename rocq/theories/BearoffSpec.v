(* Vocabulary for C44-C47 and C80-C82. *)
From Verif Require Import Py BoardSpec.

(* the binomial coefficient, by Pascal's rule *)
Fixpoint binomial (n k : nat) : Z :=
  match k, n with
  | O, _ => 1
  | S _, O => 0
  | S k', S n' => binomial n' k' + binomial n' k
  end.

(* one side: p points with at most c chequers *)
Definition side_of (p c : nat) (t : list Z) : Prop :=
  List.length t = p /\ Forall (fun x => 0 <= x) t /\ total t <= Z.of_nat c.

(* what is assumed of tonic's C_Hash and C_RHash: a numbering of the lists of n
   bits with c ones, in which leading zeros do not count *)
Definition bits (l : list Z) : Prop := Forall (fun x => x = 0 \/ x = 1) l.
Record hash_spec (C_Hash : list Z -> Z -> Z) (C_RHash : Z -> Z -> Z -> list Z) : Prop := {
  hash_range : forall l, bits l -> 0 <= C_Hash l (total l) < binomial (List.length l) (Z.to_nat (total l));
  hash_inv : forall l, bits l -> C_RHash (C_Hash l (total l)) (zlen l) (total l) = l;
  hash_onto : forall n c k, 0 <= k < binomial n c ->
    let l := C_RHash k (Z.of_nat n) (Z.of_nat c) in
    bits l /\ List.length l = n /\ total l = Z.of_nat c /\ C_Hash l (Z.of_nat c) = k;
  hash_zero : forall l c, C_Hash (0 :: l) c = C_Hash l c }.

(* a position of backgammon: each player has up to fifteen chequers on the 24
   points and the bar, and no point is held by both *)
Definition legal_position (p : list Z * list Z) : Prop :=
  (wf_side (fst p) /\ total (fst p) <= 15) /\ (wf_side (snd p) /\ total (snd p) <= 15) /\
  forall k, (k < 24)%nat -> nth k (fst p) 0 = 0 \/ nth (23 - k) (snd p) 0 = 0.
(* p points and c chequers are enough for a side *)
Definition enough (p c : Z) (t : list Z) : Prop := (forall k, p <= Z.of_nat k -> nth k t 0 = 0) /\ total t <= c.
