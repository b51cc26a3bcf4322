(* Vocabulary for C48-C51, C82 and C83. *)
From Verif Require Import Py Dict StatModel.
From Coq Require Import Reals Permutation.
Local Open Scope R_scope.

(* the logistic rating formula: the chance of a player rated a against one rated b *)
Definition chance (a b n : R) : R := 1 / (1 + Rpower 10 (- ((a - b) * sqrt n / 2000))).

(* who loses each match: the pairs in order, with the drawn numbers *)
Definition ratings := Z -> R.
Fixpoint losers (r : ratings) (xs : list Z) (i : nat) (u : nat -> R) : list Z :=
  match xs with
  | a :: b :: xs' => (if Rle_dec (u i) (chance (r a) (r b) 7) then b else a) :: losers r xs' (S i) u
  | _ => []
  end.
(* a field: every player is there once, those alive have lives left *)
Definition field (t : tourney) : Prop :=
  NoDup (keys (alive t) ++ keys (dead t)) /\ Forall (fun e => (1 <= lives (snd e))%Z) (alive t).
Definition all_lives (t : tourney) : Z := fold_right Z.add 0%Z (map (fun e => lives (snd e)) (alive t ++ dead t)).
Definition rating_in (t : tourney) (k : Z) : R := match dget Z.eqb (alive t) k with Some p => rating p | None => 0 end.
