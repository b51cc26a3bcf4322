(* Model of bglib/stat/rating.py and bglib/stat/tourney.py.
   Floating point numbers are modelled as real numbers: rounding and overflow
   are not modelled.  random.shuffle and random.random are arguments.  A
   dictionary of entries is taken to hold each Player object once (the objects
   are shared with the caller's dictionary, which is not modelled). *)
From Verif Require Import Py Dict.
From Coq Require Import Reals.
Local Open Scope R_scope.

(* rating.py:13-15 *)
Definition upset_chance (high low length : R) : res R :=
  if Rlt_dec high low then Exc AssertionError
  else if Rlt_dec length 0 then Exc ValueError
  else Ok (1 / (Rpower 10 ((high - low) * sqrt length / 2000) + 1)).
(* rating.py:18-19 *)
Definition winning_chance (high low length : R) : res R :=
  let! u := upset_chance high low length in Ok (1 - u).
(* rating.py:22-26 *)
Definition gain_on_win (player opp length : R) : res R :=
  if Rle_dec opp player then let! u := upset_chance player opp length in Ok (length * u)
  else let! u := upset_chance opp player length in Ok (length * (1 - u)).

(* Python's float ** int with the exponent rounds - 1 >= 0 *)
(* tourney.py:11-20; rounds >= 1 *)
Definition tourney_chance (player average : R) (rounds : nat) (length : R) : res (R * R) :=
  match rounds with
  | O => Exc Unmodelled
  | S prev =>
      if Rle_dec average player then
        let! uc := upset_chance player average length in
        Ok ((1 - uc) ^ rounds, (1 - uc) ^ prev * uc)
      else
        let! wc := upset_chance average player length in
        Ok (wc ^ rounds, wc ^ prev * (1 - wc))
  end.
(* tourney.py:23-38 *)
Definition prize_handicap (player average : R) (rounds : nat) (length winner runnerup : R) : res (R * R) :=
  let! av := tourney_chance average average rounds length in
  let expected_w := fst av * winner in
  let expected_r := snd av * runnerup in
  let! wr := tourney_chance player average rounds length in
  Ok (expected_w / fst wr, expected_r / snd wr).
(* tourney.py:41-58 *)
Definition entryfee_handicap (player average : R) (rounds : nat) (length fee : R) : res R :=
  let! av := tourney_chance average average rounds length in
  let expected_w := fee / fst av in
  let! wr := tourney_chance player average rounds length in
  Ok (expected_w * fst wr).

(* tourney.py:62-71 *)
Record player := mkplayer { lives : Z; rating : R }.
Definition lost (p : player) : player := mkplayer (lives p - 1)%Z (rating p).
Definition isdead (p : player) : bool := (lives p <=? 0)%Z.

(* tourney.py:74-82 *)
Record tourney := mktourney { alive : list (Z * player); dead : list (Z * player) }.
Definition matchlength : R := 7.
Definition new_tourney (n : Z) : tourney := mktourney (map (fun i => (i, mkplayer 3 1000)) (zrange 0 n)) [].
Definition entered (entries : list (Z * player)) : tourney := mktourney entries [].

Definition lookup (d : list (Z * player)) (k : Z) : res player :=
  match dget Z.eqb d k with Some p => Ok p | None => Exc KeyError end.
(* tourney.py:103-106 and 108-111: self.alive[k].lost() ... *)
Definition lose (t : tourney) (k : Z) : res tourney :=
  let! p := lookup (alive t) k in
  let p := lost p in
  if isdead p then Ok (mktourney (dpop Z.eqb (alive t) k) (dset Z.eqb (dead t) k p))
  else Ok (mktourney (dset Z.eqb (alive t) k p) (dead t)).
(* tourney.py:88-111: one match; u is the value of random.random() *)
Definition play (t : tourney) (a b : Z) (u : R) : res tourney :=
  let! pa := lookup (alive t) a in
  let! pb := lookup (alive t) b in
  let! w_a :=
    (if Rle_dec (rating pb) (rating pa) then winning_chance (rating pa) (rating pb) matchlength
     else let! w := winning_chance (rating pb) (rating pa) matchlength in Ok (1 - w)) in
  if Rle_dec u w_a then lose t b else lose t a.
(* the loop of tourney.py:87, over xs[2i], xs[2i+1] for i < len(xs)/2 *)
Fixpoint matches (t : tourney) (xs : list Z) (i : nat) (u : nat -> R) : res tourney :=
  match xs with
  | a :: b :: xs' => let! t' := play t a b (u i) in matches t' xs' (S i) u
  | _ => Ok t
  end.
(* tourney.py:83-111; [shuffle] is what random.shuffle does to the keys *)
Definition round (t : tourney) (shuffle : list Z -> list Z) (u : nat -> R) : res tourney :=
  matches t (shuffle (keys (alive t))) 0 u.
(* 3knockout.py:13-15 *)
Fixpoint knockout (fuel : nat) (t : tourney) (c : nat) (shuffle : nat -> list Z -> list Z) (u : nat -> nat -> R) : res (tourney * nat) :=
  match fuel with
  | O => Exc OutOfFuel
  | S f => if (1 <? zlen (alive t))%Z then let! t' := round t (shuffle c) (u c) in knockout f t' (S c) shuffle u
           else Ok (t, c)
  end.
