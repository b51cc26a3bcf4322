(* Properties C48-C51, C82 and C83: ratings and tournaments *)
From Verif Require Import Py Dict StatModel StatSpec StatProofs.
From Coq Require Import Reals Lra Permutation.
Open Scope R_scope.

(* C48 *)
Theorem C48_chances :
  (forall high low n, 0 <= n -> low <= high ->
     winning_chance high low n = Ok (chance high low n) /\ upset_chance high low n = Ok (chance low high n)) /\
  (forall high low n, high < low -> winning_chance high low n = Exc AssertionError /\ upset_chance high low n = Exc AssertionError) /\
  (forall a b n, chance a b n + chance b a n = 1 /\ 0 < chance a b n < 1) /\
  (forall a a' b n, 0 < n -> a < a' -> chance a b n < chance a' b n) /\
  (forall a b n n', 0 <= n -> n < n' -> b < a -> chance a b n < chance a b n') /\
  (forall a b n, 0 < n -> (1 / 2 < chance a b n <-> b < a)).
Proof. exact chances. Qed.
Print Assumptions C48_chances.
(* a better player: the hypotheses are met by 1100 against 1000 over 9 points *)
Example C48_case : winning_chance 1100 1000 9 = Ok (chance 1100 1000 9) /\ 1 / 2 < chance 1100 1000 9 < 1.
Proof.
  destruct chances as (A & _ & B & _ & _ & C). split; [apply A; lra|]. split; [apply C; lra|apply B].
Qed.

(* C49 *)
Theorem C49_gains : forall p o n, 0 < n -> exists g h,
  gain_on_win p o n = Ok g /\ gain_on_win o p n = Ok h /\
  g = n * chance o p n /\ 0 < g < n /\ g + h = n /\ (g < h <-> o < p) /\
  chance p o n * g - chance o p n * h = 0.
Proof. exact gains. Qed.
Print Assumptions C49_gains.
Example C49_case : exists g h, gain_on_win 1000 1100 9 = Ok g /\ gain_on_win 1100 1000 9 = Ok h /\ h < g /\ g + h = 9.
Proof.
  destruct (gains 1100 1000 9 ltac:(lra)) as (h & g & A & B & _ & _ & D & E & _). exists g, h. repeat split; auto; [apply E; lra|lra].
Qed.

(* C82 *)
Theorem C82_tourney_chance :
  (forall p a m n, 0 <= n -> exists w r, tourney_chance p a (S m) n = Ok (w, r) /\
     w = chance p a n ^ S m /\ 0 < w < 1 /\ 0 < r < 1 /\ w + r = chance p a n ^ m) /\
  (forall p q a m n w r w' r', 0 < n -> p < q ->
     tourney_chance p a (S m) n = Ok (w, r) -> tourney_chance q a (S m) n = Ok (w', r') -> w < w').
Proof. exact tourney_chances. Qed.
Print Assumptions C82_tourney_chance.
Example C82_case : exists w r, tourney_chance 1000 1000 3 7 = Ok (w, r) /\ w = 1 / 8.
Proof.
  destruct (proj1 tourney_chances 1000 1000 2%nat 7 ltac:(lra)) as (w & r & A & B & _). exists w, r. split; [exact A|]. rewrite B.
  destruct chances as (_ & _ & C & _). destruct (C 1000 1000 7) as [D _]. replace (chance 1000 1000 7) with (1 / 2) by lra. cbn. lra.
Qed.

(* C83 *)
Theorem C83_handicaps : forall p a m n, 0 <= n -> exists w r aw ar,
  tourney_chance p a (S m) n = Ok (w, r) /\ tourney_chance a a (S m) n = Ok (aw, ar) /\
  (forall winner runnerup, exists x y, prize_handicap p a (S m) n winner runnerup = Ok (x, y) /\
     w * x = aw * winner /\ r * y = ar * runnerup /\ (p = a -> x = winner /\ y = runnerup)) /\
  (forall fee, exists f, entryfee_handicap p a (S m) n fee = Ok f /\ f / w = fee / aw /\ (p = a -> f = fee)).
Proof. exact handicaps. Qed.
Print Assumptions C83_handicaps.
Example C83_case : prize_handicap 1000 1000 4 7 100 30 = Ok (100, 30) /\ entryfee_handicap 1000 1000 4 7 100 = Ok 100.
Proof.
  destruct (handicaps 1000 1000 3%nat 7 ltac:(lra)) as (w & r & aw & ar & _ & _ & A & B).
  destruct (A 100 30) as (x & y & E & _ & _ & F). destruct (F eq_refl) as [-> ->]. destruct (B 100) as (f & E' & _ & G). rewrite (G eq_refl) in E'. auto.
Qed.
Open Scope Z_scope.

(* C50 *)
Theorem C50_one_round : forall t shuffle u, field t -> Permutation (shuffle (keys (alive t))) (keys (alive t)) ->
  exists t', round t shuffle u = Ok t' /\ field t' /\
  Permutation (keys (alive t') ++ keys (dead t')) (keys (alive t) ++ keys (dead t)) /\
  all_lives t' = all_lives t - zlen (alive t) / 2 /\
  let ls := losers (rating_in t) (shuffle (keys (alive t))) 0 u in
  (forall j, ~ In j ls -> dget Z.eqb (alive t') j = dget Z.eqb (alive t) j /\ dget Z.eqb (dead t') j = dget Z.eqb (dead t) j) /\
  (forall j, In j ls -> exists p, dget Z.eqb (alive t) j = Some p /\
     if lives p =? 1 then dget Z.eqb (alive t') j = None /\ dget Z.eqb (dead t') j = Some (mkplayer 0 (rating p))
     else dget Z.eqb (alive t') j = Some (mkplayer (lives p - 1) (rating p)) /\ dget Z.eqb (dead t') j = None) /\
  (alive t <> [] -> 1 <= zlen (alive t')).
Proof. exact one_round. Qed.
Print Assumptions C50_one_round.
Example C50_case : field (new_tourney 5) /\ Permutation (rev (keys (alive (new_tourney 5)))) (keys (alive (new_tourney 5))) /\
  (zlen (alive (new_tourney 5)) / 2 = 2)%Z /\ all_lives (new_tourney 5) = 15%Z.
Proof. split; [apply new_field|]. split; [symmetry; apply Permutation_rev|]. split; reflexivity. Qed.

(* C51 *)
Theorem C51_tourney_ends : forall entries shuffle u, let t := entered entries in
  field t -> entries <> [] -> (forall c xs, Permutation (shuffle c xs) xs) ->
  exists t' c, knockout (Z.to_nat (all_lives t)) t 0 shuffle u = Ok (t', c) /\
    zlen (alive t') = 1 /\ Z.of_nat c <= all_lives t - 1 /\
    Permutation (keys (alive t') ++ keys (dead t')) (keys entries).
Proof. exact tourney_ends. Qed.
Print Assumptions C51_tourney_ends.
(* the field of Tourney(8): at most 23 rounds *)
Example C51_case : exists t' c, knockout 24 (new_tourney 8) 0 (fun c xs => if Nat.even c then rev xs else xs) (fun _ _ => (1 / 2)%R) = Ok (t', c) /\
  zlen (alive t') = 1%Z /\ (Z.of_nat c <= 23)%Z.
Proof.
  destruct (tourney_ends (alive (new_tourney 8)) (fun c xs => if Nat.even c then rev xs else xs) (fun _ _ => (1 / 2)%R)) as (t' & c & A & B & D & _).
  - apply new_field.
  - discriminate.
  - intros c xs. destruct (Nat.even c); [symmetry; apply Permutation_rev|reflexivity].
  - exists t', c. split; [exact A|]. split; [exact B|exact D].
Qed.
