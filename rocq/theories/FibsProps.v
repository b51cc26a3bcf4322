(* Properties C42, C43 and C77-C79: FIBS lines *)
From Verif Require Import Py UtilModel UtilSpec BoardModel BoardSpec XgidSpec FibsModel FibsSpec FibsProofs.

(* C42: full statement: the board is filled whoever is on turn; proved for your turn, refuted below for the other *)
Theorem C42_fibs_line_partial : forall m s v, fibs_line s v ->
  (v 32%nat = v 41%nat -> exists m', decode m s = (m', Ok tt) /\ line_board v m m') /\
  (v 32%nat <> v 41%nat -> exists m', decode m s = (m', Exc NameError) /\
     line_position v (position m') /\ changes_only [FPosition; FCube; FOwner; FCrawford; FRolled; FOnAction; FInner] m m' /\
     rolled m' = (if v 32%nat =? - v 41%nat then (v 35%nat, v 36%nat) else (0, 0))).
Proof. exact fibs_decode. Qed.
Print Assumptions C42_fibs_line_partial.
Example C42_case : fibs_line my_turn (values my_turn) /\ values my_turn 32 = values my_turn 41 /\
  snd (decode default_board my_turn) = Ok tt /\ position (fst (decode default_board my_turn)) = position default_board /\
  rolled (fst (decode default_board my_turn)) = (6, 2).
Proof. split; [apply line_check; vm_compute; reflexivity|]. vm_compute. auto. Qed.

Theorem C42_his_turn_refuted : exists s v, fibs_line s v /\ v 41%nat = 1 /\ v 32%nat = -1 /\ forall m, snd (decode m s) = Exc NameError.
Proof. exact fibs_turn_refuted. Qed.
Print Assumptions C42_his_turn_refuted.

(* C43 *)
Theorem C43_get_dice : forall s,
  (forall a b, get_dice s = Ok (a, b) <->
     exists p x q y r, s = p ++ x :: q ++ y :: r /\ die_digit x /\ die_digit y /\
       Forall (fun c => ~ die_digit c) p /\ Forall (fun c => ~ die_digit c) q /\ Forall (fun c => ~ die_digit c) r /\
       a = code x - 48 /\ b = code y - 48) /\
  (forall e, get_dice s = Exc e -> e = ValueError) /\ (forall a b, get_dice s = Ok (a, b) -> 1 <= a <= 6 /\ 1 <= b <= 6).
Proof. exact dice. Qed.
Print Assumptions C43_get_dice.
Example C43_case : get_dice (L "You roll 6 and 2.") = Ok (6, 2) /\ get_dice (L "no dice") = Exc ValueError /\ get_dice (L "1 2 3") = Exc ValueError.
Proof. vm_compute. auto. Qed.

(* C77 *)
Theorem C77_get_name : forall s,
  (forall n, get_name s = Some n <-> exists r, s = n ++ r /\ n <> [] /\ Forall name_char n /\ (forall c r', r = c :: r' -> ~ name_char c)) /\
  (get_name s = None <-> forall c r, s = c :: r -> ~ name_char c).
Proof. exact name_of. Qed.
Print Assumptions C77_get_name.
Example C77_case : get_name (L "gBOT_<x> moves 22-off") = Some (L "gBOT_<x>") /\ get_name (L " x") = None.
Proof. vm_compute. auto. Qed.

(* C78 *)
Theorem C78_extractors_refuted :
  (forall s, get_taker_name s = Ok None) /\ (forall s who, get_move s who = Exc NameError) /\ (forall s, get_score s = Exc TypeError).
Proof. exact extractors_refuted. Qed.
Print Assumptions C78_extractors_refuted.
Example C78_case : get_name (L "nori accepts") = Some (L "nori") /\ get_taker_name (L "nori accepts") = Ok None.
Proof. vm_compute. auto. Qed.

(* C79 *)
Theorem C79_scores : forall s,
  (forall a b c, get_match_scores s = Ok (a, b, c) <->
     exists p x q y r z t, s = p ++ x ++ q ++ y ++ r ++ z ++ t /\ numeral x /\ numeral y /\ numeral z /\
       no_digit p /\ no_digit q /\ no_digit r /\ no_digit t /\ q <> [] /\ r <> [] /\
       a = horner x /\ b = horner y /\ c = horner z) /\
  (forall e, get_match_scores s = Exc e -> e = ValueError) /\
  (forall a, get_resign_score s = Ok a <-> exists p x t, s = p ++ x ++ t /\ numeral x /\ no_digit p /\ stops t /\ a = horner x) /\
  (forall e, get_resign_score s = Exc e -> e = IndexError /\ no_digit s).
Proof. exact scores. Qed.
Print Assumptions C79_scores.
Example C79_case : get_match_scores (L "score in 15 point match: a-3 b-12") = Ok (15, 3, 12) /\ get_resign_score (L "x wants to resign. You will win 2 points") = Ok 2.
Proof. vm_compute. auto. Qed.
