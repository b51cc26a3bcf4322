(* Properties C01-C03 *)
From Verif Require Import Py UtilModel UtilSpec UtilProofs.

(* C01 *)
Theorem C01_names_roundtrip :
  (forall n, -1 <= n <= 24 -> exists s, move_ntop n = Ok s /\ move_pton s = Ok n) /\
  (forall n who, who = YOU \/ who = HIM -> -1 <= n <= 24 ->
     exists s, position_ntop n who = Ok s /\ position_pton s who = Ok n) /\
  (forall n, n > 24 -> move_ntop n = Exc ValueError /\
     (forall who, who = YOU \/ who = HIM -> position_ntop n who = Exc ValueError)) /\
  (forall n, n < -1 -> move_ntop n = move_ntop (-1) /\
     (forall who, who = YOU \/ who = HIM -> position_ntop n who = position_ntop (-1) who)).
Proof. exact names_roundtrip. Qed.
Print Assumptions C01_names_roundtrip.
Example C01_ex : -1 <= 17 <= 24 /\ move_ntop 17 = Ok (L "18") /\
  position_ntop 17 HIM = Ok (L "7") /\ position_pton (L "7") HIM = Ok 17.
Proof. vm_compute. repeat split; discriminate. Qed.

(* C02 *)
Theorem C02_parser_exact :
  (forall s v, move_pton s = Ok v <->
    (s = L "bar" /\ v = 24) \/ (s = L "off" /\ v = -1) \/
    (exists i, denotes s i /\ 0 <= i <= 25 /\ v = i - 1)) /\
  (forall s e, move_pton s = Exc e -> e = ValueError) /\
  (forall s who v, position_pton s who = Ok v <->
    ((s = L "your home" \/ s = L "his home") /\ v = -1) \/
    ((s = L "your bar" \/ s = L "his bar") /\ v = 24) \/
    (exists i, denotes s i /\ 1 <= i <= 24 /\ v = if who =? 0 then i - 1 else 24 - i)) /\
  (forall s who e, position_pton s who = Exc e -> e = ValueError) /\
  (forall s v, move_pton s = Ok v -> -1 <= v <= 24) /\
  (forall s who v, position_pton s who = Ok v -> -1 <= v <= 24).
Proof. exact parser_exact. Qed.
Print Assumptions C02_parser_exact.
Example C02_ex : move_pton (L " +025 ") = Ok 24 /\ move_pton (L "26") = Exc ValueError /\
  move_pton (L "1 3") = Exc ValueError /\ move_pton (L "") = Exc ValueError /\
  position_pton (L "0") YOU = Exc ValueError.
Proof. vm_compute. auto. Qed.

(* C03 *)
Theorem C03_opponent_and_flip :
  (forall p q, get_opp p = Ok q -> get_opp q = Ok p /\ p <> q) /\
  (forall p, p = YOU \/ p = HIM -> exists q, get_opp p = Ok q /\ (q = YOU \/ q = HIM)) /\
  (forall p, p <> YOU -> p <> HIM -> get_opp p = Exc ValueError) /\
  (forall n, flip_point (flip_point n) = n) /\
  (forall n, 0 <= n <= 23 <-> 0 <= flip_point n <= 23).
Proof. exact opp_flip. Qed.
Print Assumptions C03_opponent_and_flip.
Example C03_ex : get_opp YOU = Ok HIM /\ get_opp CENTER = Exc ValueError /\ flip_point 3 = 20.
Proof. vm_compute. auto. Qed.
