(* Properties C30-C33: database bytes *)
From Verif Require Import Py UtilModel BoardModel BoardSpec DbModel DbSpec DbProofs.
From Coq Require Import Reals.
Open Scope Z_scope.

(* C30 *)
Theorem C30_signed_byte :
  (forall c, value_of c (signedord c)) /\
  (forall n c, signedchr n = Ok c <-> value_of c n) /\
  (forall n, -128 <= n <= 127 -> exists c, signedchr n = Ok c /\ signedord c = n) /\
  (forall c, signedchr (signedord c) = Ok c) /\
  (forall n, ~ -128 <= n <= 127 -> signedchr n = Exc AssertionError).
Proof. exact signed_byte. Qed.
Print Assumptions C30_signed_byte.
Example C30_case : signedchr (-128) = Ok (ascii_of_nat 128) /\ signedord (ascii_of_nat 255) = -1 /\ signedchr 128 = Exc AssertionError.
Proof. vm_compute. auto. Qed.

(* C31 *)
Theorem C31_position_code :
  (forall p s, encode_position p = Ok s -> List.length s = 26%nat /\
     forall k, 0 <= k <= 25 -> exists v, byte_at s k v /\ layout p k v) /\
  (forall p, codable p <-> exists s, encode_position p = Ok s /\ decode_position s = Ok p) /\
  (forall s, List.length s = 26%nat -> exists p, decode_position s = Ok p /\ codable p /\
     exists s', encode_position p = Ok s' /\
       (forall k v, 1 <= k <= 24 -> byte_at s k v -> byte_at s' k v) /\
       (forall v, byte_at s 0 v -> byte_at s' 0 (Z.min v 0)) /\
       (forall v, byte_at s 25 v -> byte_at s' 25 (Z.max v 0))) /\
  (forall s, List.length s <> 26%nat -> decode_position s = Exc AssertionError).
Proof. exact position_code. Qed.
Print Assumptions C31_position_code.
Example C31_case : codable (position default_board) /\
  encode_position (position default_board) = Ok (map ascii_of_nat [0;254;0;0;0;0;5;0;3;0;0;0;251;5;0;0;0;253;0;251;0;0;0;0;2;0]%nat).
Proof.
  split; [|vm_compute; reflexivity]. unfold codable. split; [reflexivity|]. split; [reflexivity|].
  split; [repeat constructor; discriminate|]. split; [repeat constructor; discriminate|].
  intros n Hn. assert (In n (zrange 0 24)) as I by (apply PyFacts.In_zrange; lia). cbn in I.
  repeat (destruct I as [<-|I]; [vm_compute; auto|]). destruct I.
Qed.

(* C32 *)
Theorem C32_distance_metric :
  (forall xs ys, List.length xs = List.length ys -> exists f g,
     (forall i c, nth_error xs i = Some c -> value_of c (f i)) /\
     (forall i c, nth_error ys i = Some c -> value_of c (g i)) /\
     distance xs ys = euclid (List.length xs) f g) /\
  (forall xs ys, 0 <= distance xs ys) /\
  (forall xs ys, distance xs ys = distance ys xs) /\
  (forall xs ys, List.length xs = List.length ys -> (distance xs ys = 0 <-> xs = ys)) /\
  (forall xs ys zs, List.length xs = List.length ys -> List.length ys = List.length zs ->
     (root (distance xs zs) <= root (distance xs ys) + root (distance ys zs))%R) /\
  (forall xs ys zs, List.length xs = List.length ys -> distance (xs ++ zs) ys = distance xs ys /\ distance ys (xs ++ zs) = distance ys xs).
Proof. exact distance_metric. Qed.
Print Assumptions C32_distance_metric.
Example C32_case : distance (map ascii_of_nat [0; 255; 3]%nat) (map ascii_of_nat [0; 2; 1]%nat) = 13.
Proof. vm_compute. auto. Qed.

(* C33 *)
Theorem C33_db_roundtrip :
  (forall b, player (on_action b) -> codable (mover b, side b (other (on_action b))) ->
     exists e, db_new b = Ok e /\ db_tomodel e = Ok b) /\
  (forall b b' e, db_new b = Ok e -> db_tomodel e = Ok b' -> changes_only [FPosition] b b') /\
  (forall b b' e e', db_new b = Ok e -> db_new b' = Ok e' -> fst (flip b) = b' -> snd (flip b) = Ok tt ->
     db_bytes e' = db_bytes e) /\
  (forall b, ~ player (on_action b) -> db_new b = Exc AssertionError).
Proof. exact db_roundtrip. Qed.
Print Assumptions C33_db_roundtrip.
Example C33_case : let b := set_on_action HIM (set_position (2 :: repeat 0 24, repeat 0 5 ++ 3 :: repeat 0 19) (set_rolled (6, 4) default_board)) in
  player (on_action b) /\ (exists e, db_new b = Ok e /\ db_tomodel e = Ok b).
Proof. cbv zeta. split; [right; reflexivity|]. eexists. split; vm_compute; reflexivity. Qed.
