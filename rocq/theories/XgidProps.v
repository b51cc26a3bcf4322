(* Properties C39-C41 and C74-C76: XGID *)
From Verif Require Import Py UtilModel UtilSpec BoardModel BoardSpec XgidModel XgidSpec XgidProofs.

(* C39: also, characters that are not a..o or A..O count as empty *)
Theorem C39_xgid_position : forall s,
  (List.length s = 26%nat -> exists p, decode_position s = Ok p /\ reads_position s p) /\
  (List.length s <> 26%nat -> decode_position s = Exc DecodeError).
Proof. exact xgid_position. Qed.
Print Assumptions C39_xgid_position.
Example C39_case : decode_position (L "-b----E-C---eE---c-e----B-") = Ok (position default_board) /\
  decode_position (L "Ab----E-C---eE---c-e----Bb") = Ok (position default_board).
Proof. vm_compute. auto. Qed.

(* C40: exactly which strings are accepted, what they mean, and how the others fail; the claim "never another exception" is false, see below *)
Theorem C40_xgid_decode_partial : forall m s,
  (forall x, reads s x -> x_accepted x -> exists m', decode m s = (m', Ok tt) /\ x_board x m m') /\
  (forall m', decode m s = (m', Ok tt) -> exists x, reads s x /\ x_accepted x /\ x_board x m m') /\
  (forall m' e, decode m s = (m', Exc e) ->
     (e = DecodeError \/ e = InconsistentData \/ e = TypeError) /\
     ((forall fs, ten_fields s fs -> List.length (nth 0 fs []) <> 26%nat) -> e = DecodeError) /\
     (e = TypeError -> exists fs, ten_fields s fs /\ (not_numeral (nth 5 fs []) \/ not_numeral (nth 6 fs []))) /\
     (forall x, reads s x -> List.length (x_pos x) = 26%nat -> e = InconsistentData /\ ~ x_accepted x)).
Proof. exact xgid_decode. Qed.
Print Assumptions C40_xgid_decode_partial.
Example C40_case :
  snd (decode default_board (L "-B-BAaCBC-----a-----cdBcc-:1:-1:1:66:1:4:0:5:10")) = Ok tt /\
  fst (decode default_board (L "-B-BAaCBC-----a-----cdBcc-:1:-1:1:66:1:4:0:5:10")) =
    mkBoard (map lower (rev (L "-B-BAaCBC-----a-----cdBcc")), map upper (L "B-BAaCBC-----a-----cdBcc-"))
      1 0 1 false 1 1 false 0 (6, 6) 5 (4, 1) /\
  decode default_board (L "nonsense") = (default_board, Exc DecodeError).
Proof. vm_compute. auto. Qed.

Theorem C40_other_exceptions_refuted :
  (exists s, forall m, snd (decode m s) = Exc TypeError) /\ (exists s, forall m, snd (decode m s) = Exc InconsistentData).
Proof. exact xgid_only_decode_error_refuted. Qed.
Print Assumptions C40_other_exceptions_refuted.

(* C41, the XGID half: what a failed decode may change; the full claim (nothing) is false, see below *)
Theorem C41_xgid_partial : forall m s m' e, decode m s = (m', Exc e) ->
  changes_only [FPosition; FCube; FOwner; FOnAction; FRolled; FScore] m m' /\
  ((forall fs, ten_fields s fs -> List.length (nth 0 fs []) <> 26%nat) -> m' = m).
Proof. exact xgid_failure. Qed.
Print Assumptions C41_xgid_partial.
Example C41_xgid_case : decode default_board (L "-b----E-C---eE---c-e----B:0:0:1:00:0:0:0:0:10") = (default_board, Exc DecodeError).
Proof. vm_compute. auto. Qed.

Theorem C41_xgid_refuted : exists m s m', decode m s = (m', Exc DecodeError) /\ position m' <> position m.
Proof. exact xgid_failure_refuted. Qed.
Print Assumptions C41_xgid_refuted.

(* C74 *)
Theorem C74_money_flag_refuted : forall m s x, reads s x -> List.length (x_pos x) = 26%nat -> x_len x = 0 ->
  x_flag x = 2 \/ x_flag x = 3 -> snd (decode m s) = Exc InconsistentData.
Proof. exact xgid_money_flag_refuted. Qed.
Print Assumptions C74_money_flag_refuted.
(* an XGID of xgid_test.py *)
Example C74_case : snd (decode default_board (L "-bCCa-B-a------a---bbbbb-A:1:-1:-1:00:0:0:3:0:10")) = Exc InconsistentData.
Proof. vm_compute. auto. Qed.

(* C75 *)
Theorem C75_xgid_roundtrip : forall b max m, x_expressible b -> ~ In colon max ->
  decode m (x_text b max) = (set_doubled (doubled m) (set_resign_offer (resign_offer m) b), Ok tt).
Proof. exact xgid_roundtrip. Qed.
Print Assumptions C75_xgid_roundtrip.
Example C75_case : let b := set_game_state 1 (set_score (3, 1) (set_match_length 7 (set_rolled (6, 4) (set_cube_owner 1 (set_cube_in_logarithm 2 default_board))))) in
  x_expressible b /\ x_text b (L "10") = L "-b----E-C---eE---c-e----B-:2:1:-1:64:1:3:0:7:10" /\
  decode default_board (x_text b (L "10")) = (b, Ok tt).
Proof.
  cbv zeta. split; [|vm_compute; auto]. split; [split; reflexivity|]. split; [split; repeat (constructor; [split; discriminate|]); constructor|].
  split. { intros k Hk. do 24 (destruct k as [|k]; [vm_compute; auto|]). lia. }
  split; [right; left; reflexivity|]. split; [left; reflexivity|]. split; [reflexivity|]. split; [split; split; discriminate|]. split; [discriminate|]. split; [discriminate|reflexivity].
Qed.

(* C76: everything but two flags is decided by the string; the full claim is false, see below *)
Theorem C76_history_partial : forall s m1 m2 m1', decode m1 s = (m1', Ok tt) ->
  exists m2', decode m2 s = (m2', Ok tt) /\ changes_only [FDoubled; FResign] m1' m2' /\
    doubled m1' = doubled m1 /\ resign_offer m1' = resign_offer m1.
Proof. exact xgid_history. Qed.
Print Assumptions C76_history_partial.
Example C76_case : snd (decode default_board (L "-b----E-C---eE---c-e----B-:2:1:-1:64:1:3:0:7:10")) = Ok tt.
Proof. vm_compute. auto. Qed.

Theorem C76_history_refuted : exists s m1 m2, snd (decode m1 s) = Ok tt /\ snd (decode m2 s) = Ok tt /\
  doubled (fst (decode m1 s)) <> doubled (fst (decode m2 s)) /\ resign_offer (fst (decode m1 s)) <> resign_offer (fst (decode m2 s)).
Proof. exact xgid_history_refuted. Qed.
Print Assumptions C76_history_refuted.
