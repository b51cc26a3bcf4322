(* Properties C34-C38: GNU Backgammon ids *)
From Verif Require Import Py UtilModel BoardModel BoardSpec GnuModel GnuSpec GnuMatchProofs.

(* C34: the round trip, no two positions with one id, the published bit layout, base64 characters only *)
Theorem C34_position_id :
  (forall p fuel, wf_side (fst p) -> wf_side (snd p) -> (3 <= fuel)%nat -> decode_position fuel (encode_position p) = Ok p) /\
  (forall p q, wf_side (fst p) -> wf_side (snd p) -> wf_side (fst q) -> wf_side (snd q) ->
     encode_position p = encode_position q -> p = q) /\
  (forall p, exists k, bits_of_string (twoside_encode p) = position_bits p ++ repeat false k) /\
  (forall p, Forall (fun c => is_b64 c = true) (encode_position p)).
Proof. exact position_id. Qed.
Print Assumptions C34_position_id.
Example C34_case : wf_side (fst (position default_board)) /\ wf_side (snd (position default_board)) /\
  encode_position (position default_board) = L "4HPwATDgc/ABMA" /\
  decode_position 3 (L "4HPwATDgc/ABMA") = Ok (position default_board).
Proof. split; [split; [reflexivity|repeat constructor; discriminate]|]. split; [split; [reflexivity|repeat constructor; discriminate]|]. vm_compute. auto. Qed.

(* C35: the exact length; the full statement ("always 14") is false, see below *)
Theorem C35_id_length_partial : forall p, wf_side (fst p) -> wf_side (snd p) -> chequers p <= 30 ->
  zlen (encode_position p) = if (chequers p mod 8 =? 6) && negb (chequers p =? 30) then 12 else 14.
Proof. exact id_length. Qed.
Print Assumptions C35_id_length_partial.
Example C35_case : chequers (position default_board) = 30 /\ List.length (encode_position (position default_board)) = 14%nat.
Proof. vm_compute. auto. Qed.

Theorem C35_id_length_refuted : exists p, wf_side (fst p) /\ wf_side (snd p) /\ total (fst p) <= 15 /\ total (snd p) <= 15 /\
  List.length (encode_position p) = 12%nat.
Proof. exact id_length_refuted. Qed.
Print Assumptions C35_id_length_refuted.

(* C36: the exact outcome for every string; OutOfFuel whatever the fuel is an endless loop *)
Theorem C36_decoder_partial :
  (forall s fuel, In EQ s -> decode_position fuel s = Exc TypeError) /\
  (forall s fuel, ~ In EQ s -> significant s mod 4 = 1 -> decode_position fuel s = Exc OutOfFuel) /\
  (forall s, ~ In EQ s -> significant s mod 4 <> 1 ->
     exists r, (forall fuel, (3 <= fuel)%nat -> decode_position fuel s = r) /\
       (r = Exc DecodeError \/ exists p, r = Ok p /\ wf_side (fst p) /\ wf_side (snd p))).
Proof. exact decoder_total. Qed.
Print Assumptions C36_decoder_partial.
Example C36_case : ~ In EQ (L "4HPwATDgc/ABMA") /\ significant (L "4HPwATDgc/ABMA") mod 4 <> 1 /\
  decode_position 3 (L "4HP wATDgc/AB*MA") = Ok (position default_board) /\ decode_position 3 (L "AAAA") = Exc DecodeError.
Proof. split; [intros H; repeat (destruct H as [H|H]; [discriminate|]); exact H|]. split; [discriminate|]. vm_compute. auto. Qed.

Theorem C36_decoder_refuted : exists s, ~ In EQ s /\ forall fuel, decode_position fuel s = Exc OutOfFuel.
Proof. exact decoder_refuted. Qed.
Print Assumptions C36_decoder_refuted.

(* C37 *)
Theorem C37_match_id : forall ov od m fuel, fits m -> (3 <= fuel)%nat -> exists d,
  match_of_board ov m = Ok d /\ d = match_bits m /\
  List.length (encode_match d) = 12%nat /\ Forall (fun c => is_b64 c = true) (encode_match d) /\
  decode_match od fuel (encode_match d) = Ok d /\
  forall x, board_of_match d x = set_position (position x) m.
Proof. exact match_id. Qed.
Print Assumptions C37_match_id.
Example C37_case : let m := set_score (2, 4) (set_match_length 9 (set_rolled (5, 2) (set_game_state 1 default_board))) in
  fits m /\ forall ov, match_of_board ov m = Ok (match_bits m) /\ List.length (encode_match (match_bits m)) = 12%nat.
Proof. cbv zeta. split; [unfold fits, player; vm_compute; repeat match goal with |- _ /\ _ => split end; auto; discriminate|]. intros ov. vm_compute. auto. Qed.

(* C38: full statement: decode (encode m) = m for every board in range; it holds except for running money sessions with points scored *)
Theorem C38_full_board_partial : forall ov od m x fuel, fits m -> wf_side (fst (position m)) -> wf_side (snd (position m)) -> (3 <= fuel)%nat ->
  exists pid mid, encode ov m = Ok (pid, mid) /\
    (~ scored_money m -> decode od fuel x pid mid = (m, Ok tt)) /\
    (scored_money m -> decode od fuel x pid mid = (set_position (position x) m, Exc InconsistentData)).
Proof. exact full_board. Qed.
Print Assumptions C38_full_board_partial.
Example C38_case : forall ov od, let m := set_score (2, 4) (set_match_length 9 (set_rolled (5, 2) (set_game_state 1 default_board))) in
  fits m /\ ~ scored_money m /\ exists pid mid, encode ov m = Ok (pid, mid) /\ decode od 3 default_board pid mid = (m, Ok tt).
Proof.
  intros ov od. cbv zeta. split; [unfold fits, player; vm_compute; repeat match goal with |- _ /\ _ => split end; auto; discriminate|].
  split; [intros (_ & H & _); discriminate|]. eexists; eexists. split; vm_compute; reflexivity.
Qed.

Theorem C38_full_board_refuted : exists m, fits m /\ wf_side (fst (position m)) /\ wf_side (snd (position m)) /\
  forall ov od fuel x, (3 <= fuel)%nat -> exists pid mid e, encode ov m = Ok (pid, mid) /\ snd (decode od fuel x pid mid) = Exc e.
Proof. exact full_board_refuted. Qed.
Print Assumptions C38_full_board_refuted.

(* C41, the GNU half: the position is unchanged, and everything is when the match id is at fault *)
Theorem C41_gnu_partial : forall od fuel x pid mid x' e, decode od fuel x pid mid = (x', Exc e) ->
  position x' = position x /\
  ((exists e', decode_match od fuel mid = Exc e') -> x' = x) /\
  (forall d, decode_match od fuel mid = Ok d -> x' = board_of_match d x).
Proof. exact gnu_failure. Qed.
Print Assumptions C41_gnu_partial.
Example C41_gnu_case : forall od, decode od 3 default_board (L "AAAA") (L "=") = (default_board, Exc TypeError).
Proof. intros od. vm_compute. auto. Qed.

Theorem C41_gnu_refuted : forall od, exists x pid mid x', decode od 3 x pid mid = (x', Exc DecodeError) /\ x' <> x.
Proof. exact gnu_failure_refuted. Qed.
Print Assumptions C41_gnu_refuted.
