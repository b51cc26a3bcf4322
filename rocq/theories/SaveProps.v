(* Property C164: a session can be written down as GNU identifiers at any time *)
From Verif Require Import Py UtilModel BoardModel BoardSpec GnuModel GnuSpec SaveSpec SaveProofs.
From Verif Require Import MoveModel MoveSpec GameModel GameSpec GameProofs SaveGame.

(* C164: after any calls, those that fail included *)
Theorem C164_session : forall m l, fits m -> ~ scored_money m -> Forall real_dice l ->
  let b := acts l m in
  score_fits b -> wf_side (fst (position b)) -> wf_side (snd (position b)) ->
  forall ov, exists pid mid, encode ov b = Ok (pid, mid) /\
    forall od fuel x, (3 <= fuel)%nat -> decode od fuel x pid mid = (b, Ok tt).
Proof. exact session_saved. Qed.
Print Assumptions C164_session.
(* a session: an opening roll that is played, a call that fails, and a double that is dropped *)
Example C164_case : let m := set_game_state 1 default_board in
  let l := [ARoll (3, 1); AMove (mkPM 3 7 4 false); AMove (mkPM 1 5 4 false); APickup; ATake 0; ADouble 1; ADrop 0] in
  let b := acts l m in
  fits m /\ ~ scored_money m /\ Forall real_dice l /\ score_fits b /\ wf_side (fst (position b)) /\ wf_side (snd (position b)) /\
  score b = (0, 1) /\ match_length b = 0 /\ nth 4 (fst (position b)) 0 = 2 /\
  forall ov od, exists pid mid, encode ov b = Ok (pid, mid) /\ decode od 3 default_board pid mid = (b, Ok tt).
Proof.
  cbv zeta. split; [unfold fits, player; vm_compute; repeat match goal with |- _ /\ _ => split end; auto; discriminate|].
  split; [unfold scored_money; vm_compute; intuition discriminate|]. split; [repeat constructor; discriminate|].
  split; [split; vm_compute; discriminate|]. split; [split; [reflexivity|vm_compute; repeat constructor; discriminate]|].
  split; [split; [reflexivity|vm_compute; repeat constructor; discriminate]|]. split; [reflexivity|]. split; [reflexivity|]. split; [reflexivity|].
  intros ov od. eexists; eexists. split; vm_compute; reflexivity.
Qed.

(* C164: games played with the suggestions of the library (C119), where no count can become negative *)
Theorem C164_game : forall b0 ds, proper b0 -> fits b0 -> ~ scored_money b0 -> Forall fair ds -> quiet false ds (Waiting b0) ->
  let b := board_of (game ds (Waiting b0)) in score_fits b ->
  forall ov, exists pid mid, GnuModel.encode ov b = Ok (pid, mid) /\
    forall od fuel x, (3 <= fuel)%nat -> GnuModel.decode od fuel x pid mid = (b, Ok tt).
Proof. exact game_saved. Qed.
Print Assumptions C164_game.
(* a turn of a match, a double that is taken, a throw, and a resignation that is accepted *)
Definition saved_game : list deed := [DRoll (3, 1); DAsk (TFrom 7); DAsk (TFrom 5); DPickup; DTalk (ADouble 1); DTalk (ATake 0); DRoll (6, 6); DTalk (AOffer 1 2); DTalk (AAccept 0)].
Example C164_game_case : let b0 := set_match_length 7 (set_game_state 1 default_board) in
  let b := board_of (game saved_game (Waiting b0)) in
  proper b0 /\ fits b0 /\ ~ scored_money b0 /\ Forall fair saved_game /\ quiet false saved_game (Waiting b0) /\ score_fits b /\ position b <> position b0 /\ doubled b = true /\ rolled b = (6, 6) /\ score b <> score b0.
Proof.
  cbv zeta. split; [apply proper_dec; vm_compute; reflexivity|].
  split; [unfold fits, player; vm_compute; repeat match goal with |- _ /\ _ => split end; auto; discriminate|].
  split; [unfold scored_money; vm_compute; intuition discriminate|]. split; [repeat constructor; cbn; try (unfold a_die; cbn); lia|].
  split; [apply quiet_dec; vm_compute; reflexivity|]. split; [split; vm_compute; discriminate|]. split; [vm_compute; discriminate|].
  split; [vm_compute; reflexivity|]. split; [vm_compute; reflexivity|]. vm_compute; discriminate.
Qed.
