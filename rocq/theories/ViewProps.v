(* Property C162: which boards have the same GNU identifiers *)
From Verif Require Import Py UtilModel BoardModel BoardSpec GnuModel GnuSpec ViewSpec ViewProofs.

(* C162: the position identifier is the view of the player on action, the match identifier the rest, and both together are the board *)
Theorem C162_identifiers :
  (forall ov m n pid mid pid' mid', fits m -> fits n ->
     wf_side (fst (position m)) -> wf_side (snd (position m)) -> wf_side (fst (position n)) -> wf_side (snd (position n)) ->
     encode ov m = Ok (pid, mid) -> encode ov n = Ok (pid', mid') ->
     (pid = pid' <-> view m = view n) /\ (mid = mid' <-> same_match m n) /\ (pid = pid' /\ mid = mid' <-> m = n)) /\
  (forall ov m pid mid, fits m -> encode ov m = Ok (pid, mid) -> exists mid', encode ov (turned m) = Ok (pid, mid') /\ mid' <> mid).
Proof. exact which_board. Qed.
Print Assumptions C162_identifiers.
(* a session with points, whose identifiers decode refuses, and a position in which the sides differ *)
Example C162_case : forall ov, let m := set_score (3, 1) (set_game_state 1 (set_position (3 :: repeat 0 24, 0 :: 5 :: repeat 0 23) default_board)) in
  fits m /\ wf_side (fst (position m)) /\ wf_side (snd (position m)) /\ turned m <> m /\ view (turned m) = view m /\
  exists pid mid mid', encode ov m = Ok (pid, mid) /\ encode ov (turned m) = Ok (pid, mid') /\ mid <> mid'.
Proof.
  intros ov. cbv zeta. split; [unfold fits, player; vm_compute; repeat match goal with |- _ /\ _ => split end; auto; discriminate|].
  split; [split; [reflexivity|repeat constructor; discriminate]|]. split; [split; [reflexivity|repeat constructor; discriminate]|].
  split; [discriminate|]. split; [reflexivity|]. eexists; eexists; eexists. split; [vm_compute; reflexivity|]. split; [vm_compute; reflexivity|]. discriminate.
Qed.

(* C162: the flip of an editor keeps the position identifier *)
Theorem C162_flip : forall ov m pid mid, fits m -> cube_owner m <> 2 -> encode ov m = Ok (pid, mid) ->
  exists m' mid', flip m = (m', Ok tt) /\ encode ov m' = Ok (pid, mid') /\ mid' <> mid.
Proof. exact flip_keeps. Qed.
Print Assumptions C162_flip.
Example C162_flip_case : let m := set_score (3, 1) (set_match_length 5 (set_cube_owner 1 (set_position (3 :: repeat 0 24, 0 :: 5 :: repeat 0 23) default_board))) in
  fits m /\ cube_owner m <> 2 /\ exists m', flip m = (m', Ok tt) /\ score m' = (1, 3) /\ cube_owner m' = 0 /\ m' <> m.
Proof.
  cbv zeta. split; [unfold fits, player; vm_compute; repeat match goal with |- _ /\ _ => split end; auto; discriminate|]. split; [discriminate|].
  eexists. split; [vm_compute; reflexivity|]. split; [reflexivity|]. split; [reflexivity|]. discriminate.
Qed.
