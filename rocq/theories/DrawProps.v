(* Property C166: games and the pictures of the themes *)
From Verif Require Import Py UtilModel BoardModel BoardSpec ImageModel ImageSpec.
From Verif Require Import MoveModel MoveSpec GameModel GameSpec GameProofs.
From Verif Require ThemeSpec ThemeModel ImageModel.
From Verif Require Import DrawSpec DrawProofs.

(* C166: at any moment of a game played with the suggestions of the library (C119) *)
Theorem C166_drawn : forall b0 ds, proper b0 -> laid_out b0 -> Forall fair ds -> quiet false ds (Waiting b0) ->
  let b := board_of (game ds (Waiting b0)) in
  (exists t, board_tree b = Ok t /\ shows_chequers b t /\ shows_cube b t /\ shows_dice b t /\ shows_resign b t /\ shows_match b t) /\
  forall name w h, In (name, (w, h)) ThemeSpec.theme_sizes -> exists rs cs, ThemeSpec.ships name rs w h /\ ImageModel.draw rs b (w, h) = Ok cs /\ cs <> [].
Proof. exact game_drawn. Qed.
Print Assumptions C166_drawn.
(* a turn, a double that is taken, and a throw *)
Definition drawn_game : list deed := [DRoll (3, 1); DAsk (TFrom 7); DAsk (TFrom 5); DPickup; DTalk (ADouble 1); DTalk (ATake 0); DRoll (6, 6)].
Example C166_case : proper ongoing /\ laid_out ongoing /\ Forall fair drawn_game /\ quiet false drawn_game (Waiting ongoing) /\
  let b := board_of (game drawn_game (Waiting ongoing)) in
  position b <> position ongoing /\ rolled b = (6, 6) /\ doubled b = true /\
  match board_tree b with Ok t => written_on ECube t = [L "0"] /\ written_on EDie t = [L "6"; L "6"] | Exc _ => False end.
Proof.
  split; [apply proper_dec; vm_compute; reflexivity|].
  split; [split; [exact (proj2 ImageProofs.start_at_rest)|]; split; [left; reflexivity|vm_compute; discriminate]|].
  split; [repeat constructor; cbn; try (unfold a_die; cbn); lia|]. split; [apply quiet_dec; vm_compute; reflexivity|].
  cbv zeta. split; [vm_compute; discriminate|]. split; [vm_compute; reflexivity|]. split; [vm_compute; reflexivity|]. vm_compute. split; reflexivity.
Qed.
