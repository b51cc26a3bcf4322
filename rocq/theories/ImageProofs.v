(* The results about pictures of boards, in the form in which they are stated. *)
From Verif Require Import Py PyFacts Dict DictFacts UtilModel BoardModel BoardSpec ImageModel ImageSpec ImageCss ImageTree ImageBoard ImageReach ImageMag ImageHeap ImageSheet.
From Coq Require Import Floats.SpecFloat.
Open Scope string_scope.
Open Scope list_scope.
Open Scope Z_scope.

Lemma tree_shows_board : forall b t, sides_ok b -> board_tree b = Ok t ->
  shows_chequers b t /\ shows_cube b t /\ shows_dice b t /\ shows_resign b t /\ shows_match b t.
Proof. exact board_shown. Qed.
Lemma tree_hides_cube : exists l t, let b := acts l ongoing in
  board_tree b = Ok t /\ doubled b = true /\ cube_owner b = CENTER /\ resign_offer b = 1 /\
  written_on ECube t = [] /\ written_on EResign t = [].
Proof. exists [ADouble YOU; ATake HIM; ARoll (3, 1); AOffer YOU 1]. eexists. vm_compute. repeat split. Qed.
Lemma resign_as_double : exists l t, let b := acts l ongoing in
  board_tree b = Ok t /\ is_to_accept_resign b HIM = true /\ resign_offer b = 1 /\
  written_on EResign t = [] /\ written_on EAction t = [L "you doubled. him to take or drop."].
Proof. exists [ADouble YOU; ATake HIM; AOffer YOU 1]. eexists. vm_compute. repeat split. Qed.
Lemma shown_iff : forall b, sides_ok b ->
  ((exists t, board_tree b = Ok t) <-> drawable b) /\ (~ drawable b -> board_tree b = Exc AssertionError).
Proof. exact board_tree_iff. Qed.
Lemma start_at_rest : at_rest default_board /\ at_rest ongoing.
Proof.
  assert (R : forall b, position b = position default_board -> cube_owner b = CENTER -> on_action b = YOU -> on_inner_action b = YOU -> doubled b = false -> resign_offer b = 0 -> at_rest b).
  { intros b E1 E2 E3 E4 E5 E6. unfold at_rest, in_play, sides_ok, player_no. rewrite E1, E2, E3, E4, E5, E6. repeat split; auto; try reflexivity. intros _ H. lia. }
  split; apply R; reflexivity.
Qed.
