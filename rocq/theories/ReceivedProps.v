(* Property C167: boards that were received and the pictures of the themes *)
From Verif Require Import Py UtilModel UtilSpec BoardModel BoardSpec.
From Verif Require XgidModel FibsModel FibsProofs GnuModel.
From Verif Require Import XgidSpec FibsSpec ImageModel ImageSpec DecodedSpec ReceivedSpec ReceivedProofs.
Open Scope string_scope.
Open Scope list_scope.
Open Scope Z_scope.

(* C167: every XGID and FIBS line, and GNU identifiers of boards that have a picture (C165) *)
Theorem C167_received :
  (forall m s b, XgidModel.decode m s = (b, Ok tt) -> real_board b -> themed b) /\
  (forall m s v b, fibs_line s v -> FibsModel.decode m s = (b, Ok tt) -> real_board b -> themed b) /\
  (forall od fuel x pid mid b, (3 <= fuel)%nat -> GnuModel.decode od fuel x pid mid = (b, Ok tt) -> drawable b -> real_board b -> themed b).
Proof. exact received_themed. Qed.
Print Assumptions C167_received.
(* a board of each notation *)
Example C167_case :
  (let r := XgidModel.decode default_board (L "-b----E-C---eE---c-e----B-:2:1:-1:64:1:3:0:7:10") in snd r = Ok tt /\ real_board (fst r) /\ rolled (fst r) = (6, 4)) /\
  (let r := FibsModel.decode default_board FibsProofs.my_turn in fibs_line FibsProofs.my_turn (FibsProofs.values FibsProofs.my_turn) /\ snd r = Ok tt /\ real_board (fst r)) /\
  (forall od, let r := GnuModel.decode od 3 default_board (L "4HPwATDgc/ABMA") (L "cIkKAAAAAAAA") in snd r = Ok tt /\ real_board (fst r) /\ drawable (fst r)).
Proof.
  assert (R : forall b, ((zsum (fst (position b)) <=? 15) && (zsum (snd (position b)) <=? 15) && (0 <=? cube_in_logarithm b) &&
    ((fst (rolled b) =? 0) && (snd (rolled b) =? 0) || (1 <=? fst (rolled b)) && (fst (rolled b) <=? 6) && (1 <=? snd (rolled b)) && (snd (rolled b) <=? 6))) = true -> real_board b).
  { intros b H. apply andb_prop in H as (H & D). apply andb_prop in H as (H & C). apply andb_prop in H as (A & B). unfold real_board.
    destruct (rolled b) as [x y]; cbn [fst snd] in *. repeat split; try lia. apply Bool.orb_prop in D as [D|D]; [left; apply andb_prop in D as (D & E); f_equal; lia|right; lia]. }
  split; [cbv zeta; split; [vm_compute; reflexivity|split; [apply R; vm_compute; reflexivity|vm_compute; reflexivity]]|].
  split; [cbv zeta; split; [apply FibsProofs.line_check; vm_compute; reflexivity|split; [vm_compute; reflexivity|apply R; vm_compute; reflexivity]]|].
  intros od. cbv zeta. split; [vm_compute; reflexivity|]. split; [apply R; vm_compute; reflexivity|].
  split; [vm_compute; auto|]. split; [right; vm_compute; auto|]. intros _. split; [vm_compute; auto|right; left; vm_compute; reflexivity].
Qed.

(* C167: the condition on the dice is needed, since decoders accept dice of nine pips *)
Theorem C167_dice_refuted : exists s b name rs w h, XgidModel.decode default_board s = (b, Ok tt) /\ ThemeSpec.ships name rs w h /\ draw rs b (w, h) = Exc AssertionError.
Proof. exact dice_refuted. Qed.
Print Assumptions C167_dice_refuted.
