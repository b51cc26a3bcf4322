(* Property C165: pictures of boards that were decoded *)
From Verif Require Import Py UtilModel UtilSpec BoardModel BoardSpec.
From Verif Require XgidModel FibsModel FibsProofs GnuModel.
From Verif Require Import XgidSpec FibsSpec ImageModel ImageSpec DecodedSpec DecodedProofs.
Open Scope string_scope.
Open Scope list_scope.
Open Scope Z_scope.

(* C165: what is expected is a picture *)
Theorem C165_refuted : exists pid mid, forall od x, exists b, GnuModel.decode od 3 x pid mid = (b, Ok tt) /\ board_tree b = Exc AssertionError.
Proof. exact gnu_undrawable. Qed.
Print Assumptions C165_refuted.

(* C165: every XGID and every FIBS line that is decoded has its picture; for GNU identifiers exactly the drawable boards have *)
Theorem C165_decoded_partial :
  (forall m s b, XgidModel.decode m s = (b, Ok tt) -> pictured b) /\
  (forall m s v b, fibs_line s v -> FibsModel.decode m s = (b, Ok tt) -> pictured b) /\
  (forall od fuel x pid mid b, GnuModel.decode od fuel x pid mid = (b, Ok tt) ->
     (drawable b -> pictured b) /\ (~ drawable b -> board_tree b = Exc AssertionError)).
Proof. exact decoded_pictures. Qed.
Print Assumptions C165_decoded_partial.
Example C165_case :
  snd (XgidModel.decode default_board (L "-b----E-C---eE---c-e----B-:2:1:-1:64:1:3:0:7:10")) = Ok tt /\
  fibs_line FibsProofs.my_turn (FibsProofs.values FibsProofs.my_turn) /\ snd (FibsModel.decode default_board FibsProofs.my_turn) = Ok tt /\
  (forall od, snd (GnuModel.decode od 3 default_board (L "4HPwATDgc/ABMA") (L "cIkKAAAAAAAA")) = Ok tt) /\ drawable default_board /\ ~ drawable odd_board.
Proof.
  split; [vm_compute; reflexivity|]. split; [apply FibsProofs.line_check; vm_compute; reflexivity|]. split; [vm_compute; reflexivity|].
  split; [intros od; vm_compute; reflexivity|]. split.
  - split; [left; reflexivity|]. split; [right; right; right; reflexivity|]. intros _. split; [left; reflexivity|right; left; reflexivity].
  - intros (_ & _ & H). destruct (H eq_refl) as (_ & [E|[E|E]]); [discriminate E|discriminate E|]. cbn in E. destruct E as (E & _). exact (E eq_refl).
Qed.
