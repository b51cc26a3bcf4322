(* Property C163: from a FIBS board line to GNU identifiers *)
From Verif Require Import Py UtilModel UtilSpec BoardModel BoardSpec XgidSpec FibsModel FibsSpec FibsProofs.
From Verif Require GnuModel.
From Verif Require Import GnuSpec FibsIdSpec FibsIdProofs.

(* C163 *)
Theorem C163_line : forall m s v ov, fibs_line s v -> v 32%nat = v 41%nat -> line_in_range v ->
  exists b pid mid, decode m s = (b, Ok tt) /\ line_board v m b /\ GnuModel.encode ov b = Ok (pid, mid) /\
    forall od fuel y, (3 <= fuel)%nat -> GnuModel.decode od fuel y pid mid = (b, Ok tt).
Proof. exact fibs_to_gnu. Qed.
Print Assumptions C163_line.
Example C163_case : fibs_line my_turn (values my_turn) /\ values my_turn 32 = values my_turn 41 /\ line_in_range (values my_turn) /\
  forall ov od, exists pid mid, GnuModel.encode ov (fst (decode default_board my_turn)) = Ok (pid, mid) /\ pid = L "4HPwATDgc/ABMA" /\
    GnuModel.decode od 3 default_board pid mid = decode default_board my_turn.
Proof.
  split; [apply line_check; vm_compute; reflexivity|]. split; [reflexivity|]. split; [unfold line_in_range; vm_compute; repeat split; discriminate|].
  intros ov od; eexists; eexists; split; [vm_compute; reflexivity|split; vm_compute; reflexivity].
Qed.
