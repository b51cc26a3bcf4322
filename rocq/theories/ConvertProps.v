(* Property C161: from an XGID to GNU identifiers *)
From Verif Require Import Py UtilModel UtilSpec BoardModel BoardSpec XgidModel XgidSpec XgidProofs.
From Verif Require GnuModel.
From Verif Require Import GnuSpec ConvertSpec ConvertProofs.

(* C161: what is expected is the board *)
Theorem C161_refuted : exists m s x b, reads s x /\ x_accepted x /\ x_in_range x /\ decode m s = (b, Ok tt) /\
  forall ov od fuel y, (3 <= fuel)%nat -> exists pid mid, GnuModel.encode ov b = Ok (pid, mid) /\ snd (GnuModel.decode od fuel y pid mid) = Exc InconsistentData.
Proof. exact session_lost. Qed.
Print Assumptions C161_refuted.

(* C161: the board of an XGID in range goes through GNU identifiers unchanged, except for unlimited sessions in which a point was made *)
Theorem C161_convert_partial : forall m s x ov, reads s x -> x_accepted x -> x_in_range x -> 0 <= resign_offer m <= 3 ->
  exists b pid mid, decode m s = (b, Ok tt) /\ x_board x m b /\ GnuModel.encode ov b = Ok (pid, mid) /\
    (~ x_scored_money x -> forall od fuel y, (3 <= fuel)%nat -> GnuModel.decode od fuel y pid mid = (b, Ok tt)) /\
    (x_scored_money x -> forall od fuel y, (3 <= fuel)%nat -> snd (GnuModel.decode od fuel y pid mid) = Exc InconsistentData).
Proof. exact xgid_to_gnu. Qed.
Print Assumptions C161_convert_partial.
(* a game of a match to seven *)
Definition match_xgid : str := L "-b----E-C---eE---c-e----B-:2:1:-1:64:1:3:0:7:10".
Example C161_case : (exists x, reads match_xgid x /\ x_accepted x /\ x_in_range x /\ ~ x_scored_money x) /\
  0 <= resign_offer default_board <= 3 /\
  forall ov od, exists pid mid, GnuModel.encode ov (fst (decode default_board match_xgid)) = Ok (pid, mid) /\ pid = L "4HPwATDgc/ABMA" /\
    GnuModel.decode od 3 default_board pid mid = decode default_board match_xgid.
Proof.
  split; [|split; [vm_compute; split; discriminate|intros ov od; eexists; eexists; split; [vm_compute; reflexivity|split; vm_compute; reflexivity]]].
  destruct (proj1 (proj2 (xgid_decode default_board match_xgid)) (fst (decode default_board match_xgid)) ltac:(vm_compute; reflexivity)) as (x & R & A & X).
  exists x. split; [exact R|]. split; [exact A|].
  destruct X as (_ & B1 & _ & _ & _ & B5 & B6 & B7 & _). set (b := fst (decode default_board match_xgid)) in *.
  assert (cube_in_logarithm b = 2 /\ rolled b = (6, 4) /\ score b = (3, 1) /\ match_length b = 7) as (D1 & D2 & D3 & D4) by (vm_compute; auto).
  rewrite D1 in B1. rewrite D2 in B5. rewrite D3 in B6. rewrite D4 in B7. injection B5 as C1 C2. injection B6 as C3 C4.
  unfold x_in_range, x_scored_money. rewrite <- B1, <- B7, <- C1, <- C2, <- C3, <- C4. split; [repeat split; discriminate|]. intros [H _]. discriminate.
Qed.
