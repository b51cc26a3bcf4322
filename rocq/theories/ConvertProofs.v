(* C161: from an XGID to GNU identifiers *)
From Coq Require Import Lia.
From Verif Require Import Py UtilModel UtilSpec BoardModel BoardSpec XgidModel XgidSpec XgidProofs.
From Verif Require GnuModel.
From Verif Require Import GnuSpec GnuProofs GnuMatchProofs ConvertSpec.

Lemma letters_nonneg c : 0 <= lower c /\ 0 <= upper c.
Proof. unfold lower, upper. cbv zeta. split; destruct (_ && _) eqn:E; lia. Qed.
Lemma reads_wf s p : reads_position s p -> wf_side (fst p) /\ wf_side (snd p).
Proof.
  intros (A & B & R). split; (split; [assumption|]); apply Forall_forall; intros n I; apply (In_nth _ _ 0) in I; destruct I as (k & K & <-).
  - rewrite A in K. destruct (R k K) as [-> _]. apply letters_nonneg.
  - rewrite B in K. destruct (R k K) as [_ ->]. apply letters_nonneg.
Qed.
(* one character is a digit *)
Lemma one_digit c z : denotes [c] z -> 0 <= z <= 9.
Proof.
  intros (l & ds & r & _ & _ & N & D & H). destruct ds as [|d ds]; [contradiction|].
  destruct H as [[E ->]|[[E _]|[E _]]]; apply (f_equal (@List.length ascii)) in E as Q; rewrite ?app_length in Q; cbn [List.length] in Q; rewrite ?app_length in Q; cbn [List.length] in Q; try lia.
  destruct ds; [|cbn [List.length] in Q; lia]. inversion D as [|? ? Hd _]; subst. unfold dec_digit in Hd. unfold horner. cbn. lia.
Qed.

Lemma xgid_to_gnu : forall m s x ov, reads s x -> x_accepted x -> x_in_range x -> 0 <= resign_offer m <= 3 ->
  exists b pid mid, decode m s = (b, Ok tt) /\ x_board x m b /\ GnuModel.encode ov b = Ok (pid, mid) /\
    (~ x_scored_money x -> forall od fuel y, (3 <= fuel)%nat -> GnuModel.decode od fuel y pid mid = (b, Ok tt)) /\
    (x_scored_money x -> forall od fuel y, (3 <= fuel)%nat -> snd (GnuModel.decode od fuel y pid mid) = Exc InconsistentData).
Proof.
  intros m s x ov R A Q Hr. destruct (proj1 (xgid_decode m s) x R A) as (b & E & X). exists b.
  assert (D : 0 <= x_r1 x <= 9 /\ 0 <= x_r2 x <= 9).
  { destruct R as (cube & owner & turn & d1 & d2 & your & his & flag & len & max & _ & _ & _ & _ & R1 & R2 & _).
    split; [apply (one_digit d1), R1|apply (one_digit d2), R2]. }
  pose proof X as (P & B1 & B2 & B3 & B4 & B5 & B6 & B7 & B8 & B9 & B10 & B11).
  destruct (reads_wf _ _ P) as [W1 W2]. destruct A as (A1 & A2 & A3 & A4 & A5). destruct Q as (Q1 & Q2 & Q3 & Q4 & Q5 & Q6).
  assert (T : x_seat (x_turn x) = 0 \/ x_seat (x_turn x) = 1) by (destruct A3 as [->| ->]; cbn; auto).
  assert (O : 0 <= x_seat (x_owner x) <= 3) by (destruct A2 as [->|[->| ->]]; cbn; lia).
  assert (F : fits b).
  { unfold fits, player. rewrite B1, B2, B3, B4, B5, B6, B7, B9, B11. cbn [fst snd]. intuition lia. }
  assert (M : scored_money b <-> x_scored_money x).
  { unfold scored_money, x_scored_money. rewrite B6, B7, B9. cbn [fst snd]. intuition lia. }
  destruct (full_board ov (fun _ => Exc TypeError) b b 3 F W1 W2 (le_n 3)) as (pid & mid & Ee & _). exists pid, mid.
  split; [exact E|]. split; [exact X|]. split; [exact Ee|].
  split; intros S od fuel y Hf; destruct (full_board ov od b y fuel F W1 W2 Hf) as (pid' & mid' & Ee' & K1 & K2); rewrite Ee in Ee'; injection Ee' as <- <-.
  - apply K1. rewrite M. exact S.
  - rewrite K2 by (apply M, S). reflexivity.
Qed.
Definition session_xgid : str := L "-b----E-C---eE---c-e----B-:0:0:1:52:2:1:0:0:10".
Lemma session_lost : exists m s x b, reads s x /\ x_accepted x /\ x_in_range x /\ decode m s = (b, Ok tt) /\
  forall ov od fuel y, (3 <= fuel)%nat -> exists pid mid, GnuModel.encode ov b = Ok (pid, mid) /\ snd (GnuModel.decode od fuel y pid mid) = Exc InconsistentData.
Proof.
  destruct (proj1 (proj2 (xgid_decode default_board session_xgid)) (fst (decode default_board session_xgid)) ltac:(vm_compute; reflexivity)) as (x & R & A & X).
  exists default_board, session_xgid, x, (fst (decode default_board session_xgid)).
  assert (V : x_cube x = 0 /\ x_r1 x = 5 /\ x_r2 x = 2 /\ x_your x = 2 /\ x_his x = 1 /\ x_len x = 0).
  { destruct X as (_ & B1 & _ & _ & _ & B5 & B6 & B7 & _). set (b := fst (decode default_board session_xgid)) in *.
    assert (cube_in_logarithm b = 0 /\ rolled b = (5, 2) /\ score b = (1, 2) /\ match_length b = 0) as (D1 & D2 & D3 & D4) by (vm_compute; auto).
    rewrite D1 in B1. rewrite D2 in B5. rewrite D3 in B6. rewrite D4 in B7. injection B5 as C1 C2. injection B6 as C3 C4. intuition congruence. }
  destruct V as (V1 & V2 & V3 & V4 & V5 & V6).
  assert (Q : x_in_range x) by (unfold x_in_range; rewrite V1, V2, V3, V4, V5, V6; lia).
  assert (S : x_scored_money x) by (unfold x_scored_money; rewrite V4, V6; lia).
  split; [exact R|]. split; [exact A|]. split; [exact Q|]. split; [vm_compute; reflexivity|].
  intros ov od fuel y Hf. destruct (xgid_to_gnu default_board session_xgid x ov R A Q ltac:(vm_compute; split; discriminate)) as (b & pid & mid & E & _ & Ee & _ & K).
  exists pid, mid. rewrite E. split; [exact Ee|]. apply K; assumption.
Qed.
