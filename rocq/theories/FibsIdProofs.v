(* C163: from a FIBS board line to GNU identifiers *)
From Coq Require Import Lia.
From Verif Require Import Py UtilModel UtilSpec BoardModel BoardSpec XgidSpec FibsModel FibsSpec FibsProofs.
From Verif Require GnuModel.
From Verif Require Import GnuSpec GnuProofs GnuMatchProofs FibsIdSpec.

Lemma line_wf v p : line_position v p -> wf_side (fst p) /\ wf_side (snd p).
Proof.
  intros (A & B & R). split; (split; [assumption|]); apply Forall_forall; intros n I; apply (In_nth _ _ 0) in I; destruct I as (k & K & <-).
  - rewrite A in K. destruct (R k K) as [-> _]. cbv zeta. match goal with |- 0 <= (if ?c then _ else _) => destruct c end; [apply Z.abs_nonneg|lia].
  - rewrite B in K. destruct (R k K) as [_ ->]. cbv zeta. match goal with |- 0 <= (if ?c then _ else _) => destruct c end; [apply Z.abs_nonneg|lia].
Qed.
Lemma log_range n : n < 65536 -> 0 <= Z.log2 n <= 15.
Proof.
  intros H. split; [apply Z.log2_nonneg|]. destruct (Z.le_gt_cases n 0) as [L|L]; [rewrite Z.log2_nonpos by exact L; lia|].
  assert (Z.log2 n < 16) by (apply Z.log2_lt_pow2; [exact L|exact H]). lia.
Qed.
Lemma fibs_to_gnu : forall m s v ov, fibs_line s v -> v 32%nat = v 41%nat -> line_in_range v ->
  exists b pid mid, decode m s = (b, Ok tt) /\ line_board v m b /\ GnuModel.encode ov b = Ok (pid, mid) /\
    forall od fuel y, (3 <= fuel)%nat -> GnuModel.decode od fuel y pid mid = (b, Ok tt).
Proof.
  intros m s v ov R T Q. destruct (proj1 (fibs_decode m s v R) T) as (b & E & X). exists b.
  pose proof X as (P & B1 & B2 & B3 & B4 & B5 & B6 & B7 & B8 & B9 & B10 & B11). destruct (line_wf v _ P) as [W1 W2].
  destruct Q as (Q1 & Q2 & Q3 & Q4 & Q5 & Q6). pose proof (log_range _ Q6) as Hl.
  assert (O : 0 <= line_owner v <= 3) by (unfold line_owner; destruct (_ && _); [lia|destruct (_ && _); lia]).
  assert (I : (if v 40%nat =? 0 then 0 else 1) = 0 \/ (if v 40%nat =? 0 then 0 else 1) = 1) by (destruct (v 40%nat =? 0); auto).
  assert (F : fits b).
  { unfold fits, player. rewrite B1, B2, B4, B5, B6, B7, B9, B10, B11. cbn [fst snd]. intuition lia. }
  assert (M : ~ scored_money b) by (unfold scored_money; rewrite B10; lia).
  destruct (full_board ov (fun _ => Exc TypeError) b b 3 F W1 W2 (le_n 3)) as (pid & mid & Ee & _). exists pid, mid.
  split; [exact E|]. split; [exact X|]. split; [exact Ee|].
  intros od fuel y Hf; destruct (full_board ov od b y fuel F W1 W2 Hf) as (pid' & mid' & Ee' & K1 & _); rewrite Ee in Ee'; injection Ee' as <- <-. apply K1, M.
Qed.
