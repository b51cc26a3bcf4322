(* The parameters of a bear-off position. *)
From Verif Require Import Py PyFacts BoardSpec BearoffModel BearoffSpec BearoffProofs.

Lemma nonneg_nth t k : Forall (fun x => 0 <= x) t -> 0 <= nth k t 0.
Proof. intros F. destruct (Nat.lt_ge_cases k (List.length t)) as [Q|Q]; [rewrite Forall_forall in F; apply F, nth_In, Q|rewrite nth_overflow by exact Q; lia]. Qed.
Lemma total_zero t : Forall (fun x => 0 <= x) t -> total t = 0 -> forall k, nth k t 0 = 0.
Proof.
  induction 1 as [|x t H F IH]; intros T k; [destruct k; reflexivity|]. cbn [total fold_right] in T. fold (total t) in T. pose proof (total_nonneg t F). destruct k as [|k]; cbn [nth]; [lia|apply IH; lia].
Qed.
Lemma last_one : forall t, (forall k, nth k t 0 = 0) \/ exists k, nth k t 0 <> 0 /\ forall j, (k < j)%nat -> nth j t 0 = 0.
Proof.
  induction t as [|x t IH]; [left; intros k; destruct k; reflexivity|]. destruct IH as [Z|(k & N & M)].
  - destruct (Z.eq_dec x 0) as [->|Q]; [left; intros k; destruct k; [reflexivity|apply Z]|]. right. exists 0%nat. split; [exact Q|]. intros j J. destruct j; [lia|apply Z].
  - right. exists (S k). split; [exact N|]. intros j J. destruct j; [lia|]. apply M. lia.
Qed.
Lemma all_zero : forall t, (forall k, nth k t 0 = 0) -> total t = 0.
Proof.
  induction t as [|x t IH]; intros Z; [reflexivity|]. cbn [total fold_right]. fold (total t). pose proof (Z 0%nat) as Z0. cbn in Z0. rewrite IH; [lia|]. intros k. exact (Z (S k)).
Qed.
Lemma nth_skip : forall n (t : list Z) i, nth i (skipn n t) 0 = nth (n + i) t 0.
Proof. induction n as [|n IH]; intros t i; [reflexivity|]. destruct t as [|x t]; [destruct i; reflexivity|]. exact (IH t i). Qed.
Lemma total_two a b : total (a ++ b) = total a + total b.
Proof. unfold total. induction a as [|x a IH]; cbn; [reflexivity|]. rewrite IH. lia. Qed.
(* where a side ends *)
Lemma side_end t : wf_side t -> 0 < total t -> exists k, (k <= 24)%nat /\ backward t = Ok (Z.of_nat (S k)) /\ forall p, (forall j, p <= Z.of_nat j -> nth j t 0 = 0) <-> Z.of_nat (S k) <= p.
Proof.
  intros (Len & F) T. destruct (backward_count t Len) as (B & _ & _). destruct (last_one t) as [Z|(k & N & M)]; [apply all_zero in Z; lia|].
  exists k. split; [destruct (Nat.le_gt_cases k 24) as [G|G]; [exact G|rewrite nth_overflow in N by lia; contradiction]|].
  split; [rewrite (B k N M); f_equal; lia|]. intros p. split.
  - intros A. destruct (Z.le_gt_cases (Z.of_nat (S k)) p) as [Q|Q]; [exact Q|]. exfalso. apply N, A. lia.
  - intros Q j J. apply M. lia.
Qed.
Lemma cut_side t p c : wf_side t -> (p <= 25)%nat -> enough (Z.of_nat p) (Z.of_nat c) t -> side_of p c (firstn p t) /\ skipn p t = repeat 0 (25 - p).
Proof.
  intros (Len & F) P (A & T). assert (K : skipn p t = repeat 0 (25 - p)).
  { apply (list_eq_nth _ _ 0); [rewrite skipn_length, repeat_length, Len; reflexivity|]. intros i I. rewrite nth_repeat, nth_skip. apply A. lia. }
  split; [|exact K]. split; [rewrite firstn_length; lia|]. split; [rewrite <- (firstn_skipn p t) in F; apply Forall_app in F; tauto|].
  assert (E : total t = total (firstn p t)); [|lia]. rewrite <- (firstn_skipn p t) at 1. rewrite K. rewrite total_two.
  replace (total (repeat 0 (25 - p))) with 0; [lia|]. clear. induction (25 - p)%nat as [|n IH]; [reflexivity|]. cbn [repeat total fold_right]. fold (total (repeat 0 n)). lia.
Qed.
Lemma param_none us them : wf_side us -> wf_side them -> total us = 0 \/ total them = 0 -> bearoff_param us them = Exc IndexError.
Proof.
  intros U T H. unfold bearoff_param. destruct (backward_count us (proj1 U)) as (_ & Bu & _). destruct (backward_count them (proj1 T)) as (_ & Bt & _).
  destruct H as [H|H]; [rewrite (Bu (total_zero us (proj2 U) H)); reflexivity|].
  destruct (Z.eq_dec (total us) 0) as [Q|Q]; [rewrite (Bu (total_zero us (proj2 U) Q)); reflexivity|].
  pose proof (total_nonneg us (proj2 U)). destruct (side_end us U ltac:(lia)) as (k & _ & -> & _). cbn [bind]. rewrite (Bt (total_zero them (proj2 T) H)). reflexivity.
Qed.
Lemma param_least us them : wf_side us -> wf_side them -> 0 < total us -> 0 < total them -> exists p c, bearoff_param us them = Ok (Z.of_nat p, Z.of_nat c) /\ (1 <= p <= 25)%nat /\
  forall p' c', enough p' c' us /\ enough p' c' them <-> Z.of_nat p <= p' /\ Z.of_nat c <= c'.
Proof.
  intros U T HU HT. destruct (side_end us U HU) as (k & K & Bk & Ek). destruct (side_end them T HT) as (j & J & Bj & Ej).
  exists (Nat.max (S k) (S j)), (Z.to_nat (Z.max (total us) (total them))). unfold bearoff_param. rewrite Bk, Bj. cbn [bind]. rewrite !count_total. split; [f_equal; f_equal; lia|]. split; [lia|].
  intros p' c'. unfold enough. rewrite Ek, Ej. lia.
Qed.
Lemma bearoff_parameters :
  (forall us them, wf_side us -> wf_side them ->
     (total us = 0 \/ total them = 0 -> bearoff_param us them = Exc IndexError) /\
     (0 < total us -> 0 < total them -> exists p c, bearoff_param us them = Ok (Z.of_nat p, Z.of_nat c) /\
        (forall p' c', enough p' c' us /\ enough p' c' them <-> Z.of_nat p <= p' /\ Z.of_nat c <= c') /\
        exists i j, oneside_index us (Z.of_nat p) (Z.of_nat c) = Ok i /\ oneside_index them (Z.of_nat p) (Z.of_nat c) = Ok j /\
          0 <= i < binomial (p + c) p /\ 0 <= j < binomial (p + c) p)) /\
  (forall us them us' them' p c, wf_side us -> wf_side them -> wf_side us' -> wf_side them' ->
     bearoff_param us them = Ok (p, c) -> bearoff_param us' them' = Ok (p, c) ->
     oneside_index us p c = oneside_index us' p c -> oneside_index them p c = oneside_index them' p c -> us = us' /\ them = them').
Proof.
  split.
  - intros us them U T. split; [apply param_none; assumption|]. intros HU HT. destruct (param_least us them U T HU HT) as (p & c & E & P & Q). exists p, c. split; [exact E|]. split; [exact Q|].
    destruct (proj2 (Q (Z.of_nat p) (Z.of_nat c))) as (EU & ET); [lia|]. destruct (cut_side us p c U ltac:(lia) EU) as (SU & _). destruct (cut_side them p c T ltac:(lia) ET) as (ST & _).
    destruct (perfect_index p c ltac:(lia)) as (X & _). destruct (X _ (skipn p us) SU) as (i & Ei & Ri). destruct (X _ (skipn p them) ST) as (j & Ej & Rj). rewrite firstn_skipn in Ei, Ej. eauto 8.
  - intros us them us' them' p c U T U' T' E E' I J.
    assert (K : forall a b, wf_side a -> wf_side b -> bearoff_param a b = Ok (p, c) -> exists p0 c0, p = Z.of_nat p0 /\ c = Z.of_nat c0 /\ (1 <= p0 <= 25)%nat /\ enough p c a /\ enough p c b).
    { intros a b A B H. pose proof (total_nonneg a (proj2 A)). pose proof (total_nonneg b (proj2 B)).
      destruct (Z.eq_dec (total a) 0) as [Q|Q]; [rewrite param_none in H by auto; discriminate|]. destruct (Z.eq_dec (total b) 0) as [Q'|Q']; [rewrite param_none in H by auto; discriminate|].
      destruct (param_least a b A B ltac:(lia) ltac:(lia)) as (p0 & c0 & G & R & W). rewrite H in G. injection G as -> ->. exists p0, c0. split; [reflexivity|]. split; [reflexivity|]. split; [exact R|]. apply W. lia. }
    destruct (K us them U T E) as (p0 & c0 & -> & -> & R & A1 & A2). destruct (K us' them' U' T' E') as (p1 & c1 & Ep & Ec & _ & A3 & A4).
    destruct (perfect_index p0 c0 ltac:(lia)) as (_ & X & _).
    assert (M : forall a b, wf_side a -> wf_side b -> enough (Z.of_nat p0) (Z.of_nat c0) a -> enough (Z.of_nat p0) (Z.of_nat c0) b -> oneside_index a (Z.of_nat p0) (Z.of_nat c0) = oneside_index b (Z.of_nat p0) (Z.of_nat c0) -> a = b).
    { intros a b A B FA FB H. destruct (cut_side a p0 c0 A ltac:(lia) FA) as (SA & KA). destruct (cut_side b p0 c0 B ltac:(lia) FB) as (SB & KB).
      rewrite <- (firstn_skipn p0 a), <- (firstn_skipn p0 b). f_equal; [|congruence]. apply (X _ _ (skipn p0 a) (skipn p0 b) SA SB). rewrite !firstn_skipn. exact H. }
    split; apply M; assumption.
Qed.
