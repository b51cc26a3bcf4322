(* Scaling a negative offset is scaling its absolute value. *)
From Coq Require Import Floats.SpecFloat.
From Verif Require Import Py PyFacts Dict DictFacts UtilModel BoardModel ImageModel ImageSpec ImageSign ImageRound.
Open Scope Z_scope.

Lemma aux_opp s p e : binary_round_aux 53 1024 (negb s) p e loc_Exact = SFopp (binary_round_aux 53 1024 s p e loc_Exact).
Proof.
  unfold binary_round_aux. destruct (shr_fexp 53 1024 p e loc_Exact) as [m1 e1]. destruct (shr_fexp 53 1024 _ e1 loc_Exact) as [m2 e2].
  destruct (shr_m m2); cbn [SFopp]; try reflexivity. destruct (e2 <=? 1024 - 53); reflexivity.
Qed.
Lemma dbl_opp x : 0 < x -> dbl (- x) = SFopp (dbl x).
Proof.
  destruct x as [|x|x]; try lia. intros _. unfold dbl. cbn [Z.opp binary_normalize]. unfold binary_round. destruct (shl_align x 0 _) as [q e]. exact (aux_opp false (Z.pos q) e).
Qed.
Lemma fmul_opp a m : fmul (SFopp a) m = SFopp (fmul a m).
Proof.
  unfold fmul. destruct a as [s|s| |s p e], m as [s'|s'| |s' p' e']; cbn [SFopp SFmul]; rewrite <- ?Bool.negb_xorb_l; try reflexivity. apply aux_opp.
Qed.
Lemma trunc_opp f v : trunc f = Ok v -> trunc (SFopp f) = Ok (- v).
Proof.
  destruct f as [s|s| |s p e]; cbn [SFopp trunc]; try discriminate; intros H; injection H as <-; [reflexivity|]. destruct s; cbn [negb]; rewrite ?Z.opp_involutive; reflexivity.
Qed.
Lemma scaled_between m w fw z : SFltb zero_f m = true -> 0 < w -> to_float w = Ok fw -> fle_int (fmul fw m) z = true ->
  forall x, - w <= x <= w -> exists v, (let! f := to_float x in trunc (fmul f m)) = Ok v /\ - z <= v <= z.
Proof.
  intros P W T F x X. destruct (Z_le_gt_dec 0 x) as [G|G].
  - destruct (scaled_within m w fw z P W T F x ltac:(lia)) as (v & V & B). exists v. split; [exact V|lia].
  - destruct (scaled_within m w fw z P W T F (- x) ltac:(lia)) as (v & V & B). exists (- v). split; [|lia].
    replace x with (- - x) by lia. unfold to_float in *. rewrite (dbl_opp (- x)) by lia.
    destruct (dbl (- x)) as [s|s| |s p e] eqn:E; cbn [bind] in V; [|discriminate V| |].
    + pose proof (fmul_opp (S754_zero s) m) as Q. cbn [SFopp] in *. cbn [bind]. rewrite Q. apply trunc_opp, V.
    + pose proof (fmul_opp S754_nan m) as Q. cbn [SFopp] in *. cbn [bind]. rewrite Q. apply trunc_opp, V.
    + pose proof (fmul_opp (S754_finite s p e) m) as Q. cbn [SFopp] in *. cbn [bind]. rewrite Q. apply trunc_opp, V.
Qed.
