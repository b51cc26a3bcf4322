(* Signs of floats, and int() of them. *)
From Verif Require Import Py PyFacts Dict DictFacts UtilModel BoardModel ImageModel ImageSpec ImageCss.
From Coq Require Import Floats.SpecFloat.
Open Scope string_scope.
Open Scope list_scope.
Open Scope Z_scope.

Lemma trunc_le f z v : fle_int f z = true -> trunc f = Ok v -> v <= z.
Proof.
  destruct f as [s|s| |s m e]; cbn; intros F T; try discriminate; [injection T as <-; apply Z.leb_le; exact F|].
  destruct (Z.leb_spec 0 e) as [E|E].
  - injection T as <-. apply Z.leb_le in F. destruct s; [|exact F]. change (Z.neg m) with (- Z.pos m) in F. rewrite Z.mul_opp_l in F. exact F.
  - apply Z.leb_le in F. injection T as <-. assert (P : 0 < 2 ^ (- e)) by (apply Z.pow_pos_nonneg; lia). destruct s.
    + assert (H : - z <= Z.pos m / 2 ^ (- e)) by (apply Z.div_le_lower_bound; [exact P|]; change (Z.neg m) with (- Z.pos m) in F; rewrite Z.mul_opp_r, (Z.mul_comm _ z); lia). lia.
    + apply Z.div_le_upper_bound; [exact P|]. rewrite Z.mul_comm. exact F.
Qed.
(* signs *)
Definition not_negative (f : spec_float) : bool := match f with S754_zero _ | S754_nan => true | S754_infinity s => negb s | S754_finite s _ _ => negb s end.
Lemma round_sign mx ex lx : not_negative (binary_round_aux 53 1024 false mx ex lx) = true.
Proof. unfold binary_round_aux. destruct (shr_fexp 53 1024 mx ex lx) as [r e']. destruct (shr_fexp 53 1024 _ e' loc_Exact) as [r2 e2]. destruct (shr_m r2); try reflexivity. destruct (Z.leb _ _); reflexivity. Qed.
Lemma dbl_pos z : 0 <= z -> not_negative (dbl z) = true.
Proof.
  intros P. unfold dbl, binary_normalize. destruct z as [|p|p]; [reflexivity| |lia]. unfold binary_round. destruct (shl_align _ _ _). apply round_sign.
Qed.
Lemma fmul_pos a b : not_negative a = true -> not_negative b = true -> not_negative (fmul a b) = true.
Proof.
  destruct a as [[|]|[|]| |[|] ? ?], b as [[|]|[|]| |[|] ? ?]; cbn; try reflexivity; try discriminate; intros _ _; apply round_sign.
Qed.
Lemma positive_not_negative f : SFltb zero_f f = true -> not_negative f = true.
Proof. destruct f as [[|]|[|]| |[|] ? ?]; cbn; try reflexivity; discriminate. Qed.
Lemma trunc_total f z : not_negative f = true -> fle_int f z = true -> exists v, trunc f = Ok v /\ 0 <= v <= z.
Proof.
  intros N F. assert (T : exists v, trunc f = Ok v /\ 0 <= v).
  { destruct f as [s|s| |s m e]; cbn in *; [exists 0; split; [reflexivity|lia]|destruct s; discriminate|discriminate|]. destruct s; [discriminate|]. eexists. split; [reflexivity|].
    destruct (Z.leb_spec 0 e); [|apply Z.div_pos; [lia|apply Z.pow_pos_nonneg; lia]]. change (0 <= Z.pos m * 2 ^ e). apply Z.mul_nonneg_nonneg; [lia|apply Z.pow_nonneg; lia]. }
  destruct T as (v & T & V). exists v. split; [exact T|]. split; [exact V|]. eapply trunc_le; eassumption.
Qed.
Lemma to_float_dbl z f : to_float z = Ok f -> f = dbl z.
Proof. unfold to_float. destruct (dbl z); congruence. Qed.
