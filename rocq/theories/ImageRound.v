(* Rounding to doubles is monotone. *)
From Verif Require Import Py Dict DictFacts PyFacts ImageModel ImageSpec ImageSign.
From Coq Require Import Floats.SpecFloat Lia.
Open Scope Z_scope.

(* m / 2^n rounded to the nearest, ties to even *)
Definition rnd (m n : Z) : Z :=
  let q := m / 2 ^ n in
  match 2 * (m mod 2 ^ n) ?= 2 ^ n with Lt => q | Eq => if Z.even q then q else q + 1 | Gt => q + 1 end.
Lemma pow_pos n : 0 <= n -> 0 < 2 ^ n.
Proof. intros. apply Z.pow_pos_nonneg; lia. Qed.

(* what the shifts do *)
Definition inv (m k : Z) (r : shr_record) : Prop :=
  0 <= shr_m r /\ exists t, 2 * m = (2 * shr_m r + Z.b2z (shr_r r)) * 2 ^ k + t /\ 0 <= t < 2 ^ k /\ (shr_s r = false <-> t = 0).
Lemma inv_step m k r : 0 <= k -> inv m k r -> inv m (k + 1) (shr_1 r).
Proof.
  intros K (P & t & E & T & Z). destruct r as [v b s]. cbn [shr_m shr_r shr_s] in *.
  pose proof (pow_pos k K) as PK. assert (PS : 2 ^ (k + 1) = 2 * 2 ^ k) by (rewrite Z.pow_add_r by lia; lia).
  assert (G : forall v' b', v = 2 * v' + Z.b2z b' -> 0 <= v' -> inv m (k + 1) {| shr_m := v'; shr_r := b'; shr_s := b || s |}).
  { intros v' b' V N. split; [exact N|]. cbn [shr_m shr_r shr_s]. exists (Z.b2z b * 2 ^ k + t). rewrite PS.
    split; [rewrite E, V; ring|]. split; [destruct b; cbn [Z.b2z]; lia|].
    destruct b; cbn [Z.b2z orb]; split; intros H; try discriminate; try (apply Z; lia); try (apply Z in H); lia. }
  unfold shr_1. destruct v as [|p|p]; [|destruct p as [p|p|]|lia]; apply G; cbn [Z.b2z]; lia.
Qed.
Lemma inv_iter m p : 0 <= m -> inv m (Z.pos p) (Pos.iter shr_1 {| shr_m := m; shr_r := false; shr_s := false |} p).
Proof.
  intros M. assert (I0 : inv m 0 {| shr_m := m; shr_r := false; shr_s := false |}).
  { split; [exact M|]. exists 0. cbn [shr_m shr_r shr_s Z.b2z]. split; [rewrite Z.pow_0_r; lia|]. split; [rewrite Z.pow_0_r; lia|]. split; reflexivity. }
  induction p as [|p IH] using Pos.peano_ind.
  - change (Z.pos 1) with (0 + 1). cbn [Pos.iter]. apply inv_step; [lia|exact I0].
  - rewrite Pos.iter_succ, Pos2Z.inj_succ. apply inv_step; [lia|exact IH].
Qed.
Lemma iter_pos_eq (f : shr_record -> shr_record) p : forall x, SpecFloat.iter_pos f p x = Pos.iter f x p.
Proof.
  induction p as [p IH|p IH|]; intros x; cbn [SpecFloat.iter_pos Pos.iter]; [| |reflexivity]; rewrite !IH; [|reflexivity].
  rewrite <- Pos.iter_swap, <- Pos.iter_swap. reflexivity.
Qed.
Lemma inv_rnd m k r : 0 <= k -> inv m k r -> round_nearest_even (shr_m r) (loc_of_shr_record r) = rnd m k.
Proof.
  intros K (P & t & E & T & Z). destruct r as [v b s]. cbn [shr_m shr_r shr_s] in *. pose proof (pow_pos k K) as PK.
  assert (R : m = 2 ^ k * v + m mod 2 ^ k /\ v = m / 2 ^ k).
  { set (rest := m - 2 ^ k * v). assert (B : 2 * rest = Z.b2z b * 2 ^ k + t) by (unfold rest; lia).
    assert (RB : 0 <= rest < 2 ^ k) by (destruct b; cbn [Z.b2z] in B; lia).
    assert (D : v = m / 2 ^ k) by (apply (Z.div_unique m (2 ^ k) v rest); [left; exact RB|unfold rest; lia]).
    split; [|exact D]. rewrite D. apply Z.div_mod. lia. }
  destruct R as (R & D). unfold rnd. rewrite <- D.
  assert (B : 2 * (m mod 2 ^ k) = Z.b2z b * 2 ^ k + t) by lia. rewrite B.
  destruct b; cbn [Z.b2z]; cbn [loc_of_shr_record].
  - destruct s; cbn [round_nearest_even].
    + assert (t <> 0) by (intros ->; destruct Z as (_ & Z); discriminate (Z eq_refl)). rewrite (proj2 (Z.compare_gt_iff _ _)) by lia. reflexivity.
    + assert (t = 0) by (apply Z; reflexivity). rewrite (proj2 (Z.compare_eq_iff _ _)) by lia. reflexivity.
  - rewrite (proj2 (Z.compare_lt_iff _ _)) by lia. destruct s; reflexivity.
Qed.

Lemma rnd_near m n : rnd m n = m / 2 ^ n \/ rnd m n = m / 2 ^ n + 1.
Proof. unfold rnd. destruct (_ ?= _); [destruct (Z.even _)| |]; auto. Qed.
Lemma rnd_mono m1 m2 n : 0 <= n -> m1 <= m2 -> rnd m1 n <= rnd m2 n.
Proof.
  intros N H. pose proof (pow_pos n N) as P.
  pose proof (Z.div_le_mono m1 m2 (2 ^ n) P H) as D. destruct (Z.eq_dec (m1 / 2 ^ n) (m2 / 2 ^ n)) as [E|E].
  - assert (M : m1 mod 2 ^ n <= m2 mod 2 ^ n).
    { pose proof (Z.div_mod m1 (2 ^ n)). pose proof (Z.div_mod m2 (2 ^ n)). nia. }
    unfold rnd. rewrite E. destruct (Z.compare_spec (2 * (m1 mod 2 ^ n)) (2 ^ n)), (Z.compare_spec (2 * (m2 mod 2 ^ n)) (2 ^ n)); try lia; destruct (Z.even _); lia.
  - destruct (rnd_near m1 n) as [R|R], (rnd_near m2 n) as [Q|Q]; lia.
Qed.
Lemma rnd_exact q n : 0 <= n -> rnd (q * 2 ^ n) n = q.
Proof.
  intros N. pose proof (pow_pos n N) as P. unfold rnd. rewrite Z.div_mul, Z.mod_mul by lia.
  rewrite (proj2 (Z.compare_lt_iff _ _)) by lia. reflexivity.
Qed.
Lemma rnd_scale m n j : 0 <= n -> 0 <= j -> rnd (m * 2 ^ j) (n + j) = rnd m n.
Proof.
  intros N J. pose proof (pow_pos n N) as P. pose proof (pow_pos j J) as Q. unfold rnd. rewrite Z.pow_add_r by lia.
  rewrite Z.div_mul_cancel_r, Z.mul_mod_distr_r by lia.
  replace (2 * (m mod 2 ^ n * 2 ^ j)) with (2 * (m mod 2 ^ n) * 2 ^ j) by ring. rewrite <- Zmult_compare_compat_r by lia. reflexivity.
Qed.

(* digits *)
Lemma digits_log m : 0 < m -> Zdigits2 m = Z.log2 m + 1.
Proof.
  destruct m as [|p|p]; [lia| |lia]. intros _. cbn [Zdigits2].
  assert (D : forall p, digits2_pos p = Pos.size p) by (induction p0 as [p0 IH|p0 IH|]; cbn; congruence). rewrite D.
  destruct p; cbn [Z.log2 Pos.size]; lia.
Qed.
Definition grid (c X : Z) : Z := Z.max (Z.log2 X + 1 - 53) c.
Definition rounded (c X : Z) : Z := rnd X (grid c X) * 2 ^ grid c X.
Lemma rnd_below X n d : 0 < X -> 0 <= n -> Z.log2 X + 1 <= d + n -> 0 <= d -> rnd X n <= 2 ^ d.
Proof.
  intros P N L D. transitivity (rnd (2 ^ d * 2 ^ n) n); [|rewrite rnd_exact; lia].
  apply rnd_mono; [exact N|]. rewrite <- Z.pow_add_r by lia. pose proof (Z.log2_spec X P) as (_ & S). unfold Z.succ in S.
  assert (2 ^ (Z.log2 X + 1) <= 2 ^ (d + n)) by (apply Z.pow_le_mono_r; lia). lia.
Qed.
Lemma grid_mono c X Y : X <= Y -> grid c X <= grid c Y.
Proof. intros H. unfold grid. pose proof (Z.log2_le_mono X Y H). lia. Qed.
Lemma rounded_mono c X Y : 0 <= c -> 0 < X -> X <= Y -> rounded c X <= rounded c Y.
Proof.
  intros C P H. pose proof (grid_mono c X Y H) as G. unfold rounded. set (a := grid c X) in *. set (b := grid c Y) in *.
  assert (A0 : 0 <= a) by (unfold a, grid; lia). assert (B0 : 0 <= b) by lia.
  destruct (Z.eq_dec a b) as [E|E].
  - rewrite E. apply Z.mul_le_mono_nonneg_r; [apply Z.lt_le_incl, pow_pos; lia|]. apply rnd_mono; lia.
  - assert (LB : b = Z.log2 Y + 1 - 53) by (unfold a, b, grid in *; lia).
    assert (LA : Z.log2 X + 1 <= 53 + a) by (unfold a, grid; lia).
    pose proof (rnd_below X a 53 P A0 LA ltac:(lia)) as U.
    assert (V : 2 ^ 52 <= rnd Y b).
    { transitivity (rnd (2 ^ 52 * 2 ^ b) b); [rewrite rnd_exact; lia|]. apply rnd_mono; [exact B0|]. rewrite <- Z.pow_add_r by lia.
      pose proof (Z.log2_spec Y ltac:(lia)) as (S & _). replace (52 + b) with (Z.log2 Y) by lia. exact S. }
    pose proof (pow_pos a A0). pose proof (pow_pos b B0).
    transitivity (2 ^ 53 * 2 ^ a); [apply Z.mul_le_mono_nonneg_r; lia|].
    transitivity (2 ^ 52 * 2 ^ b); [|apply Z.mul_le_mono_nonneg_r; lia].
    rewrite <- !Z.pow_add_r by lia. apply Z.pow_le_mono_r; lia.
Qed.

(* what binary_round_aux does to a positive exact value *)
Definition put (m e : Z) : spec_float :=
  match m with Z.pos p => if e <=? 971 then S754_finite false p e else S754_infinity false | _ => S754_zero false end.
Definition target (m e : Z) : Z := Z.max (Z.log2 m + 1 + e - 53) (-1074).
Lemma aux_spec p e : let m := Z.pos p in let f := target m e in
  binary_round_aux 53 1024 false m e loc_Exact =
  if f <? e then put m e else let q := rnd m (f - e) in if q =? 2 ^ 53 then put (2 ^ 52) (f + 1) else put q f.
Proof.
  cbv zeta. set (m := Z.pos p). assert (P : 0 < m) by (unfold m; lia). unfold binary_round_aux, shr_fexp.
  change (shr_record_of_loc m loc_Exact) with {| shr_m := m; shr_r := false; shr_s := false |}.
  rewrite (digits_log m P). unfold fexp at 1. change (emin 53 1024) with (-1074). fold (target m e). set (f := target m e).
  assert (Fs : forall q, (if q =? 0 then True else 0 < q) -> forall e1, (q = 0 \/ Z.log2 q + 1 + e1 - 53 <= e1) -> -1074 <= e1 ->
     (let '(r, e2) := shr (shr_record_of_loc q loc_Exact) e1 (fexp 53 1024 (Zdigits2 q + e1) - e1) in
      match shr_m r with 0 => S754_zero false | Z.pos m0 => if e2 <=? 1024 - 53 then S754_finite false m0 e2 else S754_infinity false | Z.neg _ => S754_nan end) = put q e1).
  { intros q Q e1 B L. change (shr_record_of_loc q loc_Exact) with {| shr_m := q; shr_r := false; shr_s := false |}.
    assert (N : fexp 53 1024 (Zdigits2 q + e1) - e1 <= 0).
    { unfold fexp. change (emin 53 1024) with (-1074). destruct (Z.eqb_spec q 0) as [Q0|N]; [rewrite Q0; cbn [Zdigits2]; lia|]. rewrite digits_log by exact Q. destruct B; lia. }
    unfold shr. destruct (fexp 53 1024 (Zdigits2 q + e1) - e1); [| lia |]; cbn [shr_m]; destruct q; try reflexivity; cbn in Q; lia. }
  destruct (Z.ltb_spec f e) as [F|F].
  - unfold shr at 2. destruct (f - e) eqn:D; try lia. cbn [shr_m loc_of_shr_record round_nearest_even].
    apply (Fs m). + destruct (m =? 0); [exact I|exact P]. + right. unfold f, target in F. lia. + unfold f, target in F. lia.
  - assert (E1 : exists r, shr {| shr_m := m; shr_r := false; shr_s := false |} e (f - e) = (r, f) /\ round_nearest_even (shr_m r) (loc_of_shr_record r) = rnd m (f - e)).
    { unfold shr. destruct (f - e) as [|k|k] eqn:D; [| |lia].
      - exists {| shr_m := m; shr_r := false; shr_s := false |}. split; [f_equal; lia|]. cbn [shr_m loc_of_shr_record round_nearest_even]. unfold rnd. rewrite Z.pow_0_r, Z.div_1_r, Z.mod_1_r. reflexivity.
      - eexists. split; [f_equal; lia|]. apply inv_rnd; [lia|]. rewrite iter_pos_eq. apply inv_iter. lia. }
    destruct E1 as (r & E1 & E2). rewrite E1, E2. set (q := rnd m (f - e)).
    assert (U : q <= 2 ^ 53) by (apply rnd_below; [exact P|lia| |lia]; unfold f, target; lia).
    assert (L : 0 <= q) by (destruct (rnd_near m (f - e)) as [H|H]; fold q in H; rewrite H; pose proof (Z.div_pos m (2 ^ (f - e)) ltac:(lia) (pow_pos (f - e) ltac:(lia))); lia).
    assert (T : -1074 <= f) by (unfold f, target; lia).
    destruct (Z.eqb_spec q (2 ^ 53)) as [Q|Q].
    + rewrite Q. change (Zdigits2 (2 ^ 53)) with 54. change (shr_record_of_loc (2 ^ 53) loc_Exact) with {| shr_m := 2 ^ 53; shr_r := false; shr_s := false |}.
      replace (fexp 53 1024 (54 + f) - f) with 1 by (unfold fexp; change (emin 53 1024) with (-1074); lia). reflexivity.
    + apply (Fs q). * destruct (Z.eqb_spec q 0); [exact I|lia].
      * destruct (Z.eq_dec q 0) as [Z0|Z0]; [left; exact Z0|right]. assert (Z.log2 q < 53) by (apply Z.log2_lt_pow2; lia). lia.
      * exact T.
Qed.

(* the value of a float that is not negative, in units of 2^k *)
Definition value_at (k : Z) (x : spec_float) (v : Z) : Prop :=
  match x with S754_zero _ => v = 0 | S754_finite false m e => k <= e /\ v = Z.pos m * 2 ^ (e - k) | _ => False end.
Lemma put_value k q e v M E : put q e = S754_finite false M E -> k <= e -> v = q * 2 ^ (e - k) -> E = e /\ q = Z.pos M /\ v = Z.pos M * 2 ^ (E - k).
Proof.
  destruct q as [|p|p]; cbn; try discriminate. destruct (e <=? 971); [|discriminate]. intros H. injection H as <- <-. intros. auto.
Qed.
(* the outcome in one place *)
Lemma aux_value p e k : k <= e -> k <= -1074 ->
  exists q e', binary_round_aux 53 1024 false (Z.pos p) e loc_Exact = put q e' /\ 0 <= q /\ k <= e' /\ e <= e' /\
    q * 2 ^ (e' - k) = rounded (-1074 - k) (Z.pos p * 2 ^ (e - k)) /\
    ((e' = e /\ target (Z.pos p) e < e) \/ (e' = target (Z.pos p) e /\ q < 2 ^ 53) \/ (e' = target (Z.pos p) e + 1 /\ q = 2 ^ 52)).
Proof.
  intros K1 K2. set (m := Z.pos p). assert (P : 0 < m) by (unfold m; lia).
  pose proof (aux_spec p e) as A. cbv zeta in A. fold m in A. set (f := target m e) in *.
  assert (PW : 0 < 2 ^ (e - k)) by (apply pow_pos; lia).
  assert (GR : grid (-1074 - k) (m * 2 ^ (e - k)) = f - k).
  { unfold grid, f, target. rewrite Z.log2_mul_pow2 by lia. lia. }
  assert (T : -1074 <= f) by (unfold f, target; lia).
  unfold rounded. rewrite GR. destruct (Z.ltb_spec f e) as [F|F].
  - exists m, e. split; [exact A|]. split; [lia|]. split; [lia|]. split; [lia|]. split; [|left; split; [reflexivity|exact F]].
    replace (m * 2 ^ (e - k)) with (m * 2 ^ (e - f) * 2 ^ (f - k)) by (rewrite <- Z.mul_assoc, <- Z.pow_add_r by lia; f_equal; f_equal; lia).
    rewrite rnd_exact by lia. reflexivity.
  - assert (V : rnd (m * 2 ^ (e - k)) (f - k) = rnd m (f - e)) by (replace (f - k) with (f - e + (e - k)) by lia; apply rnd_scale; lia).
    assert (U : rnd m (f - e) <= 2 ^ 53) by (apply rnd_below; [exact P|lia| |lia]; unfold f, target; lia).
    assert (L : 0 <= rnd m (f - e)) by (destruct (rnd_near m (f - e)) as [H|H]; rewrite H; pose proof (Z.div_pos m (2 ^ (f - e)) ltac:(lia) (pow_pos (f - e) ltac:(lia))); lia).
    rewrite V. destruct (Z.eqb_spec (rnd m (f - e)) (2 ^ 53)) as [Q|Q].
    + exists (2 ^ 52), (f + 1). split; [exact A|]. split; [lia|]. split; [lia|]. split; [lia|]. split; [|right; right; split; reflexivity].
      rewrite Q. replace (f + 1 - k) with (1 + (f - k)) by lia. rewrite Z.pow_add_r by lia. change (2 ^ 53) with (2 ^ 52 * 2 ^ 1). ring.
    + exists (rnd m (f - e)), f. split; [exact A|]. split; [exact L|]. split; [lia|]. split; [lia|]. split; [reflexivity|]. right; left; split; [reflexivity|lia].
Qed.
Lemma aux_mono p1 e1 p2 e2 M2 E2 : e1 <= e2 -> Z.pos p1 <= Z.pos p2 * 2 ^ (e2 - e1) ->
  binary_round_aux 53 1024 false (Z.pos p2) e2 loc_Exact = S754_finite false M2 E2 ->
  match binary_round_aux 53 1024 false (Z.pos p1) e1 loc_Exact with
  | S754_zero s => s = false
  | S754_finite s M1 E1 => s = false /\ E1 <= E2 /\ Z.pos M1 <= Z.pos M2 * 2 ^ (E2 - E1)
  | _ => False
  end.
Proof.
  intros E V H. set (k := Z.min e1 (-1074)).
  destruct (aux_value p1 e1 k ltac:(lia) ltac:(lia)) as (q1 & x1 & A1 & N1 & K1 & L1 & R1 & C1).
  destruct (aux_value p2 e2 k ltac:(lia) ltac:(lia)) as (q2 & x2 & A2 & N2 & K2 & L2 & R2 & C2).
  rewrite A2 in H. destruct (put_value k q2 x2 _ M2 E2 H K2 eq_refl) as (-> & -> & _).
  assert (LE : x2 <= 971) by (cbn [put] in H; destruct (Z.leb_spec x2 971); [assumption|discriminate]).
  assert (XY : Z.pos p1 * 2 ^ (e1 - k) <= Z.pos p2 * 2 ^ (e2 - k)).
  { replace (e2 - k) with (e2 - e1 + (e1 - k)) by lia. rewrite Z.pow_add_r by lia. rewrite Z.mul_assoc. apply Z.mul_le_mono_nonneg_r; [|exact V]. apply Z.lt_le_incl, pow_pos. lia. }
  assert (X0 : 0 < Z.pos p1 * 2 ^ (e1 - k)) by (apply Z.mul_pos_pos; [lia|apply pow_pos; lia]).
  pose proof (rounded_mono (-1074 - k) _ _ ltac:(lia) X0 XY) as RM. rewrite <- R1, <- R2 in RM.
  assert (TM : target (Z.pos p1) e1 <= target (Z.pos p2) e2).
  { pose proof (Z.log2_le_mono _ _ XY) as LM. rewrite !Z.log2_mul_pow2 in LM by lia. unfold target. lia. }
  rewrite A1. destruct q1 as [|m1|m1]; [reflexivity| |lia]. cbn [put].
  assert (EX : x1 <= x2).
  { destruct C1 as [(-> & _)|[(C & _)|(C & Q)]]; [lia|lia|].
    destruct (Z.le_gt_cases x1 x2) as [|G]; [assumption|exfalso].
    destruct C2 as [(C2 & F2)|[(C2 & Q2)|(C2 & Q2)]]; [lia| |lia].
    replace (x1 - k) with (1 + (x2 - k)) in RM by lia. rewrite Z.pow_add_r, Q in RM by lia.
    pose proof (pow_pos (x2 - k) ltac:(lia)) as PP. nia. }
  rewrite (proj2 (Z.leb_le x1 971)) by lia. split; [reflexivity|]. split; [exact EX|].
  replace (x2 - k) with (x2 - x1 + (x1 - k)) in RM by lia. rewrite (Z.pow_add_r 2 (x2 - x1)), Z.mul_assoc in RM by lia.
  apply Z.mul_le_mono_pos_r in RM; [exact RM|]. apply pow_pos. lia.
Qed.

Lemma aux_mono_zero p1 e1 p2 e2 s : e1 <= e2 -> Z.pos p1 <= Z.pos p2 * 2 ^ (e2 - e1) ->
  binary_round_aux 53 1024 false (Z.pos p2) e2 loc_Exact = S754_zero s -> binary_round_aux 53 1024 false (Z.pos p1) e1 loc_Exact = S754_zero false.
Proof.
  intros E V H. set (k := Z.min e1 (-1074)).
  destruct (aux_value p1 e1 k ltac:(lia) ltac:(lia)) as (q1 & x1 & A1 & N1 & K1 & L1 & R1 & C1).
  destruct (aux_value p2 e2 k ltac:(lia) ltac:(lia)) as (q2 & x2 & A2 & N2 & K2 & L2 & R2 & C2).
  assert (Q : q2 = 0) by (rewrite A2 in H; destruct q2; [reflexivity|cbn [put] in H; destruct (x2 <=? 971); discriminate|lia]).
  assert (XY : Z.pos p1 * 2 ^ (e1 - k) <= Z.pos p2 * 2 ^ (e2 - k)).
  { replace (e2 - k) with (e2 - e1 + (e1 - k)) by lia. rewrite Z.pow_add_r by lia. rewrite Z.mul_assoc. apply Z.mul_le_mono_nonneg_r; [|exact V]. apply Z.lt_le_incl, pow_pos. lia. }
  assert (X0 : 0 < Z.pos p1 * 2 ^ (e1 - k)) by (apply Z.mul_pos_pos; [lia|apply pow_pos; lia]).
  pose proof (rounded_mono (-1074 - k) _ _ ltac:(lia) X0 XY) as RM. rewrite <- R1, <- R2, Q in RM.
  pose proof (pow_pos (x1 - k) ltac:(lia)) as PP. rewrite A1. destruct q1 as [|m1|m1]; [reflexivity|nia|lia].
Qed.

(* floats that are not negative, compared with those that are finite *)
Definition below (x y : spec_float) : Prop :=
  match y with
  | S754_zero _ => match x with S754_zero _ => True | _ => False end
  | S754_finite false M2 E2 =>
      match x with S754_zero _ => True | S754_finite false M1 E1 => E1 <= E2 /\ Z.pos M1 <= Z.pos M2 * 2 ^ (E2 - E1) | _ => False end
  | _ => False
  end.
Definition finite (x : spec_float) : Prop := match x with S754_zero _ | S754_finite false _ _ => True | _ => False end.
Lemma align_spec p f : exists q e, shl_align p 0 f = (q, e) /\ e = Z.min 0 f /\ Z.pos q = Z.pos p * 2 ^ (- e).
Proof.
  unfold shl_align. rewrite Z.sub_0_r. destruct f as [|d|d].
  - exists p, 0. split; [reflexivity|]. split; [reflexivity|]. cbn [Z.opp]. rewrite Z.pow_0_r. lia.
  - exists p, 0. split; [reflexivity|]. split; [reflexivity|]. cbn [Z.opp]. rewrite Z.pow_0_r. lia.
  - exists (shift_pos d p), (Z.neg d). split; [reflexivity|]. split; [reflexivity|]. change (- Z.neg d) with (Z.pos d).
    unfold shift_pos. assert (G : forall n x, Z.pos (Pos.iter xO x n) = Z.pos x * 2 ^ Z.pos n).
    { induction n as [|n IH] using Pos.peano_ind; intros x; [cbn; lia|]. rewrite Pos.iter_succ. change (Z.pos (Pos.iter xO x n)~0) with (2 * Z.pos (Pos.iter xO x n)). rewrite IH, Pos2Z.inj_succ, Z.pow_succ_r by lia. ring. }
    apply G.
Qed.
Lemma aux_below p1 e1 p2 e2 : e1 <= e2 -> Z.pos p1 <= Z.pos p2 * 2 ^ (e2 - e1) -> finite (binary_round_aux 53 1024 false (Z.pos p2) e2 loc_Exact) ->
  below (binary_round_aux 53 1024 false (Z.pos p1) e1 loc_Exact) (binary_round_aux 53 1024 false (Z.pos p2) e2 loc_Exact).
Proof.
  intros E V F. destruct (binary_round_aux 53 1024 false (Z.pos p2) e2 loc_Exact) as [s|s| |s m2 x2] eqn:A2; try contradiction.
  - rewrite (aux_mono_zero p1 e1 p2 e2 s E V A2). exact I.
  - destruct s; [contradiction|]. pose proof (aux_mono p1 e1 p2 e2 m2 x2 E V A2) as A. unfold below.
    destruct (binary_round_aux 53 1024 false (Z.pos p1) e1 loc_Exact) as [s|s| |s m1 x1]; try contradiction; [exact I|]. destruct A as (-> & A). exact A.
Qed.
Lemma dbl_mono x y : 0 < x -> x <= y -> finite (dbl y) -> below (dbl x) (dbl y).
Proof.
  intros P H D. destruct y as [|y|y]; [lia| |lia]. destruct x as [|x|x]; [lia| |lia].
  unfold dbl, binary_normalize, binary_round in *.
  set (fx := fexp 53 1024 (Z.pos (digits2_pos x) + 0)) in *. set (fy := fexp 53 1024 (Z.pos (digits2_pos y) + 0)) in *.
  destruct (align_spec x fx) as (mx & ex & AX & EX & VX). destruct (align_spec y fy) as (my & ey & AY & EY & VY).
  rewrite AX. rewrite AY in *.
  assert (F : fx <= fy).
  { unfold fx, fy, fexp. change (Z.pos (digits2_pos x)) with (Zdigits2 (Z.pos x)). change (Z.pos (digits2_pos y)) with (Zdigits2 (Z.pos y)). rewrite !digits_log by lia. pose proof (Z.log2_le_mono _ _ H). lia. }
  assert (VV : Z.pos mx <= Z.pos my * 2 ^ (ey - ex)).
  { rewrite VX, VY, <- Z.mul_assoc, <- Z.pow_add_r by lia. replace (- ey + (ey - ex)) with (- ex) by lia. apply Z.mul_le_mono_nonneg_r; [apply Z.lt_le_incl, pow_pos; lia|exact H]. }
  apply aux_below; [lia|exact VV|exact D].
Qed.
Lemma fmul_mono x y m : below x y -> not_negative m = true -> finite (fmul y m) -> below (fmul x m) (fmul y m).
Proof.
  intros B NM H. destruct y as [sy|sy| |[|] m2 e2]; try contradiction.
  - destruct x as [sx|?| |? ? ?]; try contradiction. destruct m as [?|?| |? ? ?]; cbn in H; try contradiction; exact I.
  - destruct x as [sx|?| |[|] m1 e1]; try contradiction; destruct m as [?|?| |[|] mm me]; try discriminate; cbn in H; try contradiction; try exact I.
    + cbn [fmul SFmul xorb]. unfold fmul, SFmul. unfold below. cbn [xorb]. destruct (binary_round_aux 53 1024 false (Z.pos (m2 * mm)) (e2 + me) loc_Exact) as [?|?| |[|] ? ?]; try contradiction; exact I.
    + destruct B as (B1 & B2). unfold fmul, SFmul, xorb in *. apply aux_below; [lia| |exact H].
      replace (e2 + me - (e1 + me)) with (e2 - e1) by lia. rewrite !Pos2Z.inj_mul. nia.
Qed.
Lemma fle_mono x y z : below x y -> fle_int y z = true -> fle_int x z = true.
Proof.
  destruct y as [?|?| |[|] m2 e2]; try contradiction; destruct x as [sx|?| |[|] m1 e1]; try contradiction; cbn [below fle_int].
  - intros _ H. exact H.
  - intros _ H. apply Z.leb_le. destruct (Z.leb_spec 0 e2); apply Z.leb_le in H.
    + pose proof (pow_pos e2 ltac:(lia)). nia.
    + pose proof (pow_pos (- e2) ltac:(lia)). nia.
  - intros (B1 & B2) H. pose proof (pow_pos (e2 - e1) ltac:(lia)) as P.
    destruct (Z.leb_spec 0 e1), (Z.leb_spec 0 e2); apply Z.leb_le in H; apply Z.leb_le; try lia.
    + replace (2 ^ e2) with (2 ^ (e2 - e1) * 2 ^ e1) in H by (rewrite <- Z.pow_add_r by lia; f_equal; lia). pose proof (pow_pos e1 ltac:(lia)). nia.
    + replace (2 ^ (e2 - e1)) with (2 ^ e2 * 2 ^ (- e1)) in B2 by (rewrite <- Z.pow_add_r by lia; f_equal; lia). pose proof (pow_pos (- e1) ltac:(lia)). nia.
    + replace (2 ^ (- e1)) with (2 ^ (- e2) * 2 ^ (e2 - e1)) by (rewrite <- Z.pow_add_r by lia; f_equal; lia). nia.
Qed.

(* scaled lengths *)
Lemma scaled_within m w fw z : SFltb zero_f m = true -> 0 < w -> to_float w = Ok fw -> fle_int (fmul fw m) z = true ->
  forall x, 0 <= x <= w -> exists v, (let! f := to_float x in trunc (fmul f m)) = Ok v /\ 0 <= v <= z.
Proof.
  intros P W T F x X. apply positive_not_negative in P. pose proof (to_float_dbl w fw T) as D.
  assert (FW : finite fw).
  { pose proof (dbl_pos w ltac:(lia)) as N. unfold to_float in T. rewrite <- D in N, T. destruct fw as [?|?| |[|] ? ?]; try discriminate; try exact I.
  }
  assert (FM : finite (fmul fw m)).
  { assert (N : not_negative (fmul fw m) = true) by (apply fmul_pos; [rewrite D; apply dbl_pos; lia|exact P]).
    destruct (fmul fw m) as [?|[|]| |[|] ? ?]; try discriminate; exact I. }
  assert (B : below (fmul (dbl x) m) (fmul fw m) /\ finite (dbl x)).
  { destruct (Z.eq_dec x 0) as [->|NZ].
    - change (dbl 0) with (S754_zero false). split; [|exact I]. assert (E : below (S754_zero false) fw) by (destruct fw as [?|?| |[|] ? ?]; try contradiction; exact I). apply fmul_mono; assumption.
    - rewrite D in FW, FM |- *. pose proof (dbl_mono x w ltac:(lia) ltac:(lia) FW) as B. split; [apply fmul_mono; assumption|].
      destruct (dbl w) as [?|?| |[|] ? ?]; try contradiction; destruct (dbl x) as [?|?| |[|] ? ?]; try contradiction; exact I. }
  destruct B as (B & FX).
  assert (TX : to_float x = Ok (dbl x)) by (unfold to_float; destruct (dbl x) as [?|?| |? ? ?]; try contradiction; reflexivity).
  rewrite TX. cbn [bind]. apply trunc_total; [apply fmul_pos; [apply dbl_pos; lia|exact P]|]. eapply fle_mono; eassumption.
Qed.
