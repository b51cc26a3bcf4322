(* Lemmas for C48-C51, C82 and C83 *)
From Verif Require Import Py PyFacts Dict DictFacts StatModel StatSpec.
From Coq Require Import Reals Lra Permutation.
Local Open Scope R_scope.

(* ---------- the rating formula ---------- *)
Lemma rpow_pos x : 0 < Rpower 10 x.
Proof. unfold Rpower. apply exp_pos. Qed.
Lemma ln10 : 0 < ln 10.
Proof. rewrite <- ln_1. apply ln_increasing; lra. Qed.
Lemma rpow_lt x y : x < y -> Rpower 10 x < Rpower 10 y.
Proof. intros H. unfold Rpower. apply exp_increasing. apply Rmult_lt_compat_r; [apply ln10|exact H]. Qed.
Lemma chance_range a b n : 0 < chance a b n < 1.
Proof.
  unfold chance. set (p := Rpower 10 _). assert (P : 0 < p) by apply rpow_pos. split.
  - apply Rdiv_lt_0_compat; lra.
  - apply (Rmult_lt_reg_r (1 + p)); [lra|]. unfold Rdiv. rewrite Rmult_assoc, Rinv_l; lra.
Qed.
Lemma rpow_opp x : Rpower 10 (- x) = / Rpower 10 x.
Proof. apply Rpower_Ropp. Qed.
Lemma chance_sum a b n : chance a b n + chance b a n = 1.
Proof.
  unfold chance. replace (- ((b - a) * sqrt n / 2000)) with ((a - b) * sqrt n / 2000) by lra.
  rewrite rpow_opp. set (p := Rpower 10 _). assert (P : 0 < p) by apply rpow_pos. field. lra.
Qed.
Lemma inv_lt p q : 0 < p -> p < q -> 1 / (1 + q) < 1 / (1 + p).
Proof. intros P Q. unfold Rdiv. rewrite !Rmult_1_l. apply Rinv_lt_contravar; [|lra]. apply Rmult_lt_0_compat; lra. Qed.
Lemma chance_lt a b n a' b' n' : (a - b) * sqrt n < (a' - b') * sqrt n' -> chance a b n < chance a' b' n'.
Proof. intros H. unfold chance. apply inv_lt; [apply rpow_pos|]. apply rpow_lt. lra. Qed.
Lemma upset_value high low n : 0 <= n -> upset_chance high low n = if Rlt_dec high low then Exc AssertionError else Ok (chance low high n).
Proof.
  intros N. unfold upset_chance. destruct (Rlt_dec high low); [reflexivity|]. destruct (Rlt_dec n 0); [lra|]. f_equal. unfold chance.
  replace (- ((low - high) * sqrt n / 2000)) with ((high - low) * sqrt n / 2000) by lra. f_equal. lra.
Qed.
Lemma winning_value high low n : 0 <= n -> low <= high -> winning_chance high low n = Ok (chance high low n).
Proof.
  intros N H. unfold winning_chance. rewrite upset_value by exact N. destruct (Rlt_dec high low); [lra|]. cbn [bind]. f_equal. pose proof (chance_sum high low n). lra.
Qed.
(* C48 *)
Lemma chances :
  (forall high low n, 0 <= n -> low <= high ->
     winning_chance high low n = Ok (chance high low n) /\ upset_chance high low n = Ok (chance low high n)) /\
  (forall high low n, high < low -> winning_chance high low n = Exc AssertionError /\ upset_chance high low n = Exc AssertionError) /\
  (forall a b n, chance a b n + chance b a n = 1 /\ 0 < chance a b n < 1) /\
  (forall a a' b n, 0 < n -> a < a' -> chance a b n < chance a' b n) /\
  (forall a b n n', 0 <= n -> n < n' -> b < a -> chance a b n < chance a b n') /\
  (forall a b n, 0 < n -> (1 / 2 < chance a b n <-> b < a)).
Proof.
  split; [|split; [|split; [|split; [|split]]]].
  - intros high low n N H. split; [apply winning_value; assumption|]. rewrite upset_value by exact N. destruct (Rlt_dec high low); [lra|reflexivity].
  - intros high low n H. unfold winning_chance, upset_chance. destruct (Rlt_dec high low); [split; reflexivity|contradiction].
  - intros a b n. split; [apply chance_sum|apply chance_range].
  - intros a a' b n N H. apply chance_lt. apply Rmult_lt_compat_r; [apply sqrt_lt_R0, N|lra].
  - intros a b n n' N H D. apply chance_lt. apply Rmult_lt_compat_l; [lra|]. apply sqrt_lt_1; lra.
  - intros a b n N. pose proof (sqrt_lt_R0 n N) as S. pose proof (chance_sum a b n) as E. split; intros H.
    + destruct (Rlt_le_dec b a) as [G|G]; [exact G|exfalso]. assert (chance a b n <= chance b a n); [|lra].
      destruct (Req_dec a b) as [->|Q]; [lra|]. left. apply chance_lt. apply Rmult_lt_compat_r; [exact S|lra].
    + assert (chance b a n < chance a b n); [|lra]. apply chance_lt. apply Rmult_lt_compat_r; [exact S|lra].
Qed.
(* C49 *)
Lemma gains : forall p o n, 0 < n -> exists g h,
  gain_on_win p o n = Ok g /\ gain_on_win o p n = Ok h /\
  g = n * chance o p n /\ 0 < g < n /\ g + h = n /\ (g < h <-> o < p) /\
  chance p o n * g - chance o p n * h = 0.
Proof.
  intros p o n N.
  assert (G : forall p o, gain_on_win p o n = Ok (n * chance o p n)).
  { clear p o. intros p o. unfold gain_on_win. destruct (Rle_dec o p) as [H|H]; rewrite upset_value by lra.
    - destruct (Rlt_dec p o); [lra|]. reflexivity.
    - destruct (Rlt_dec o p); [lra|]. cbn [bind]. do 2 f_equal. pose proof (chance_sum p o n). lra. }
  exists (n * chance o p n), (n * chance p o n). rewrite !G. pose proof (chance_sum p o n) as S. pose proof (chance_range o p n) as B.
  split; [reflexivity|]. split; [reflexivity|]. split; [reflexivity|]. split; [|split; [|split]].
  - split; [apply Rmult_lt_0_compat; lra|]. apply Rlt_le_trans with (n * 1); [|lra]. apply Rmult_lt_compat_l; lra.
  - rewrite <- Rmult_plus_distr_l. replace (chance o p n + chance p o n) with 1 by lra. lra.
  - destruct chances as (_ & _ & _ & _ & _ & C). rewrite <- (C p o n N). split; intros H.
    + apply Rmult_lt_reg_l in H; lra.
    + apply Rmult_lt_compat_l; lra.
  - ring.
Qed.

(* ---------- tournament chances ---------- *)
Lemma tourney_value p a m n : 0 <= n -> tourney_chance p a (S m) n = Ok (chance p a n ^ S m, chance p a n ^ m * chance a p n).
Proof.
  intros N. unfold tourney_chance. pose proof (chance_sum p a n) as S. destruct (Rle_dec a p) as [H|H]; rewrite upset_value by exact N.
  - destruct (Rlt_dec p a); [lra|]. cbn [bind]. replace (1 - chance a p n) with (chance p a n) by lra. reflexivity.
  - destruct (Rlt_dec a p); [lra|]. cbn [bind]. replace (1 - chance p a n) with (chance a p n) by lra. reflexivity.
Qed.
Lemma pow_range x k : 0 < x < 1 -> 0 < x ^ k <= 1.
Proof. intros H. induction k as [|k IH]; cbn [pow]; [lra|]. split; [apply Rmult_lt_0_compat; lra|]. rewrite <- (Rmult_1_r 1). apply Rmult_le_compat; lra. Qed.
Lemma pow_lt_mono x y k : 0 < x -> x < y -> x ^ S k < y ^ S k.
Proof.
  intros X H. induction k as [|k IH]; [cbn; lra|]. change (x ^ S (S k)) with (x * x ^ S k). change (y ^ S (S k)) with (y * y ^ S k).
  assert (0 < x ^ S k) by (apply pow_lt; exact X). apply Rmult_gt_0_lt_compat; lra.
Qed.
(* C82 *)
Lemma tourney_chances :
  (forall p a m n, 0 <= n -> exists w r, tourney_chance p a (S m) n = Ok (w, r) /\
     w = chance p a n ^ S m /\ 0 < w < 1 /\ 0 < r < 1 /\ w + r = chance p a n ^ m) /\
  (forall p q a m n w r w' r', 0 < n -> p < q ->
     tourney_chance p a (S m) n = Ok (w, r) -> tourney_chance q a (S m) n = Ok (w', r') -> w < w').
Proof.
  split.
  - intros p a m n N. rewrite tourney_value by exact N. do 2 eexists. split; [reflexivity|]. split; [reflexivity|].
    pose proof (chance_range p a n) as B. pose proof (chance_range a p n) as B'. pose proof (pow_range _ m B) as P. pose proof (chance_sum p a n) as S.
    split; [split; [apply pow_lt; lra|]|split; [split|]].
    + cbn [pow]. apply Rle_lt_trans with (chance p a n * 1); [|lra]. apply Rmult_le_compat_l; lra.
    + apply Rmult_lt_0_compat; lra.
    + apply Rle_lt_trans with (1 * chance a p n); [|lra]. apply Rmult_le_compat_r; lra.
    + cbn [pow]. rewrite (Rmult_comm (chance p a n)), <- Rmult_plus_distr_l, S, Rmult_1_r. reflexivity.
  - intros p q a m n w r w' r' N H. rewrite !tourney_value by lra. intros [= <- <-] [= <- <-]. apply pow_lt_mono; [apply chance_range|].
    apply chance_lt. apply Rmult_lt_compat_r; [apply sqrt_lt_R0, N|lra].
Qed.
(* C83 *)
Lemma handicaps : forall p a m n, 0 <= n -> exists w r aw ar,
  tourney_chance p a (S m) n = Ok (w, r) /\ tourney_chance a a (S m) n = Ok (aw, ar) /\
  (forall winner runnerup, exists x y, prize_handicap p a (S m) n winner runnerup = Ok (x, y) /\
     w * x = aw * winner /\ r * y = ar * runnerup /\ (p = a -> x = winner /\ y = runnerup)) /\
  (forall fee, exists f, entryfee_handicap p a (S m) n fee = Ok f /\ f / w = fee / aw /\ (p = a -> f = fee)).
Proof.
  intros p a m n N. destruct (proj1 tourney_chances p a m n N) as (w & r & E & _ & W & R & _).
  destruct (proj1 tourney_chances a a m n N) as (aw & ar & F & _ & AW & AR & _). exists w, r, aw, ar. split; [exact E|]. split; [exact F|]. split.
  - intros winner runnerup. unfold prize_handicap. rewrite E, F. cbn [bind fst snd]. do 2 eexists. split; [reflexivity|]. split; [field; lra|]. split; [field; lra|].
    intros ->. rewrite E in F. injection F as -> ->. split; field; lra.
  - intros fee. unfold entryfee_handicap. rewrite E, F. cbn [bind fst snd]. eexists. split; [reflexivity|]. split; [field; lra|].
    intros ->. rewrite E in F. injection F as -> ->. field. lra.
Qed.

(* ---------- rounds ---------- *)
Local Open Scope Z_scope.
Definition zok : forall a b, (a =? b) = true <-> a = b := Z.eqb_eq.
Definition sum_lives (l : list (Z * player)) : Z := fold_right Z.add 0 (map (fun e => lives (snd e)) l).
Lemma sum_lives_perm l m : Permutation l m -> sum_lives l = sum_lives m.
Proof. induction 1; unfold sum_lives in *; cbn in *; lia. Qed.
Lemma sum_lives_app l m : sum_lives (l ++ m) = sum_lives l + sum_lives m.
Proof. unfold sum_lives. induction l as [|x l IH]; cbn; [reflexivity|]. rewrite IH. lia. Qed.
(* what is known after one defeat of k *)
Definition after (t t' : tourney) (k : Z) : Prop :=
  field t' /\ Permutation (keys (alive t') ++ keys (dead t')) (keys (alive t) ++ keys (dead t)) /\
  all_lives t' = all_lives t - 1 /\
  (forall j, j <> k -> dget Z.eqb (alive t') j = dget Z.eqb (alive t) j /\ dget Z.eqb (dead t') j = dget Z.eqb (dead t) j) /\
  (forall p, dget Z.eqb (alive t) k = Some p -> 
     if lives p =? 1 then dget Z.eqb (alive t') k = None /\ dget Z.eqb (dead t') k = Some (mkplayer 0 (rating p))
     else dget Z.eqb (alive t') k = Some (mkplayer (lives p - 1) (rating p)) /\ dget Z.eqb (dead t') k = None) /\
  zlen (alive t) - 1 <= zlen (alive t') <= zlen (alive t).
Lemma NoDup_app_l {A} (l m : list A) : NoDup (l ++ m) -> NoDup l.
Proof. induction l as [|x l IH]; [constructor|]. cbn. intros N. inversion N as [|? ? N1 N2]; subst. constructor; [rewrite in_app_iff in N1; tauto|auto]. Qed.
Lemma NoDup_app_disj {A} (l m : list A) x : NoDup (l ++ m) -> In x l -> ~ In x m.
Proof.
  induction l as [|y l IH]; [intros _ []|]. cbn. intros N [->|I]; inversion N as [|? ? N1 N2]; subst; [rewrite in_app_iff in N1; tauto|auto].
Qed.
Lemma lose_ok t k p : field t -> dget Z.eqb (alive t) k = Some p -> exists t', lose t k = Ok t' /\ after t t' k.
Proof.
  intros [ND FL] E. unfold lose, lookup. rewrite E. cbn [bind].
  assert (L1 : 1 <= lives p). { rewrite Forall_forall in FL. apply (FL (k, p)). apply (dget_in _ zok), E. }
  assert (Ik : In k (keys (alive t))) by (apply (in_map fst) with (x := (k, p)), (dget_in _ zok), E).
  assert (Nk : ~ In k (keys (dead t))) by (apply (NoDup_app_disj _ _ _ ND Ik)).
  assert (NA : NoDup (keys (alive t))) by (apply NoDup_app_l in ND; exact ND).
  pose proof (dpop_perm _ zok _ _ _ E) as PP. pose proof (dset_perm _ zok _ _ _ (lost p) E) as PS.
  destruct (isdead (lost p)) eqn:D; eexists; (split; [reflexivity|]); unfold isdead, lost in D; cbn [lives] in D.
  - rewrite (dset_new _ zok) by exact Nk. set (A := dpop Z.eqb (alive t) k) in *.
    assert (PK : Permutation (keys A ++ keys (dead t ++ [(k, lost p)])) (keys (alive t) ++ keys (dead t))).
    { unfold keys. rewrite map_app. cbn [map fst]. rewrite app_assoc, <- Permutation_cons_append. rewrite (Permutation_map fst PP). reflexivity. }
    unfold after, field, all_lives. cbn [alive dead].
    split; [split|split; [|split; [|split; [|split]]]].
    + apply (Permutation_NoDup (l := keys (alive t) ++ keys (dead t))); [symmetry; exact PK|exact ND].
    + apply Forall_forall. intros e I. rewrite Forall_forall in FL. apply FL. apply (Permutation_in _ (Permutation_sym PP)). right. exact I.
    + exact PK.
    + change (sum_lives (A ++ dead t ++ [(k, lost p)]) = sum_lives (alive t ++ dead t) - 1). rewrite !sum_lives_app, (sum_lives_perm _ _ PP). unfold sum_lives. cbn. lia.
    + intros j J. unfold A. rewrite (dget_dpop _ zok) by exact NA. rewrite (eqb_neq _ zok) by exact J. split; [reflexivity|].
      rewrite <- (dset_new Z.eqb zok) by exact Nk. rewrite (dget_dset _ zok), (eqb_neq _ zok) by exact J. reflexivity.
    + intros q Q. assert (q = p) by congruence. subst q. replace (lives p =? 1) with true by lia. unfold A. rewrite (dget_dpop _ zok) by exact NA. rewrite Z.eqb_refl. split; [reflexivity|].
      rewrite <- (dset_new Z.eqb zok) by exact Nk. rewrite (dget_dset _ zok), Z.eqb_refl. unfold lost. do 2 f_equal. lia.
    + apply Permutation_length in PP. unfold zlen. rewrite PP. cbn [List.length]. lia.
  - unfold after, field, all_lives. cbn [alive dead]. assert (K : keys (dset Z.eqb (alive t) k (lost p)) = keys (alive t)) by (apply (keys_dset_in _ zok), Ik). rewrite K.
    split; [split|split; [|split; [|split; [|split]]]].
    + exact ND.
    + apply Forall_forall. intros e I. apply (Permutation_in _ PS) in I as [<-|I]; [cbn; lia|]. rewrite Forall_forall in FL. apply FL. apply (Permutation_in _ (Permutation_sym PP)). right. exact I.
    + reflexivity.
    + change (sum_lives (dset Z.eqb (alive t) k (lost p) ++ dead t) = sum_lives (alive t ++ dead t) - 1). rewrite !sum_lives_app, (sum_lives_perm _ _ PP), (sum_lives_perm _ _ PS). unfold sum_lives. cbn. lia.
    + intros j J. rewrite (dget_dset _ zok), (eqb_neq _ zok) by exact J. split; reflexivity.
    + intros q Q. assert (q = p) by congruence. subst q. replace (lives p =? 1) with false by lia. rewrite (dget_dset _ zok), Z.eqb_refl. split; [reflexivity|]. apply (dget_none _ zok), Nk.
    + apply (f_equal (@List.length Z)) in K. unfold keys in K. rewrite !map_length in K. unfold zlen. rewrite K. lia.
Qed.
Lemma play_ok t a b u pa pb : field t -> dget Z.eqb (alive t) a = Some pa -> dget Z.eqb (alive t) b = Some pb ->
  exists t', play t a b u = Ok t' /\ after t t' (if Rle_dec u (chance (rating pa) (rating pb) 7) then b else a).
Proof.
  intros F A B. unfold play, lookup. rewrite A, B. cbn [bind].
  assert (W : (if Rle_dec (rating pb) (rating pa) then winning_chance (rating pa) (rating pb) matchlength
     else let! w := winning_chance (rating pb) (rating pa) matchlength in Ok (1 - w)%R) = Ok (chance (rating pa) (rating pb) 7)).
  { destruct (Rle_dec (rating pb) (rating pa)) as [H|H]; (rewrite winning_value by (unfold matchlength; lra)); [reflexivity|]. cbn [bind]. f_equal.
    pose proof (chance_sum (rating pa) (rating pb) 7). unfold matchlength. lra. }
  rewrite W. cbn [bind]. destruct (Rle_dec u (chance (rating pa) (rating pb) 7)); eapply lose_ok; eassumption.
Qed.
Definition nmatches {A} (xs : list A) : Z := zlen xs / 2.
Lemma matches_ok n : forall t xs i u, (List.length xs <= n)%nat -> field t -> NoDup xs -> (forall k, In k xs -> In k (keys (alive t))) ->
  exists t', matches t xs i u = Ok t' /\ field t' /\ Permutation (keys (alive t') ++ keys (dead t')) (keys (alive t) ++ keys (dead t)) /\
  all_lives t' = all_lives t - nmatches xs /\
  let ls := losers (rating_in t) xs i u in
  (forall j, ~ In j ls -> dget Z.eqb (alive t') j = dget Z.eqb (alive t) j /\ dget Z.eqb (dead t') j = dget Z.eqb (dead t) j) /\
  (forall j, In j ls -> exists p, dget Z.eqb (alive t) j = Some p /\
     if lives p =? 1 then dget Z.eqb (alive t') j = None /\ dget Z.eqb (dead t') j = Some (mkplayer 0 (rating p))
     else dget Z.eqb (alive t') j = Some (mkplayer (lives p - 1) (rating p)) /\ dget Z.eqb (dead t') j = None) /\
  zlen (alive t) - nmatches xs <= zlen (alive t') <= zlen (alive t).
Proof.
  induction n as [|n IH]; intros t xs i u L F N I; (destruct xs as [|a [|b xs]];
    [exists t; cbn; unfold nmatches, zlen; cbn; repeat (split; [first [reflexivity|assumption|lia|tauto|intros j []]|]); lia
    |exists t; cbn; unfold nmatches, zlen; cbn; repeat (split; [first [reflexivity|assumption|lia|tauto|intros j []]|]); lia|cbn [List.length] in L; try lia]).
  destruct (dget_some _ zok (alive t) a (I a ltac:(cbn; auto))) as [pa Ea]. destruct (dget_some _ zok (alive t) b (I b ltac:(cbn; auto))) as [pb Eb].
  destruct (play_ok t a b (u i) pa pb F Ea Eb) as (t1 & E1 & F1 & P1 & S1 & O1 & K1 & Z1).
  set (l := if Rle_dec (u i) (chance (rating pa) (rating pb) 7) then b else a) in *.
  assert (Lab : l = a \/ l = b) by (unfold l; destruct (Rle_dec _ _); auto).
  inversion N as [|? ? Na N']; subst. inversion N' as [|? ? Nb Nx]; subst.
  assert (Lx : ~ In l xs) by (destruct Lab as [-> | ->]; [cbn in Na; tauto|exact Nb]).
  assert (Ne : forall j, In j xs -> j <> l) by (intros j J ->; contradiction).
  destruct (IH t1 xs (S i) u) as (t' & E' & F' & P' & S' & O' & K' & Z').
  - lia.
  - exact F1.
  - exact Nx.
  - intros k Ik. destruct (dget_some _ zok (alive t) k) as [p Ep]; [apply I; cbn; auto|]. destruct (O1 k (Ne k Ik)) as [Q _]. rewrite Ep in Q.
    apply (in_map fst) with (x := (k, p)), (dget_in _ zok), Q.
  - assert (RI : forall ys i, (forall k, In k ys -> k <> l) -> losers (rating_in t1) ys i u = losers (rating_in t) ys i u).
    { clear - O1. intros ys. assert (G : forall m ys i, (List.length ys <= m)%nat -> (forall k, In k ys -> k <> l) -> losers (rating_in t1) ys i u = losers (rating_in t) ys i u).
      { clear ys. induction m as [|m IH]; intros [|x [|y zs]] i' L H; cbn [List.length] in L; try lia; try reflexivity. cbn [losers].
        assert (R : forall k, k <> l -> rating_in t1 k = rating_in t k) by (intros k K; unfold rating_in; destruct (O1 k K) as [-> _]; reflexivity).
        rewrite !R by (apply H; cbn; auto). f_equal. apply IH; [lia|]. intros k K. apply H. cbn. auto. }
      intros i' H. apply (G (List.length ys)); [lia|exact H]. }
    rewrite RI in O', K' by exact Ne.
    assert (R0 : rating_in t a = rating pa /\ rating_in t b = rating pb) by (unfold rating_in; rewrite Ea, Eb; auto). destruct R0 as [Ra Rb].
    assert (LL : losers (rating_in t) (a :: b :: xs) i u = l :: losers (rating_in t) xs (S i) u) by (cbn [losers]; rewrite Ra, Rb; reflexivity).
    assert (Sub : forall j, In j (losers (rating_in t) xs (S i) u) -> In j xs).
    { clear. assert (G : forall m ys i j, (List.length ys <= m)%nat -> In j (losers (rating_in t) ys i u) -> In j ys).
      { induction m as [|m IH]; intros [|x [|y zs]] i' j L H; cbn [List.length] in L; try lia; try (cbn in H; contradiction). cbn [losers In] in H. destruct H as [H|H].
        - destruct (Rle_dec _ _); subst; cbn; auto.
        - right. right. apply (IH zs (S i') j); [lia|exact H]. }
      intros j. apply (G (List.length xs)). lia. }
    assert (NM : nmatches (a :: b :: xs) = nmatches xs + 1).
    { unfold nmatches, zlen. cbn [List.length]. replace (Z.of_nat (S (S (List.length xs)))) with (Z.of_nat (List.length xs) + 1 * 2) by lia. rewrite Z.div_add by lia. reflexivity. }
    exists t'. cbn [matches]. rewrite E1. cbn [bind]. split; [exact E'|]. split; [exact F'|]. split; [etransitivity; [exact P'|exact P1]|]. split; [lia|]. rewrite LL. cbv zeta. split; [|split].
    + intros j J. cbn [In] in J. destruct (O' j ltac:(tauto)) as [-> ->]. apply O1. intros ->. tauto.
    + intros j [<-|J].
      * destruct (O' l ltac:(intros J; apply Lx, Sub, J)) as [-> ->]. destruct Lab as [Q|Q]; rewrite Q in *; [exists pa|exists pb]; (split; [assumption|apply K1; assumption]).
      * destruct (K' j J) as (p & Ep & Q). exists p. destruct (O1 j (Ne j (Sub j J))) as [<- _]. split; [exact Ep|exact Q].
    + lia.
Qed.
(* C50 *)
Lemma one_round : forall t shuffle u, field t -> Permutation (shuffle (keys (alive t))) (keys (alive t)) ->
  exists t', round t shuffle u = Ok t' /\ field t' /\
  Permutation (keys (alive t') ++ keys (dead t')) (keys (alive t) ++ keys (dead t)) /\
  all_lives t' = all_lives t - zlen (alive t) / 2 /\
  let ls := losers (rating_in t) (shuffle (keys (alive t))) 0 u in
  (forall j, ~ In j ls -> dget Z.eqb (alive t') j = dget Z.eqb (alive t) j /\ dget Z.eqb (dead t') j = dget Z.eqb (dead t) j) /\
  (forall j, In j ls -> exists p, dget Z.eqb (alive t) j = Some p /\
     if lives p =? 1 then dget Z.eqb (alive t') j = None /\ dget Z.eqb (dead t') j = Some (mkplayer 0 (rating p))
     else dget Z.eqb (alive t') j = Some (mkplayer (lives p - 1) (rating p)) /\ dget Z.eqb (dead t') j = None) /\
  (alive t <> [] -> 1 <= zlen (alive t')).
Proof.
  intros t shuffle u F P. set (xs := shuffle (keys (alive t))) in *.
  assert (LX : zlen xs = zlen (alive t)) by (unfold zlen; rewrite (Permutation_length P); unfold keys; rewrite map_length; reflexivity).
  destruct (matches_ok (List.length xs) t xs 0 u) as (t' & E & F' & P' & S' & O' & K' & Z').
  - lia.
  - exact F.
  - apply (Permutation_NoDup (Permutation_sym P)). destruct F as [F _]. apply NoDup_app_l in F. exact F.
  - intros k I. apply (Permutation_in _ P), I.
  - exists t'. unfold nmatches in *. rewrite LX in *. unfold round. fold xs. split; [exact E|]. split; [exact F'|]. split; [exact P'|]. split; [exact S'|]. cbv zeta. split; [exact O'|]. split; [exact K'|].
    intros NE. assert (1 <= zlen (alive t)) by (destruct (alive t); [contradiction|unfold zlen; cbn; lia]). pose proof (Z.div_lt (zlen (alive t)) 2 ltac:(lia) ltac:(lia)). lia.
Qed.
(* C51 *)
Definition buried (t : tourney) : Prop := Forall (fun e => lives (snd e) = 0) (dead t).
Lemma round_buried t t' shuffle u : field t -> Permutation (shuffle (keys (alive t))) (keys (alive t)) -> buried t -> round t shuffle u = Ok t' -> buried t'.
Proof.
  intros F P B E. destruct (one_round t shuffle u F P) as (t1 & E1 & F1 & _ & _ & O & K & _). rewrite E in E1. injection E1 as <-.
  apply Forall_forall. intros [k p] I. cbn [snd]. assert (ND : NoDup (keys (dead t'))).
  { destruct F1 as [F1 _]. apply (Permutation_NoDup (Permutation_app_comm _ _)), NoDup_app_l in F1. exact F1. }
  pose proof (dget_unique _ zok _ _ _ ND I) as G. destruct (in_dec Z.eq_dec k (losers (rating_in t) (shuffle (keys (alive t))) 0 u)) as [J|J].
  - destruct (K k J) as (q & _ & Q). destruct (lives q =? 1); destruct Q as [_ Q]; rewrite Q in G; [injection G as <-; reflexivity|discriminate].
  - destruct (O k J) as [_ Q]. rewrite Q in G. apply (dget_in _ zok) in G. unfold buried in B. rewrite Forall_forall in B. apply (B (k, p) G).
Qed.
Lemma lives_bound t : field t -> buried t -> zlen (alive t) <= all_lives t.
Proof.
  intros [_ F] B. change (zlen (alive t) <= sum_lives (alive t ++ dead t)). rewrite sum_lives_app. unfold buried in B.
  assert (D : sum_lives (dead t) = 0) by (induction B as [|e l H _ IH]; [reflexivity|]; unfold sum_lives in *; cbn; lia). rewrite D.
  clear - F. induction F as [|e l H _ IH]; unfold sum_lives, zlen in *; cbn [map fold_right List.length] in *; lia.
Qed.
Lemma knockout_ok shuffle u : (forall c xs, Permutation (shuffle c xs) xs) -> forall fuel t c, field t -> buried t -> alive t <> [] -> all_lives t <= Z.of_nat fuel ->
  exists t' c', knockout fuel t c shuffle u = Ok (t', c') /\ zlen (alive t') = 1 /\ Z.of_nat c' <= Z.of_nat c + all_lives t - 1 /\
    Permutation (keys (alive t') ++ keys (dead t')) (keys (alive t) ++ keys (dead t)).
Proof.
  intros SH. induction fuel as [|fuel IH]; intros t c F B NE L; pose proof (lives_bound t F B) as LB;
    (assert (1 <= zlen (alive t)) by (destruct (alive t); [contradiction|unfold zlen; cbn; lia])); [lia|].
  cbn [knockout]. destruct (Z.ltb_spec 1 (zlen (alive t))) as [G|G].
  - destruct (one_round t (shuffle c) (u c) F (SH c _)) as (t1 & E & F1 & P1 & S1 & _ & _ & N1). rewrite E. cbn [bind].
    assert (D : 1 <= zlen (alive t) / 2) by (apply Z.div_le_lower_bound; lia).
    destruct (IH t1 (S c)) as (t' & c' & E' & A & Bd & P').
    + exact F1.
    + apply (round_buried t t1 (shuffle c) (u c)); auto.
    + specialize (N1 NE). destruct (alive t1); [cbn in N1; lia|discriminate].
    + lia.
    + exists t', c'. split; [exact E'|]. split; [exact A|]. split; [lia|]. etransitivity; eassumption.
  - exists t, c. split; [reflexivity|]. split; [lia|]. split; [lia|reflexivity].
Qed.
Lemma tourney_ends : forall entries shuffle u, let t := entered entries in
  field t -> entries <> [] -> (forall c xs, Permutation (shuffle c xs) xs) ->
  exists t' c, knockout (Z.to_nat (all_lives t)) t 0 shuffle u = Ok (t', c) /\
    zlen (alive t') = 1 /\ Z.of_nat c <= all_lives t - 1 /\
    Permutation (keys (alive t') ++ keys (dead t')) (keys entries).
Proof.
  intros entries shuffle u t F NE SH. assert (B : buried t) by constructor. pose proof (lives_bound t F B) as LB.
  destruct (knockout_ok shuffle u SH (Z.to_nat (all_lives t)) t 0 F B NE) as (t' & c & E & A & L & P).
  - pose proof (zlen_nonneg (alive t)). lia.
  - exists t', c. change (Permutation (keys (alive t') ++ keys (dead t')) (keys entries ++ [])) in P. rewrite app_nil_r in P. repeat (split; [first [assumption|lia]|]). exact P.
Qed.
Lemma new_is_entered n : new_tourney n = entered (alive (new_tourney n)).
Proof. reflexivity. Qed.
Lemma new_field n : field (new_tourney n).
Proof.
  split.
  - unfold new_tourney. cbn [alive dead keys map]. rewrite app_nil_r. unfold keys. rewrite map_map. cbn [fst]. rewrite map_id. unfold zrange. apply FinFun.Injective_map_NoDup; [|apply seq_NoDup]. intros a b E. lia.
  - unfold new_tourney. cbn [alive]. apply Forall_forall. intros e I. apply in_map_iff in I as (k & <- & _). cbn. lia.
Qed.
