(* Lemmas for C44, C45, C47 and C80-C82 *)
From Verif Require Import Py PyFacts BoardSpec BearoffModel BearoffSpec.

(* ---------- binomials ---------- *)
Lemma row_length n : List.length (row n) = S n.
Proof.
  induction n as [|n IH]; [reflexivity|]. cbn [row]. assert (A : forall a b, List.length a = List.length b -> List.length (addrow a b) = List.length a).
  { induction a as [|x a IA]; intros [|y b] H; try discriminate; [reflexivity|]. cbn. rewrite IA; [reflexivity|]. injection H. auto. }
  rewrite A; cbn [List.length]; [lia|]. rewrite app_length; cbn; lia.
Qed.
Lemma nth_addrow a : forall b k, List.length a = List.length b -> nth k (addrow a b) 0 = nth k a 0 + nth k b 0.
Proof.
  induction a as [|x a IA]; intros [|y b] k H; try discriminate; [destruct k; reflexivity|]. destruct k; [reflexivity|]. cbn. apply IA. injection H. auto.
Qed.
Lemma row_binomial n : forall k, nth k (row n) 0 = binomial n k.
Proof.
  induction n as [|n IH]; intros k.
  - destruct k as [|[|k]]; reflexivity.
  - cbn [row]. rewrite nth_addrow by (cbn [List.length]; rewrite app_length; cbn; lia).
    assert (E : forall k, nth k (row n ++ [0]) 0 = nth k (row n) 0).
    { intros j. destruct (Nat.lt_ge_cases j (List.length (row n))) as [G|G]; [apply app_nth1, G|]. rewrite app_nth2 by exact G.
      rewrite nth_overflow with (l := row n) by exact G. destruct (j - List.length (row n))%nat as [|[|]]; reflexivity. }
    rewrite E. destruct k as [|k]; cbn [nth binomial]; rewrite ?IH; [destruct n; reflexivity|reflexivity].
Qed.
Lemma binomial_0 n : binomial n 0 = 1.
Proof. destruct n; reflexivity. Qed.
Lemma binomial_big n : forall k, (n < k)%nat -> binomial n k = 0.
Proof. induction n as [|n IH]; intros [|k] H; try lia; [reflexivity|]. cbn [binomial]. rewrite !IH by lia. reflexivity. Qed.
Lemma binomial_nonneg n : forall k, 0 <= binomial n k.
Proof. induction n as [|n IH]; intros [|k]; cbn [binomial]; try lia. pose proof (IH k). pose proof (IH (S k)). lia. Qed.
Lemma binomial_pos n : forall k, (k <= n)%nat -> 0 < binomial n k.
Proof.
  induction n as [|n IH]; intros [|k] H; cbn [binomial]; try lia. pose proof (IH k ltac:(lia)). pose proof (binomial_nonneg n (S k)). lia.
Qed.
Lemma binomial_diag n : binomial n n = 1.
Proof. induction n as [|n IH]; [reflexivity|]. cbn [binomial]. rewrite IH, binomial_big by lia. reflexivity. Qed.
Lemma binomial_sym n : forall k, (k <= n)%nat -> binomial n (n - k) = binomial n k.
Proof.
  induction n as [|n IH]; intros k H; [assert (k = 0)%nat by lia; subst; reflexivity|].
  destruct k as [|k]; [rewrite Nat.sub_0_r, binomial_diag; reflexivity|]. destruct (Nat.eq_dec k n) as [->|N].
  - rewrite Nat.sub_diag, binomial_diag. reflexivity.
  - replace (S n - S k)%nat with (S (n - k - 1)) by lia. cbn [binomial]. rewrite <- (IH k), <- (IH (S k)) by lia.
    replace (S (n - k - 1)) with (n - k)%nat by lia. replace (n - S k)%nat with (n - k - 1)%nat by lia. lia.
Qed.
Lemma C_binomial n k : C (Z.of_nat n) (Z.of_nat k) = binomial n k.
Proof.
  unfold C. destruct (Z.leb_spec 0 (Z.of_nat k)); [|lia]. destruct (Z.leb_spec (Z.of_nat k) (Z.of_nat n)) as [G|G]; cbn [andb].
  - rewrite !Nat2Z.id. apply row_binomial.
  - symmetry. apply binomial_big. lia.
Qed.

(* ---------- ranking bit lists, most significant first ---------- *)
Fixpoint ones (l : list bool) : nat := match l with [] => O | true :: l' => S (ones l') | false :: l' => ones l' end.
Fixpoint rank (l : list bool) : Z :=
  match l with
  | [] => 0
  | true :: l' => binomial (List.length l') (S (ones l')) + rank l'
  | false :: l' => rank l'
  end.
Fixpoint unrank (n c : nat) (k : Z) : list bool :=
  match n with
  | O => []
  | S n' => match c with
            | O => false :: unrank n' O k
            | S c' => if k <? binomial n' c then false :: unrank n' c k else true :: unrank n' c' (k - binomial n' c)
            end
  end.
Lemma ones_le l : (ones l <= List.length l)%nat.
Proof. induction l as [|[|] l IH]; cbn; lia. Qed.
Lemma ones_app a b : ones (a ++ b) = (ones a + ones b)%nat.
Proof. induction a as [|[|] a IH]; cbn; lia. Qed.
Lemma ones_false n : ones (repeat false n) = O.
Proof. induction n; cbn; auto. Qed.
Lemma rank_range l : 0 <= rank l < binomial (List.length l) (ones l).
Proof.
  induction l as [|[|] l IH]; cbn [rank List.length ones binomial].
  - lia.
  - pose proof (binomial_nonneg (List.length l) (S (ones l))). lia.
  - pose proof (binomial_nonneg (List.length l) (ones l - 1)). destruct (ones l) as [|k]; [rewrite binomial_0 in IH; lia|].
    replace (S k - 1)%nat with k in * by lia. lia.
Qed.
Lemma unrank_rank l : unrank (List.length l) (ones l) (rank l) = l.
Proof.
  induction l as [|[|] l IH]; cbn [rank List.length ones unrank]; [reflexivity| |].
  - destruct (Z.ltb_spec (binomial (List.length l) (S (ones l)) + rank l) (binomial (List.length l) (S (ones l)))) as [G|G].
    + pose proof (rank_range l). lia.
    + f_equal. replace (binomial (List.length l) (S (ones l)) + rank l - binomial (List.length l) (S (ones l))) with (rank l) by lia. exact IH.
  - pose proof (rank_range l) as R. destruct (ones l) as [|c]; [f_equal; exact IH|].
    destruct (Z.ltb_spec (rank l) (binomial (List.length l) (S c))) as [G|G]; [|lia]. f_equal. exact IH.
Qed.
Lemma rank_inj a b : List.length a = List.length b -> ones a = ones b -> rank a = rank b -> a = b.
Proof. intros L O R. rewrite <- (unrank_rank a), <- (unrank_rank b), L, O, R. reflexivity. Qed.
Lemma unrank_ok n : forall c k, 0 <= k < binomial n c ->
  List.length (unrank n c k) = n /\ ones (unrank n c k) = c /\ rank (unrank n c k) = k.
Proof.
  induction n as [|n IH]; intros c k H.
  - destruct c; cbn in *; [repeat split; lia|lia].
  - destruct c as [|c]; cbn [unrank].
    + destruct (IH O k) as (A & B & D); [rewrite binomial_0 in *; exact H|]. cbn [List.length ones rank]. auto.
    + destruct (Z.ltb_spec k (binomial n (S c))) as [G|G]; cbn [List.length ones rank].
      * destruct (IH (S c) k ltac:(lia)) as (A & B & D). auto.
      * cbn [binomial] in H. destruct (IH c (k - binomial n (S c)) ltac:(lia)) as (A & B & D). rewrite A, B, D. repeat split; lia.
Qed.

(* ---------- words of a side: 0^a 1 0^x1 1 0^x2 ... ---------- *)
Definition block (x : Z) : list bool := true :: repeat false (Z.to_nat x).
Definition word (a : nat) (t : list Z) : list bool := repeat false a ++ flat_map block t.
Lemma ones_word a t : ones (word a t) = List.length t.
Proof.
  unfold word. rewrite ones_app, ones_false. cbn [Nat.add]. induction t as [|x t IH]; [reflexivity|]. cbn [flat_map List.length].
  rewrite ones_app, IH. unfold block. cbn [ones]. rewrite ones_false. reflexivity.
Qed.
Lemma total_nonneg t : Forall (fun x => 0 <= x) t -> 0 <= total t.
Proof. induction 1; unfold total in *; cbn; lia. Qed.
Lemma length_blocks t : Forall (fun x => 0 <= x) t -> Z.of_nat (List.length (flat_map block t)) = Z.of_nat (List.length t) + total t.
Proof.
  induction 1 as [|x t Hx Ht IH]; [reflexivity|]. cbn [flat_map List.length]. rewrite app_length, Nat2Z.inj_add, IH. unfold block. cbn [List.length]. rewrite repeat_length.
  unfold total in *. cbn [fold_right]. lia.
Qed.
Lemma length_word a t : Forall (fun x => 0 <= x) t -> Z.of_nat (List.length (word a t)) = Z.of_nat a + Z.of_nat (List.length t) + total t.
Proof. intros H. unfold word. rewrite app_length, repeat_length, Nat2Z.inj_add, length_blocks by exact H. lia. Qed.
Lemma word_inj t : forall a b u, Forall (fun x => 0 <= x) t -> Forall (fun x => 0 <= x) u -> List.length t = List.length u ->
  word a t = word b u -> (a = b /\ t = u).
Proof.
  induction t as [|x t IH]; intros a b u Ft Fu L E; destruct u as [|y u]; try discriminate.
  - unfold word in E. cbn in E. rewrite !app_nil_r in E. apply (f_equal (@List.length bool)) in E. rewrite !repeat_length in E. auto.
  - assert (S : forall a b X Y, repeat false a ++ true :: X = repeat false b ++ true :: Y -> a = b /\ X = Y).
    { clear. induction a as [|a IA]; intros [|b] X Y E; cbn in E; try discriminate; [injection E as ->; auto|]. injection E as E.
      destruct (IA b X Y E) as [-> ->]. auto. }
    unfold word in E. cbn [flat_map] in E. unfold block at 1 3 in E. cbn [app] in E. apply S in E as [-> E]. split; [reflexivity|].
    inversion Ft; inversion Fu; subst. destruct (IH (Z.to_nat x) (Z.to_nat y) u) as [Q ->]; auto. f_equal. lia.
Qed.
Lemma word_onto l : exists a t, l = word a t /\ Forall (fun x => 0 <= x) t.
Proof.
  induction l as [|[|] l (a & t & -> & F)]; [exists O, []; split; [reflexivity|constructor]| |].
  - exists O, (Z.of_nat a :: t). split; [|constructor; [lia|exact F]]. unfold word, block. cbn [repeat app flat_map]. rewrite Nat2Z.id. reflexivity.
  - exists (S a), t. split; [reflexivity|exact F].
Qed.

(* ---------- gnubgdb ---------- *)
Lemma f_rank l : forall b fuel, (List.length l < fuel)%nat -> -1 < b ->
  (forall k, (k < List.length l)%nat -> Z.testbit b (Z.of_nat (List.length l - 1 - k)) = nth k l false) ->
  f fuel b (Z.of_nat (List.length l)) (Z.of_nat (ones l)) = Ok (rank l).
Proof.
  induction l as [|x l IH]; intros b fuel F B T; (destruct fuel as [|fuel]; [cbn in F; lia|]).
  - cbn [f List.length ones]. change (-1 <? Z.of_nat 0) with true. replace (-1 <? b) with true by lia. reflexivity.
  - cbn [f]. pose proof (ones_le (x :: l)) as OL. set (n := List.length (x :: l)) in *.
    replace (-1 <? b) with true by lia. replace (-1 <? Z.of_nat n) with true by lia. replace (-1 <? Z.of_nat (ones (x :: l))) with true by lia. cbn [passert bind].
    assert (T' : forall k, (k < List.length l)%nat -> Z.testbit b (Z.of_nat (List.length l - 1 - k)) = nth k l false).
    { intros k Hk. specialize (T (S k) ltac:(unfold n; cbn; lia)). cbn [nth] in T. rewrite <- T. f_equal. unfold n. cbn [List.length]. lia. }
    destruct (Z.eqb_spec (Z.of_nat n) (Z.of_nat (ones (x :: l)))) as [E|E].
    + f_equal. symmetry. apply Nat2Z.inj in E. unfold n in E. clear -E. assert (G : forall l, ones l = List.length l -> rank l = 0).
      { clear. induction l as [|[|] l IH]; intros H; cbn in *; [reflexivity| |pose proof (ones_le l); lia].
        rewrite IH by lia. rewrite binomial_big by lia. reflexivity. }
      apply G. congruence.
    + assert (N : n = S (List.length l)) by reflexivity. destruct (Z.ltb_spec (Z.of_nat n - 1) 0) as [G|G]; [lia|].
      pose proof (T 0%nat ltac:(lia)) as T0. cbn [nth] in T0. replace (Z.of_nat (n - 1 - 0)) with (Z.of_nat n - 1) in T0 by lia. rewrite T0.
      replace (Z.of_nat n - 1) with (Z.of_nat (List.length l)) by lia.
      destruct x; cbn [ones rank].
      * replace (Z.of_nat (S (ones l)) - 1) with (Z.of_nat (ones l)) by lia. rewrite IH by (cbn in F; auto; lia). cbn [bind]. rewrite C_binomial. reflexivity.
      * apply IH; [cbn in F; lia|exact B|exact T'].
Qed.

Definition set_step (s : Z * Z) (x : Z) : Z * Z :=
  let '(j, bits) := s in let j := j - (x + 1) in if -1 <? j then (j, Z.lor bits (Z.shiftl 1 j)) else (j, bits).
Definition lastpos (t : list Z) : Z := Z.of_nat (List.length t) + total t - 1.
(* the bit at i is set in the word of t *)
Fixpoint wbit (t : list Z) (i : Z) : bool := match t with [] => false | _ :: t' => (i =? lastpos t) || wbit t' i end.
Lemma testbit_one j i : 0 <= j -> Z.testbit (Z.shiftl 1 j) i = (i =? j).
Proof.
  intros H. destruct (Z.ltb_spec i 0) as [G|G]; [rewrite Z.testbit_neg_r by exact G; lia|]. rewrite Z.shiftl_spec by exact G.
  destruct (Z.eqb_spec i j) as [->|N]; [rewrite Z.sub_diag; reflexivity|]. destruct (Z.ltb_spec (i - j) 0); [apply Z.testbit_neg_r; lia|].
  change 1 with (2 ^ 0). rewrite Z.pow2_bits_false by lia. reflexivity.
Qed.
Lemma set_loop t : forall b, Forall (fun x => 0 <= x) t -> 0 <= b ->
  exists b', fold_left set_step t (lastpos t, b) = (-1, b') /\ 0 <= b' /\ forall i, Z.testbit b' i = Z.testbit b i || match t with [] => false | _ :: t' => wbit t' i end.
Proof.
  induction t as [|x t IH]; intros b F B.
  - exists b. split; [reflexivity|]. split; [exact B|]. intros i. rewrite orb_false_r. reflexivity.
  - inversion F as [|? ? Fx Ft]; subst. cbn [fold_left]. unfold set_step at 2.
    assert (E : lastpos (x :: t) - (x + 1) = lastpos t) by (unfold lastpos, total; cbn [List.length fold_right]; lia). rewrite E.
    destruct (Z.ltb_spec (-1) (lastpos t)) as [G|G].
    + destruct (IH (Z.lor b (Z.shiftl 1 (lastpos t))) Ft) as (b' & E' & P & T).
      { apply Z.lor_nonneg. split; [exact B|]. apply Z.shiftl_nonneg. lia. }
      exists b'. split; [exact E'|]. split; [exact P|]. intros i. rewrite T, Z.lor_spec, testbit_one by lia.
      destruct t as [|y t]; [unfold lastpos in G; cbn in G; lia|]. cbn [wbit]. destruct (Z.testbit b i), (i =? lastpos (y :: t)), (wbit t i); reflexivity.
    + assert (t = []) as ->. { destruct t as [|y t]; [reflexivity|]. pose proof (total_nonneg _ Ft). unfold lastpos in G. cbn [List.length] in G. lia. }
      cbn. exists b. split; [reflexivity|]. split; [exact B|]. intros i. rewrite orb_false_r. reflexivity.
Qed.
Lemma nth_word t : forall a k, Forall (fun x => 0 <= x) t -> (k < List.length (word a t))%nat ->
  nth k (word a t) false = wbit t (Z.of_nat (List.length (word a t) - 1 - k)).
Proof.
  induction t as [|x t IH]; intros a k F Hk.
  - unfold word in *. cbn [flat_map] in *. rewrite app_nil_r in *. cbn [wbit]. rewrite nth_repeat. reflexivity.
  - assert (Fx : 0 <= x /\ Forall (fun x => 0 <= x) t) by (inversion F; auto). destruct Fx as [Fx Ft].
    pose proof (length_word a (x :: t) F) as LW. cbn [wbit].
    assert (Lp : lastpos (x :: t) = Z.of_nat (List.length (word a (x :: t))) - 1 - Z.of_nat a) by (unfold lastpos; lia).
    assert (Nt : forall i, lastpos t < i -> wbit t i = false).
    { clear -Ft. induction Ft as [|y t Fy Ft IH]; intros i H; [reflexivity|]. cbn [wbit]. rewrite IH by (unfold lastpos, total in *; cbn [List.length fold_right] in *; lia).
      destruct (Z.eqb_spec i (lastpos (y :: t))); [lia|reflexivity]. }
    assert (Lt : lastpos t < lastpos (x :: t)) by (unfold lastpos, total; cbn [List.length fold_right]; lia).
    destruct (Nat.lt_trichotomy k a) as [G|[G|G]].
    + rewrite Nt by lia. destruct (Z.eqb_spec (Z.of_nat (List.length (word a (x :: t)) - 1 - k)) (lastpos (x :: t))); [lia|].
      unfold word. rewrite app_nth1 by (rewrite repeat_length; exact G). rewrite nth_repeat. reflexivity.
    + subst k. replace (Z.of_nat (List.length (word a (x :: t)) - 1 - a)) with (lastpos (x :: t)) by lia. rewrite Z.eqb_refl.
      unfold word. rewrite app_nth2 by (rewrite repeat_length; lia). rewrite repeat_length, Nat.sub_diag. reflexivity.
    + destruct (Z.eqb_spec (Z.of_nat (List.length (word a (x :: t)) - 1 - k)) (lastpos (x :: t))) as [Q|Q]; [lia|]. cbn [orb].
      assert (W : word a (x :: t) = repeat false a ++ true :: word (Z.to_nat x) t) by reflexivity.
      assert (LL : List.length (word a (x :: t)) = (a + S (List.length (word (Z.to_nat x) t)))%nat) by (rewrite W, app_length, repeat_length; reflexivity).
      rewrite W at 1. rewrite app_nth2 by (rewrite repeat_length; lia). rewrite repeat_length. destruct (k - a)%nat as [|m] eqn:Em; [lia|]. cbn [nth].
      rewrite IH by (auto; lia). f_equal. lia.
Qed.
Lemma fold_total xs : forall a, fold_left (fun j x => j + x) xs a = a + total xs.
Proof. induction xs as [|x xs IH]; intros a; cbn [fold_left]; [unfold total; cbn; lia|]. rewrite IH. unfold total. cbn [fold_right]. lia. Qed.
Lemma count_total t : count t = total t.
Proof. unfold count. rewrite fold_total. reflexivity. Qed.
Lemma skipn_succ {A} (l : list A) : forall k, skipn (S k) l = tl (skipn k l).
Proof. induction l as [|x l IH]; intros [|k]; try reflexivity. change (skipn (S (S k)) (x :: l)) with (skipn (S k) l). rewrite IH. reflexivity. Qed.
Lemma read_prefix (t : list Z) p : (p <= List.length t)%nat -> mapM (pyget t) (zrange 0 (Z.of_nat p)) = Ok (firstn p t).
Proof.
  intros H. apply mapM_ok. unfold zrange. rewrite Z.sub_0_r, Nat2Z.id.
  assert (G : forall p k, (k + p <= List.length t)%nat -> Forall2 (fun x y => pyget t x = Ok y) (map (fun k => 0 + Z.of_nat k) (seq k p)) (firstn p (skipn k t))).
  { clear. induction p as [|p IH]; intros k H; [constructor|]. cbn [seq map]. destruct (skipn k t) as [|x r] eqn:E.
    - apply (f_equal (@List.length Z)) in E. rewrite skipn_length in E. cbn in E. lia.
    - cbn [firstn]. constructor.
      + rewrite (pyget_in _ _ 0) by (unfold zlen; lia). f_equal. replace (Z.to_nat (0 + Z.of_nat k)) with k by lia.
        rewrite <- (firstn_skipn k t), E. rewrite app_nth2 by (rewrite firstn_length; lia). rewrite firstn_length. replace (k - Nat.min k (List.length t))%nat with 0%nat by lia. reflexivity.
      + replace r with (skipn (S k) t). { apply IH. lia. }
        rewrite skipn_succ, E. reflexivity. }
  apply (G p 0%nat H).
Qed.
Lemma index_rank t p c : (1 <= p)%nat -> side_of p c t -> forall rest,
  oneside_index (t ++ rest) (Z.of_nat p) (Z.of_nat c) = Ok (rank (word (c - Z.to_nat (total t)) t)).
Proof.
  intros P (Lt & Ft & St) rest. pose proof (total_nonneg t Ft) as N. unfold oneside_index. rewrite read_prefix by (rewrite app_length; lia).
  rewrite firstn_app, Lt, Nat.sub_diag, firstn_O, app_nil_r, firstn_all2 by lia. cbn [bind].
  assert (E : fold_left (fun j x => j + x) t (Z.of_nat p - 1) = lastpos t).
  { rewrite fold_total. unfold lastpos. lia. }
  rewrite E. assert (LP : 0 <= lastpos t) by (unfold lastpos; lia). destruct (Z.ltb_spec (lastpos t) 0); [lia|].
  destruct (set_loop t (Z.shiftl 1 (lastpos t)) Ft) as (b' & Eb & B & T). { apply Z.shiftl_nonneg. lia. }
  unfold set_step in Eb. rewrite Eb.
  pose proof (length_word (c - Z.to_nat (total t)) t Ft) as LW.
  replace (Z.of_nat p + Z.of_nat c) with (Z.of_nat (List.length (word (c - Z.to_nat (total t)) t))) by lia.
  replace (Z.of_nat p) with (Z.of_nat (ones (word (c - Z.to_nat (total t)) t))) by (rewrite ones_word; lia).
  apply f_rank; [lia|lia|]. intros k Hk. rewrite nth_word by assumption. rewrite T, testbit_one by lia. destruct t; [cbn in Lt; lia|]. reflexivity.
Qed.
(* C44 *)
Lemma perfect_index : forall p c, (1 <= p)%nat ->
  (forall t rest, side_of p c t -> exists k,
     oneside_index (t ++ rest) (Z.of_nat p) (Z.of_nat c) = Ok k /\ 0 <= k < binomial (p + c) p) /\
  (forall t u rest rest', side_of p c t -> side_of p c u ->
     oneside_index (t ++ rest) (Z.of_nat p) (Z.of_nat c) = oneside_index (u ++ rest') (Z.of_nat p) (Z.of_nat c) -> t = u) /\
  (forall k, 0 <= k < binomial (p + c) p -> exists t, side_of p c t /\
     forall rest, oneside_index (t ++ rest) (Z.of_nat p) (Z.of_nat c) = Ok k) /\
  (forall rest, oneside_index (repeat 0 p ++ rest) (Z.of_nat p) (Z.of_nat c) = Ok 0).
Proof.
  intros p c P. split; [|split; [|split]].
  - intros t rest H. exists (rank (word (c - Z.to_nat (total t)) t)). split; [apply index_rank; assumption|].
    destruct H as (Lt & Ft & St). pose proof (rank_range (word (c - Z.to_nat (total t)) t)) as R. pose proof (length_word (c - Z.to_nat (total t)) t Ft) as LW.
    pose proof (total_nonneg t Ft). rewrite ones_word, Lt in R. replace (List.length (word (c - Z.to_nat (total t)) t)) with (p + c)%nat in R by lia. exact R.
  - intros t u rest rest' Ht Hu E. rewrite !index_rank in E by assumption. injection E as E. destruct Ht as (Lt & Ft & St), Hu as (Lu & Fu & Su).
    pose proof (total_nonneg t Ft). pose proof (total_nonneg u Fu).
    pose proof (length_word (c - Z.to_nat (total t)) t Ft). pose proof (length_word (c - Z.to_nat (total u)) u Fu).
    apply rank_inj in E; [|lia|rewrite !ones_word; lia]. apply word_inj in E as [_ E]; auto. lia.
  - intros k H. destruct (unrank_ok (p + c) p k H) as (A & B & R). destruct (word_onto (unrank (p + c) p k)) as (a & t & E & F).
    assert (Lt : List.length t = p) by (rewrite <- (ones_word a t), <- E; exact B).
    pose proof (length_word a t F) as LW. rewrite <- E, A in LW. pose proof (total_nonneg t F).
    assert (S : side_of p c t) by (split; [exact Lt|split; [exact F|lia]]).
    exists t. split; [exact S|]. intros rest. rewrite index_rank by assumption. replace (c - Z.to_nat (total t))%nat with a by lia. rewrite <- E, R. reflexivity.
  - intros rest. assert (T0 : total (repeat 0 p) = 0). { clear. induction p; unfold total in *; cbn; lia. }
    rewrite index_rank; [|exact P|split; [apply repeat_length|split; [apply Forall_forall; intros x I; apply repeat_spec in I; lia|lia]]].
    rewrite T0. change (Z.to_nat 0) with 0%nat. rewrite Nat.sub_0_r. f_equal. unfold word.
    assert (G : forall a l, rank (repeat false a ++ l) = rank l) by (clear; induction a; cbn; auto). rewrite G.
    clear. assert (O : forall p, List.length (flat_map block (repeat 0 p)) = p /\ ones (flat_map block (repeat 0 p)) = p /\ rank (flat_map block (repeat 0 p)) = 0).
    { clear. induction p as [|p (A & B & R)]; [auto|]. cbn [repeat flat_map]. change (block 0) with [true]. cbn [app List.length ones rank].
      rewrite A, B, R, binomial_big by lia. auto. }
    apply O.
Qed.

(* ---------- nori ---------- *)
Definition to_bool (x : Z) : bool := x =? 1.
Definition of_bool (b : bool) : Z := if b then 1 else 0.
Definition comb_hash (l : list Z) (c : Z) : Z := rank (map to_bool l).
Definition comb_rhash (k n c : Z) : list Z := map of_bool (unrank (Z.to_nat n) (Z.to_nat c) k).
Lemma of_to l : bits l -> map of_bool (map to_bool l) = l.
Proof. induction 1 as [|x l [->| ->] _ IH]; cbn; [reflexivity|rewrite IH; reflexivity|rewrite IH; reflexivity]. Qed.
Lemma to_of l : map to_bool (map of_bool l) = l.
Proof. induction l as [|[|] l IH]; cbn; [reflexivity|rewrite IH; reflexivity|rewrite IH; reflexivity]. Qed.
Lemma bits_of l : bits (map of_bool l).
Proof. induction l as [|[|] l IH]; cbn; constructor; auto. Qed.
Lemma total_bits l : bits l -> total l = Z.of_nat (ones (map to_bool l)).
Proof. induction 1 as [|x l [->| ->] _ IH]; unfold total in *; cbn [fold_right map]; [reflexivity| |]; change (to_bool 0) with false; change (to_bool 1) with true; cbn [ones]; lia. Qed.
Lemma comb_hash_ok : hash_spec comb_hash comb_rhash.
Proof.
  constructor.
  - intros l B. rewrite (total_bits l B), Nat2Z.id. unfold comb_hash. pose proof (rank_range (map to_bool l)) as R. rewrite map_length in R. exact R.
  - intros l B. unfold comb_hash, comb_rhash, zlen. rewrite (total_bits l B), !Nat2Z.id. rewrite <- (map_length to_bool l), unrank_rank. apply of_to, B.
  - intros n c k H l. subst l. unfold comb_rhash, comb_hash. rewrite !Nat2Z.id. destruct (unrank_ok n c k H) as (A & B & R). split; [apply bits_of|].
    rewrite map_length. split; [exact A|]. rewrite total_bits by apply bits_of. rewrite to_of. split; [lia|exact R].
  - reflexivity.
Qed.

Lemma sigma_binomial i : sigma i = binomial (6 + i) 6.
Proof.
  induction i as [|i IH]; [reflexivity|]. cbn [sigma]. rewrite IH. unfold D. replace (6 + Z.of_nat (S i) - 1) with (Z.of_nat (6 + i)) by lia. rewrite C_binomial.
  replace (6 + S i)%nat with (S (6 + i)) by lia. rewrite <- (binomial_sym (6 + i) (S i)) by lia. replace (6 + i - S i)%nat with 5%nat by lia.
  set (n := (6 + i)%nat). clearbody n. cbn [binomial]. lia.
Qed.
Lemma sigma_lt i j : (i < j)%nat -> sigma i < sigma j.
Proof.
  induction 1 as [|j H IH]; cbn [sigma]; unfold D.
  - replace (6 + Z.of_nat (S i) - 1) with (Z.of_nat (6 + i)) by lia. rewrite C_binomial. pose proof (binomial_pos (6 + i) (S i) ltac:(lia)). lia.
  - replace (6 + Z.of_nat (S j) - 1) with (Z.of_nat (6 + j)) by lia. rewrite C_binomial. pose proof (binomial_pos (6 + j) (S j) ltac:(lia)). lia.
Qed.
(* the number of keys below those of c chequers *)
Definition below (c : nat) : Z := match c with O => 0 | S k => sigma k end.
Lemma below_succ c : below (S c) = below c + binomial (5 + c) c.
Proof.
  destruct c as [|c]; [reflexivity|]. cbn [below sigma]. unfold D. replace (6 + Z.of_nat (S c) - 1) with (Z.of_nat (5 + S c)) by lia. rewrite C_binomial. reflexivity.
Qed.
Lemma sigmaD_below c : (c <= 16)%nat -> sigmaD (Z.of_nat c - 1) = Ok (below c).
Proof.
  intros H. unfold sigmaD. destruct c as [|c]; [reflexivity|]. destruct (Z.eqb_spec (Z.of_nat (S c) - 1) (-1)); [lia|].
  replace ((0 <=? Z.of_nat (S c) - 1) && (Z.of_nat (S c) - 1 <=? 15)) with true by lia. cbn [below]. do 2 f_equal. lia.
Qed.
Lemma below_mono a b : (a <= b)%nat -> below a <= below b.
Proof.
  intros H. destruct a as [|a], b as [|b]; cbn [below]; try lia.
  - pose proof (sigma_binomial b). pose proof (binomial_nonneg (6 + b) 6). lia.
  - destruct (Nat.eq_dec a b) as [->|N]; [lia|]. pose proof (sigma_lt a b ltac:(lia)). lia.
Qed.
(* the list hashed, without its leading zero *)
Definition nword (t : list Z) : list Z := match t with [] => [] | x :: r => repeat 1 (Z.to_nat x) ++ flat_map (fun y => 0 :: repeat 1 (Z.to_nat y)) r end.
Lemma rev_repeat {A} (x : A) n : rev (repeat x n) = repeat x n.
Proof. induction n as [|n IH]; [reflexivity|]. cbn [repeat rev]. rewrite IH. clear. induction n; cbn; [reflexivity|]. rewrite IHn. reflexivity. Qed.
Lemma rev_flat t : rev (flat_map (fun i => repeat 1 (Z.to_nat i) ++ [0]) t) = flat_map (fun y => 0 :: repeat 1 (Z.to_nat y)) (rev t).
Proof.
  induction t as [|x t IH]; [reflexivity|]. cbn [flat_map rev]. rewrite flat_map_app, rev_app_distr, IH. f_equal. cbn [flat_map]. rewrite app_nil_r, rev_app_distr, rev_repeat. reflexivity.
Qed.
Lemma flat_nword l : l <> [] -> flat_map (fun y => 0 :: repeat 1 (Z.to_nat y)) l = 0 :: nword l.
Proof. destruct l as [|x l]; [contradiction|]. reflexivity. Qed.
Lemma bits_nword l : bits (nword l).
Proof.
  assert (R : forall n, bits (repeat 1 n)) by (intros n; apply Forall_forall; intros x I; apply repeat_spec in I; auto).
  destruct l as [|x l]; [constructor|]. cbn [nword]. apply Forall_app. split; [apply R|]. induction l as [|y l IH]; [constructor|]. cbn [flat_map app]. constructor; [auto|].
  apply Forall_app. split; [apply R|exact IH].
Qed.
Lemma total_app_ a b : total (a ++ b) = total a + total b.
Proof. unfold total. induction a as [|x a IH]; cbn; [reflexivity|]. rewrite IH. lia. Qed.
Lemma total_rep n : total (repeat 1 n) = Z.of_nat n.
Proof. induction n; unfold total in *; cbn [repeat fold_right]; lia. Qed.
Lemma nword_facts l : l <> [] -> Forall (fun x => 0 <= x) l -> total (nword l) = total l /\ Z.of_nat (List.length (nword l)) = Z.of_nat (List.length l) - 1 + total l.
Proof.
  intros N F. destruct F as [|x l Fx Fl]; [contradiction|]. cbn [nword].
  assert (G : total (flat_map (fun y => 0 :: repeat 1 (Z.to_nat y)) l) = total l /\
              Z.of_nat (List.length (flat_map (fun y => 0 :: repeat 1 (Z.to_nat y)) l)) = Z.of_nat (List.length l) + total l).
  { clear -Fl. induction Fl as [|y l Fy Fl (A & B)]; [auto|]. cbn [flat_map app List.length]. rewrite app_length, repeat_length.
    change (total (0 :: repeat 1 (Z.to_nat y) ++ flat_map (fun y => 0 :: repeat 1 (Z.to_nat y)) l)) with (0 + total (repeat 1 (Z.to_nat y) ++ flat_map (fun y => 0 :: repeat 1 (Z.to_nat y)) l)).
    rewrite total_app_, total_rep, A. unfold total in *. cbn [fold_right]. lia. }
  rewrite total_app_, total_rep, app_length, repeat_length. destruct G as [-> G2]. unfold total in *. cbn [fold_right List.length]. lia.
Qed.
(* the bits with zeros and ones exchanged are a word *)
Lemma nword_word l : l <> [] -> map (fun x => negb (to_bool x)) (nword l) = word (Z.to_nat (hd 0 l)) (tl l).
Proof.
  destruct l as [|x l]; [contradiction|]. intros _. cbn [nword hd tl]. unfold word. rewrite map_app. f_equal.
  - induction (Z.to_nat x) as [|n IH]; [reflexivity|]. cbn [repeat map]. rewrite IH. reflexivity.
  - induction l as [|y l IH]; [reflexivity|]. cbn [flat_map]. rewrite map_app, IH. f_equal. cbn [map]. unfold block. change (to_bool 0) with false. cbn [negb]. f_equal.
    induction (Z.to_nat y) as [|n IHn]; [reflexivity|]. cbn [repeat map]. rewrite IHn. reflexivity.
Qed.
Lemma nword_inj a b : List.length a = List.length b -> a <> [] -> Forall (fun x => 0 <= x) a -> Forall (fun x => 0 <= x) b -> nword a = nword b -> a = b.
Proof.
  intros L N Fa Fb E. assert (Nb : b <> []) by (destruct b; [destruct a; [contradiction|discriminate]|discriminate]).
  apply (f_equal (map (fun x => negb (to_bool x)))) in E. rewrite !nword_word in E by assumption.
  destruct a as [|x a], b as [|y b]; try contradiction. inversion Fa; inversion Fb; subst. cbn [hd tl] in E. apply word_inj in E as [E ->]; auto. f_equal. lia.
Qed.
Lemma nword_onto p : forall l, bits l -> zlen l = total l + Z.of_nat p -> exists t, List.length t = S p /\ Forall (fun x => 0 <= x) t /\ nword t = l.
Proof.
  intros l. revert p. induction l as [|x l IH]; intros p B H.
  - assert (p = 0)%nat by (unfold zlen, total in H; cbn in H; lia). subst. exists [0]. split; [reflexivity|]. split; [repeat constructor; lia|reflexivity].
  - inversion B as [|? ? Bx Bl]; subst. destruct Bx as [->| ->].
    + assert (exists q, p = S q) as [q ->].
      { destruct p as [|q]; [|eauto]. exfalso. assert (G : forall l, bits l -> total l <= zlen l) by (clear; induction 1 as [|x l [->| ->] _ IH]; unfold total, zlen in *; cbn [fold_right List.length] in *; lia).
        specialize (G l Bl). unfold total, zlen in *. cbn [fold_right List.length] in *. lia. }
      destruct (IH q Bl) as (t & Lt & Ft & Et); [unfold zlen, total in *; cbn [fold_right List.length] in *; lia|].
      exists (0 :: t). split; [cbn; lia|]. split; [constructor; [lia|exact Ft]|]. cbn [nword Z.to_nat repeat app]. destruct t as [|y t]; [discriminate|]. cbn [flat_map]. cbn [nword] in Et. cbn [app]. rewrite Et. reflexivity.
    + destruct (IH p Bl) as (t & Lt & Ft & Et); [unfold zlen, total in *; cbn [fold_right List.length] in *; lia|].
      destruct t as [|y t]; [discriminate|]. inversion Ft; subst. exists (y + 1 :: t). split; [exact Lt|]. split; [constructor; [lia|assumption]|].
      cbn [nword] in *. replace (Z.to_nat (y + 1)) with (S (Z.to_nat y)) by lia. reflexivity.
Qed.
Lemma spread_nword l : forall xs k, Forall (fun x => 0 <= x) l -> l <> [] -> (k + List.length l <= List.length xs)%nat ->
  exists ys, spread (nword l) (Z.of_nat k) xs = Ok ys /\ List.length ys = List.length xs /\
    forall i, nth i ys 0 = nth i xs 0 + (if (k <=? i)%nat && (i <? k + List.length l)%nat then nth (i - k) l 0 else 0).
Proof.
  assert (G : forall n r xs k, (k < List.length xs)%nat -> spread (repeat 1 n ++ r) (Z.of_nat k) xs = spread r (Z.of_nat k) (list_set xs k (nth k xs 0 + Z.of_nat n))).
  { induction n as [|n IH]; intros r xs k Hk.
    - cbn [repeat app]. rewrite Z.add_0_r. f_equal. symmetry. apply list_set_app_nth. exact Hk.
    - cbn [repeat app spread]. change (1 =? 1) with true. cbv iota. rewrite pyadd_in by (unfold zlen; lia). cbn [bind]. rewrite Nat2Z.id. rewrite IH by (rewrite list_set_length; exact Hk).
      rewrite list_set_set. f_equal. f_equal. rewrite nth_list_set. destruct (Nat.eqb_spec k k); [|contradiction]. 
      destruct (Nat.ltb_spec k (List.length xs)); cbn [andb]; lia. }
  induction l as [|x l IH]; intros xs k F N H; [contradiction|]. inversion F as [|? ? Fx Fl]; subst. cbn [List.length] in H.
  cbn [nword]. rewrite G by lia. destruct l as [|y l].
  - cbn [flat_map spread]. eexists. split; [reflexivity|]. split; [apply list_set_length|]. intros i. rewrite nth_list_set. cbn [List.length].
    rewrite Z2Nat.id by exact Fx.
    destruct (Nat.eqb_spec i k) as [->|D].
    + destruct (Nat.ltb_spec k (List.length xs)); [|lia]. rewrite Nat.leb_refl. destruct (Nat.ltb_spec k (k + 1)); [|lia]. cbn [andb]. rewrite Nat.sub_diag. reflexivity.
    + cbn [andb]. destruct (Nat.leb_spec k i); destruct (Nat.ltb_spec i (k + 1)); cbn [andb]; try lia.
  - set (xs' := list_set xs k (nth k xs 0 + Z.of_nat (Z.to_nat x))).
    destruct (IH xs' (S k) Fl ltac:(discriminate)) as (ys & E & Ly & Ny); [unfold xs'; rewrite list_set_length; cbn [List.length] in *; lia|].
    exists ys. split; [|split; [rewrite Ly; apply list_set_length|]].
    + cbn [flat_map app spread]. change (0 =? 1) with false. change (0 =? 0) with true. cbv iota. replace (Z.of_nat k + 1) with (Z.of_nat (S k)) by lia. cbn [nword] in E. exact E.
    + intros i. rewrite Ny. unfold xs'. rewrite nth_list_set. rewrite Z2Nat.id by exact Fx. cbn [List.length].
      destruct (Nat.eqb_spec i k) as [->|D].
      * destruct (Nat.ltb_spec k (List.length xs)); [|lia]. cbn [andb]. destruct (Nat.leb_spec (S k) k); [lia|]. cbn [andb]. rewrite Nat.leb_refl. destruct (Nat.ltb_spec k (k + S (S (List.length l)))); [|lia].
        cbn [andb]. rewrite Nat.sub_diag. cbn [nth]. lia.
      * cbn [andb]. destruct (Nat.leb_spec (S k) i), (Nat.leb_spec k i); try lia; cbn [andb]; [|reflexivity].
        destruct (Nat.ltb_spec i (S k + S (List.length l))), (Nat.ltb_spec i (k + S (S (List.length l)))); try lia. cbn [andb].
        destruct (i - k)%nat as [|m] eqn:Em; [lia|]. cbn [nth]. replace (i - S k)%nat with m by lia. reflexivity.
Qed.

Section Nori.
Variable H : list Z -> Z -> Z.
Variable R : Z -> Z -> Z -> list Z.
Hypothesis HR : hash_spec H R.
Lemma t2k_value t : side_of 6 15 t -> oneside_upto6_t2k H t = Ok (below (Z.to_nat (total t)) + H (nword (rev t)) (total t)).
Proof.
  intros (L & F & S). pose proof (total_nonneg t F). unfold oneside_upto6_t2k, zlen. rewrite L. change (Z.of_nat 6 =? 6) with true. cbn [passert bind].
  rewrite count_total. replace (total t) with (Z.of_nat (Z.to_nat (total t))) at 1 by lia. rewrite sigmaD_below by lia. cbn [bind].
  rewrite rev_flat, flat_nword by (intros E; apply (f_equal (@List.length Z)) in E; rewrite rev_length, L in E; discriminate).
  rewrite (hash_zero _ _ HR). reflexivity.
Qed.
Lemma total_rev t : total (rev t) = total t.
Proof. induction t as [|x t IH]; [reflexivity|]. cbn [rev]. rewrite total_app_, IH. unfold total. cbn [fold_right]. lia. Qed.
Lemma nword_rev t c : side_of 6 c t -> rev t <> [] /\ total (nword (rev t)) = total t /\ List.length (nword (rev t)) = (5 + Z.to_nat (total t))%nat.
Proof.
  intros (L & F & S). assert (N : rev t <> []) by (intros E; apply (f_equal (@List.length Z)) in E; rewrite rev_length, L in E; discriminate).
  pose proof (total_nonneg t F). destruct (nword_facts (rev t) N) as [A B]; [apply Forall_rev, F|]. rewrite rev_length, L, total_rev in *. split; [exact N|]. split; [exact A|lia].
Qed.
Lemma t2k_range t : side_of 6 15 t -> below (Z.to_nat (total t)) <= below (Z.to_nat (total t)) + H (nword (rev t)) (total t) < below (S (Z.to_nat (total t))).
Proof.
  intros S. destruct (nword_rev t 15 S) as (N & A & B). pose proof (hash_range _ _ HR (nword (rev t)) (bits_nword _)) as G. rewrite A, B in G. rewrite below_succ. lia.
Qed.
Lemma below_unique a b k : below a <= k < below (S a) -> below b <= k < below (S b) -> a = b.
Proof.
  intros A B. destruct (Nat.lt_trichotomy a b) as [G|[G|G]]; [|exact G|]; exfalso.
  - pose proof (below_mono (S a) b ltac:(lia)). lia.
  - pose proof (below_mono (S b) a ltac:(lia)). lia.
Qed.
Lemma t2k_inj t u : side_of 6 15 t -> side_of 6 15 u -> oneside_upto6_t2k H t = oneside_upto6_t2k H u -> t = u.
Proof.
  intros St Su E. rewrite !t2k_value in E by assumption. injection E as E.
  pose proof (t2k_range t St) as Rt. pose proof (t2k_range u Su) as Ru. rewrite E in Rt. pose proof (below_unique _ _ _ Rt Ru) as Q.
  destruct (nword_rev t 15 St) as (Nt & At & Bt). destruct (nword_rev u 15 Su) as (Nu & Au & Bu). destruct St as (Lt & Ft & St), Su as (Lu & Fu & Su).
  pose proof (total_nonneg t Ft). pose proof (total_nonneg u Fu). assert (T : total t = total u) by lia.
  assert (W : nword (rev t) = nword (rev u)).
  { rewrite <- (hash_inv _ _ HR (nword (rev t)) (bits_nword _)), <- (hash_inv _ _ HR (nword (rev u)) (bits_nword _)). unfold zlen. rewrite At, Au, Bt, Bu, T. rewrite T in E. f_equal. lia. }
  apply nword_inj in W; [|rewrite !rev_length; lia|exact Nt|apply Forall_rev, Ft|apply Forall_rev, Fu].
  rewrite <- (rev_involutive t), <- (rev_involutive u), W. reflexivity.
Qed.
Lemma t2k_onto k : 0 <= k < 54264 -> exists t, side_of 6 15 t /\ oneside_upto6_t2k H t = Ok k.
Proof.
  intros K. assert (exists c, (c <= 15)%nat /\ below c <= k < below (S c)) as (c & Hc & Rc).
  { assert (G : forall n, k < below n -> exists c, (c < n)%nat /\ below c <= k < below (S c)).
    { induction n as [|n IH]; intros G; [cbn in G; lia|]. destruct (Z.lt_ge_cases k (below n)) as [A|A]; [destruct (IH A) as (c & X & Y); exists c; split; [lia|exact Y]|]. exists n. split; [lia|lia]. }
    destruct (G 16%nat) as (c & X & Y); [change (below 16) with 54264; lia|]. exists c. split; [lia|exact Y]. }
  rewrite below_succ in Rc. destruct (hash_onto _ _ HR (5 + c) c (k - below c) ltac:(lia)) as (B & L & T & E).
  set (l := R (k - below c) (Z.of_nat (5 + c)) (Z.of_nat c)) in *.
  destruct (nword_onto 5 l B) as (s & Ls & Fs & Es); [unfold zlen; lia|].
  assert (Ns : s <> []) by (destruct s; discriminate). destruct (nword_facts s Ns Fs) as [A1 A2]. rewrite Es in A1, A2.
  assert (St : side_of 6 15 (rev s)). { split; [rewrite rev_length; exact Ls|]. split; [apply Forall_rev, Fs|]. rewrite total_rev. lia. }
  exists (rev s). split; [exact St|]. rewrite t2k_value by exact St. rewrite rev_involutive, Es, total_rev. rewrite <- A1, T, Nat2Z.id, E. f_equal. lia.
Qed.
Lemma k2t_find n c m : forall j, below c <= n < below (S c) -> (j <= c)%nat -> (c < j + m)%nat -> (j + m <= 16)%nat ->
  k2t_loop R n (map (fun k => Z.of_nat k) (seq j m)) =
  let! xs := spread (R (n - below c) (5 + Z.of_nat c) (Z.of_nat c)) 0 [0; 0; 0; 0; 0; 0] in Ok (rev xs).
Proof.
  induction m as [|m IH]; intros j Rn J M Q; [lia|]. cbn [seq map k2t_loop].
  replace (Z.of_nat j) with (Z.of_nat (S j) - 1) at 1 by lia. rewrite sigmaD_below by lia. cbn [bind].
  destruct (Z.ltb_spec n (below (S j))) as [G|G].
  - assert (j = c) as ->. { apply (below_unique _ _ n); [|exact Rn]. pose proof (below_mono j c J). lia. }
    rewrite sigmaD_below by lia. cbn [bind]. do 2 f_equal. f_equal. lia.
  - apply IH; try lia. destruct (Nat.eq_dec j c) as [->|N]; lia.
Qed.
Lemma k2t_miss n m : forall j, below (j + m) <= n -> (j + m <= 16)%nat -> k2t_loop R n (map (fun k => Z.of_nat k) (seq j m)) = Exc AssertionError.
Proof.
  induction m as [|m IH]; intros j G Q; [reflexivity|]. cbn [seq map k2t_loop]. replace (Z.of_nat j) with (Z.of_nat (S j) - 1) at 1 by lia. rewrite sigmaD_below by lia. cbn [bind].
  pose proof (below_mono (S j) (j + S m) ltac:(lia)). destruct (Z.ltb_spec n (below (S j))); [lia|]. apply IH; [|lia]. replace (S j + m)%nat with (j + S m)%nat by lia. exact G.
Qed.
Lemma range15 : zrange 0 15 = map (fun k => Z.of_nat k) (seq 0 15).
Proof. reflexivity. Qed.
Lemma k2t_t2k t : side_of 6 15 t -> exists k, oneside_upto6_t2k H t = Ok k /\
  oneside_upto6_k2t R k = if total t <=? 14 then Ok t else Exc AssertionError.
Proof.
  intros St. eexists. split; [apply t2k_value, St|]. pose proof (t2k_range t St) as Rt. destruct (nword_rev t 15 St) as (N & A & B).
  assert (P : 0 <= total t) by (destruct St as (_ & F & _); apply total_nonneg, F).
  unfold oneside_upto6_k2t. rewrite range15. destruct (Z.leb_spec (total t) 14) as [G|G].
  - rewrite (k2t_find _ (Z.to_nat (total t))); [|exact Rt|lia|lia|lia].
    match goal with |- context [R ?a _ _] => replace a with (H (nword (rev t)) (total t)) by lia end.
    rewrite Z2Nat.id by exact P.
    assert (I : R (H (nword (rev t)) (total t)) (5 + total t) (total t) = nword (rev t)).
    { pose proof (hash_inv _ _ HR (nword (rev t)) (bits_nword _)) as I. unfold zlen in I. rewrite A, B in I. replace (5 + total t) with (Z.of_nat (5 + Z.to_nat (total t))) by lia. exact I. }
    rewrite I. destruct St as (L & F & S).
    destruct (spread_nword (rev t) [0; 0; 0; 0; 0; 0] 0) as (ys & E & Ly & Ny); [apply Forall_rev, F|exact N|rewrite rev_length, L; cbn; lia|].
    change (Z.of_nat 0) with 0 in E. rewrite E. cbn [bind]. f_equal. rewrite <- (rev_involutive t). f_equal. apply (list_eq_nth _ _ 0).
    + rewrite Ly, rev_length, L. reflexivity.
    + intros i Hi. rewrite Ly in Hi. cbn [List.length] in Hi. rewrite Ny, rev_length, L. cbn [Nat.leb andb Nat.add]. destruct (Nat.ltb_spec i 6); [|lia]. rewrite Nat.sub_0_r.
      do 6 (destruct i as [|i]; [reflexivity|]). lia.
  - apply k2t_miss; [|lia]. replace (0 + 15)%nat with (Z.to_nat (total t)); [lia|]. destruct St as (_ & _ & S). lia.
Qed.
End Nori.
(* C45 *)
Lemma nori_keys : forall H R, hash_spec H R ->
  (forall t, side_of 6 15 t -> exists k, oneside_upto6_t2k H t = Ok k /\ 0 <= k < 54264) /\
  (forall t u, side_of 6 15 t -> side_of 6 15 u -> oneside_upto6_t2k H t = oneside_upto6_t2k H u -> t = u) /\
  (forall k, 0 <= k < 54264 -> exists t, side_of 6 15 t /\ oneside_upto6_t2k H t = Ok k) /\
  (forall t, side_of 6 15 t -> exists k, oneside_upto6_t2k H t = Ok k /\
     oneside_upto6_k2t R k = if total t <=? 14 then Ok t else Exc AssertionError).
Proof.
  intros H R HR. split; [|split; [|split]].
  - intros t S. eexists. split; [apply (t2k_value _ _ HR), S|]. pose proof (t2k_range _ _ HR t S) as G. pose proof (below_mono 0 (Z.to_nat (total t)) ltac:(lia)) as A.
    change (below 0) with 0 in A. split; [lia|]. eapply Z.lt_le_trans; [apply G|]. change 54264 with (below 16). apply below_mono. destruct S as (_ & _ & S). lia.
  - apply (t2k_inj _ _ HR).
  - apply (t2k_onto _ _ HR).
  - apply (k2t_t2k _ _ HR).
Qed.
Definition all_on_ace : list Z := [15; 0; 0; 0; 0; 0].
Lemma nori_fifteen : exists t, side_of 6 15 t /\ forall H R, hash_spec H R ->
  exists k, oneside_upto6_t2k H t = Ok k /\ oneside_upto6_k2t R k = Exc AssertionError.
Proof.
  exists all_on_ace. assert (S : side_of 6 15 all_on_ace). { split; [reflexivity|]. split; [repeat constructor; lia|]. unfold total, all_on_ace. cbn. lia. }
  split; [exact S|]. intros H R HR. destruct (k2t_t2k H R HR all_on_ace S) as (k & E & G). exists k. split; [exact E|]. rewrite G. reflexivity.
Qed.

(* ---------- C47 ---------- *)
Lemma backward_down t k : List.length t = 25%nat -> nth k t 0 <> 0 -> (forall j, (k < j)%nat -> nth j t 0 = 0) ->
  forall d fuel, (k + d <= 24)%nat -> (d < fuel)%nat -> backward_loop fuel t (Z.of_nat (k + d)) = Ok (Z.of_nat k + 1).
Proof.
  intros L N A. induction d as [|d IH]; intros fuel B F; (destruct fuel as [|fuel]; [lia|]); cbn [backward_loop]; rewrite (pyget_in _ _ 0) by (unfold zlen; lia); cbn [bind]; rewrite Nat2Z.id.
  - rewrite Nat.add_0_r. destruct (Z.eqb_spec (nth k t 0) 0); [contradiction|reflexivity].
  - rewrite A by lia. change (0 =? 0) with true. cbv iota. replace (Z.of_nat (k + S d) - 1) with (Z.of_nat (k + d)) by lia. apply IH; lia.
Qed.
Lemma backward_count : forall t, List.length t = 25%nat ->
  (forall k, nth k t 0 <> 0 -> (forall j, (k < j)%nat -> nth j t 0 = 0) -> backward t = Ok (Z.of_nat k + 1)) /\
  ((forall k, nth k t 0 = 0) -> backward t = Exc IndexError) /\
  count t = total t.
Proof.
  intros t L. split; [|split].
  - intros k N A. unfold backward. assert (k <= 24)%nat. { destruct (Nat.le_gt_cases k 24) as [G|G]; [exact G|]. rewrite nth_overflow in N by lia. contradiction. }
    replace 24 with (Z.of_nat (k + (24 - k))) by lia. apply backward_down; auto; lia.
  - intros A. replace t with (repeat 0 25); [reflexivity|]. apply (list_eq_nth _ _ 0); [rewrite repeat_length; lia|]. intros i Hi. rewrite nth_repeat. symmetry. apply A.
  - apply count_total.
Qed.

(* ---------- C81 ---------- *)
Lemma skipn_pre {A} (a b : list A) n : n = List.length a -> skipn n (a ++ b) = b.
Proof. intros ->. induction a; cbn; auto. Qed.
Lemma read_loop_ok delivered datalen pre : 1 <= datalen -> forall fuel buf Y,
  (datalen - zlen buf <= Z.of_nat fuel) ->
  read_loop delivered (S fuel) (pre ++ buf ++ Y) datalen (zlen pre + zlen buf) buf =
  if datalen <=? zlen (buf ++ Y) then Ok (firstn (Z.to_nat datalen) (buf ++ Y)) else Exc IndexError.
Proof.
  intros D. induction fuel as [|fuel IH]; intros buf Y F; [|remember (S fuel) as fu eqn:EF]; cbn [read_loop]; (destruct (Z.ltb_spec (zlen buf) datalen) as [G|G];
    [|rewrite zlen_app; pose proof (zlen_nonneg Y); destruct (Z.leb_spec datalen (zlen buf + zlen Y)); [|lia];
      rewrite firstn_app; replace (Z.to_nat datalen - List.length buf)%nat with 0%nat by (unfold zlen in *; lia); rewrite firstn_O, app_nil_r; reflexivity]); [cbn in F; lia|].
  unfold os_read. rewrite app_assoc, skipn_pre by (rewrite app_length; unfold zlen; lia). rewrite <- app_assoc.
  set (k := Z.to_nat (Z.max 1 (Z.min datalen (delivered (zlen pre + zlen buf) datalen)))). assert (K : (1 <= k)%nat) by (unfold k; lia). clearbody k.
  destruct k as [|k]; [lia|]. destruct Y as [|y Y].
  - cbn [firstn]. rewrite app_nil_r. destruct (Z.leb_spec datalen (zlen buf)); [lia|reflexivity].
  - pose proof (firstn_skipn (S k) (y :: Y)) as Q. assert (L : 1 <= zlen (firstn (S k) (y :: Y))) by (unfold zlen; cbn [firstn List.length]; lia).
    destruct (firstn (S k) (y :: Y)) as [|z r] eqn:E; [cbn in L; lia|]. rewrite <- Q. rewrite <- Z.add_assoc, <- zlen_app. rewrite (app_assoc buf (z :: r)).
    apply IH. rewrite zlen_app. lia.
Qed.
Lemma rawread_record : forall delivered file datalen index, 1 <= datalen -> 0 <= index ->
  rawread delivered file datalen index =
  if (index + 1) * datalen <=? zlen file then Ok (firstn (Z.to_nat datalen) (skipn (Z.to_nat (index * datalen)) file)) else Exc IndexError.
Proof.
  intros delivered file datalen index D I. unfold rawread. destruct (Z.ltb_spec index 0); [lia|].
  assert (P : 0 <= index * datalen) by nia. destruct (Z.le_gt_cases (index * datalen) (zlen file)) as [G|G].
  - pose proof (firstn_skipn (Z.to_nat (index * datalen)) file) as Q. set (pre := firstn (Z.to_nat (index * datalen)) file) in *. set (Y := skipn (Z.to_nat (index * datalen)) file) in *.
    assert (Lp : zlen pre = index * datalen) by (unfold pre, zlen in *; rewrite firstn_length; lia).
    rewrite <- Q at 1. pose proof (read_loop_ok delivered datalen pre D (Z.to_nat datalen) [] Y) as R. cbn [app] in R. change (zlen (@nil ascii)) with 0 in R. rewrite Z.add_0_r, Lp in R.
    rewrite R by lia. rewrite <- Q at 1. rewrite zlen_app, Lp. destruct (Z.leb_spec datalen (zlen Y)), (Z.leb_spec ((index + 1) * datalen) (index * datalen + zlen Y)); try lia; reflexivity.
  - destruct (Z.leb_spec ((index + 1) * datalen) (zlen file)); [lia|]. cbn [read_loop]. change (zlen (@nil ascii)) with 0. destruct (Z.ltb_spec 0 datalen); [|lia].
    unfold os_read. rewrite skipn_all2 by (unfold zlen in G; lia). rewrite firstn_nil. reflexivity.
Qed.

(* ---------- C80 ---------- *)
Lemma trice_collision : exists C_Hash C_RHash us them us' them', hash_spec C_Hash C_RHash /\
  (side_of 6 15 us /\ side_of 6 15 them) /\ (side_of 6 15 us' /\ side_of 6 15 them') /\ (us, them) <> (us', them') /\
  exists k, trice_t2k C_Hash us them = Ok k /\ trice_t2k C_Hash us' them' = Ok k.
Proof.
  exists comb_hash, comb_rhash, [0; 0; 0; 0; 0; 1], [0; 0; 0; 0; 0; 0], [0; 0; 0; 0; 0; 0], [0; 0; 0; 0; 0; 2].
  assert (S : forall a b c d e g, (forall x, In x [a; b; c; d; e; g] -> 0 <= x) -> total [a; b; c; d; e; g] <= 15 -> side_of 6 15 [a; b; c; d; e; g]).
  { intros a b c d e g A B. split; [reflexivity|]. split; [apply Forall_forall, A|]. exact B. }
  split; [exact comb_hash_ok|]. split; [split; apply S; [intros x I; cbn in I; lia|vm_compute; discriminate|intros x I; cbn in I; lia|vm_compute; discriminate]|].
  split; [split; apply S; [intros x I; cbn in I; lia|vm_compute; discriminate|intros x I; cbn in I; lia|vm_compute; discriminate]|].
  split; [discriminate|]. exists 3. split; vm_compute; reflexivity.
Qed.
Lemma trice_ok : forall C_Hash us them, List.length us = 6%nat -> List.length them = 6%nat -> exists k, trice_t2k C_Hash us them = Ok k.
Proof.
  intros H us them U T. do 7 (destruct us as [|? us]; try discriminate U). do 7 (destruct them as [|? them]; try discriminate T).
  unfold trice_t2k. eexists. reflexivity.
Qed.
Lemma trice_same_count : forall C_Hash C_RHash us them us' them', hash_spec C_Hash C_RHash ->
  side_of 6 15 us -> side_of 6 15 them -> side_of 6 15 us' -> side_of 6 15 them' -> total us + total them = total us' + total them' ->
  exists k k', trice_t2k C_Hash us them = Ok k /\ trice_t2k C_Hash us' them' = Ok k' /\ (k = k' -> us = us' /\ them = them').
Proof.
  intros H R us them us' them' S U T U' T' Tot.
  destruct (trice_ok H us them (proj1 U) (proj1 T)) as [k K]. destruct (trice_ok H us' them' (proj1 U') (proj1 T')) as [k' K'].
  exists k, k'. split; [exact K|]. split; [exact K'|]. intro E. subst k'. rewrite <- K' in K. rename K into E. clear K' k.
  assert (Len : forall a b, List.length a = 6%nat -> List.length b = 6%nat -> exists l, flat_map (fun p : Z * Z => [fst p; snd p]) (combine a b) = l /\ List.length l = 12%nat /\ total l = total a + total b /\
    (Forall (fun x => 0 <= x) a -> Forall (fun x => 0 <= x) b -> Forall (fun x => 0 <= x) l) /\ a = [nth 0 l 0; nth 2 l 0; nth 4 l 0; nth 6 l 0; nth 8 l 0; nth 10 l 0] /\ b = [nth 1 l 0; nth 3 l 0; nth 5 l 0; nth 7 l 0; nth 9 l 0; nth 11 l 0]).
  { intros a b La Lb. do 7 (destruct a as [|? a]; try discriminate La). do 7 (destruct b as [|? b]; try discriminate Lb). eexists. split; [reflexivity|]. split; [reflexivity|]. split; [unfold total; cbn; lia|]. split; [|split; reflexivity].
    intros Fa Fb. cbn. repeat match goal with F : Forall _ (_ :: _) |- _ => inversion F; subst; clear F end. repeat constructor; assumption. }
  destruct U as (Lu & Fu & _), T as (Lt & Ft & _), U' as (Lu' & Fu' & _), T' as (Lt' & Ft' & _).
  destruct (Len us them Lu Lt) as (l & El & Ll & Tl & Fl & A & B). destruct (Len us' them' Lu' Lt') as (l' & El' & Ll' & Tl' & Fl' & A' & B'). clear Len.
  assert (X : l = l'); [|subst l'; split; congruence].
  assert (Rd : forall a b : list Z, List.length a = 6%nat -> List.length b = 6%nat -> exists ps : list (Z * Z), mapM (fun i => let! x := pyget a i in let! y := pyget b i in Ok (x, y)) (zrange 0 6) = Ok ps).
  { intros a b La Lb. do 7 (destruct a as [|? a]; try discriminate La). do 7 (destruct b as [|? b]; try discriminate Lb). eexists. reflexivity. }
  unfold trice_t2k in E. destruct (Rd us them Lu Lt) as [ps P1]. destruct (Rd us' them' Lu' Lt') as [ps' P2]. rewrite P1, P2 in E. clear Rd P1 P2. apply (f_equal (fun r => match r with Ok v => v | Exc _ => 0 end)) in E. cbv beta iota zeta delta [bind] in E. rewrite El, El' in E. rewrite !count_total in E. specialize (Fl Fu Ft). specialize (Fl' Fu' Ft').
  assert (Facts : forall m, List.length m = 12%nat -> Forall (fun x => 0 <= x) m -> let b := flat_map (fun i => repeat 1 (Z.to_nat i) ++ [0]) m in
    bits b /\ total b = total m /\ zlen b = 12 + total m /\ rev b = 0 :: nword (rev m)).
  { intros m Lm Fm. assert (Nm : rev m <> []) by (intro Y; apply (f_equal (@List.length Z)) in Y; rewrite rev_length in Y; cbn in Y; lia).
    assert (Fr : Forall (fun x => 0 <= x) (rev m)) by (apply Forall_rev; exact Fm). cbv zeta.
    assert (Rv : rev (flat_map (fun i => repeat 1 (Z.to_nat i) ++ [0]) m) = 0 :: nword (rev m)) by (rewrite rev_flat, flat_nword by exact Nm; reflexivity).
    destruct (nword_facts (rev m) Nm Fr) as [N1 N2]. rewrite total_rev in N1, N2. rewrite rev_length, Lm in N2.
    set (b := flat_map _ m) in *. clearbody b. assert (Eb : b = rev (0 :: nword (rev m))) by (rewrite <- Rv, rev_involutive; reflexivity). split; [|split; [|split; [|exact Rv]]].
    - unfold bits. rewrite Eb. apply Forall_rev. constructor; [left; reflexivity|apply bits_nword].
    - rewrite Eb, total_rev. change (total (0 :: nword (rev m))) with (0 + total (nword (rev m))). lia.
    - unfold zlen. rewrite Eb, rev_length. cbn [List.length]. lia. }
  destruct (Facts l Ll Fl) as (Bl & Tb & Zb & Rb). destruct (Facts l' Ll' Fl') as (Bl' & Tb' & Zb' & Rb'). clear Facts.
  assert (Tt : total l' = total l) by lia. rewrite Tt in E. set (b := flat_map (fun i => repeat 1 (Z.to_nat i) ++ [0]) l) in *. set (b' := flat_map (fun i => repeat 1 (Z.to_nat i) ++ [0]) l') in *. clearbody b b'.
  assert (Eq : total l = 0 \/ H b (total l) = H b' (total l)).
  { destruct (total l =? 0) eqn:Z0; [left; apply Z.eqb_eq; exact Z0|right]. rewrite !(hash_zero _ _ S) in E. destruct (total l =? 1); lia. }
  assert (Q : b = b').
  { destruct Eq as [Eq|Eq].
    - assert (Z : forall c, bits c -> total c = 0 -> c = repeat 0 (List.length c)).
      { induction c as [|x c IH]; intros Bc Tc; [reflexivity|]. inversion Bc as [|? ? Hx Bc']; subst. change (total (x :: c)) with (x + total c) in Tc. assert (0 <= total c) by (clear - Bc'; induction c as [|y c IH]; [reflexivity|]; inversion Bc'; subst; change (total (y :: c)) with (y + total c); specialize (IH H2); lia).
        assert (x = 0) by lia. subst x. cbn [List.length repeat]. f_equal. apply IH; [exact Bc'|lia]. }
      rewrite (Z b Bl), (Z b' Bl') by lia. f_equal. unfold zlen in *. lia.
    - rewrite <- (hash_inv _ _ S b Bl), <- (hash_inv _ _ S b' Bl'). rewrite Tb, Tb', Tt, Zb, Zb', Tt, Eq. reflexivity. }
  rewrite <- (rev_involutive l), <- (rev_involutive l'). f_equal. rewrite <- Q, Rb in Rb'. injection Rb' as Rn.
  apply nword_inj; [rewrite !rev_length; lia|intro Y; apply (f_equal (@List.length Z)) in Y; rewrite rev_length in Y; cbn in Y; lia|apply Forall_rev; assumption|apply Forall_rev; assumption|exact Rn].
Qed.
