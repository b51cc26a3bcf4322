(* Lemmas for C30-C33 *)
From Verif Require Import Py PyFacts UtilModel BoardModel BoardSpec BoardProofs DbModel DbSpec.
From Coq Require Import Reals Lra.
Open Scope Z_scope.

Lemma zord_nat c : Z.of_nat (nat_of_ascii c) = zord c.
Proof. unfold zord, nat_of_ascii. lia. Qed.
Lemma signedord_value c : value_of c (signedord c).
Proof.
  unfold value_of, signedord. rewrite zord_nat. pose proof (zord_range c). cbv zeta.
  destruct (Z.ltb_spec 127 (zord c)) as [G|G].
  - split; [lia|]. replace (zord c - 256) with (zord c + (-1) * 256) by lia. rewrite Z.mod_add by lia. apply Z.mod_small; lia.
  - split; [lia|]. apply Z.mod_small; lia.
Qed.
Lemma value_unique c v w : value_of c v -> value_of c w -> v = w.
Proof. unfold value_of. intros [A B] [C D]. rewrite <- D in B. pose proof (Z.div_mod v 256). pose proof (Z.div_mod w 256). lia. Qed.
Lemma value_char c d v : value_of c v -> value_of d v -> c = d.
Proof. unfold value_of. rewrite !zord_nat. intros [_ A] [_ B]. apply zord_inj. congruence. Qed.
Lemma signedord_iff c v : signedord c = v <-> value_of c v.
Proof. split; [intros <-; apply signedord_value|intros H; eapply value_unique; [apply signedord_value|exact H]]. Qed.

Lemma signedchr_in n : -128 <= n <= 127 -> exists c, signedchr n = Ok c /\ value_of c n.
Proof.
  intros H. unfold signedchr. replace (-129 <? n) with true by lia. replace (n <? 128) with true by lia. cbn [negb].
  destruct (Z.ltb_spec n 0) as [G|G]; unfold pychr.
  - replace (0 <=? 256 + n) with true by lia. replace (256 + n <? 256) with true by lia. cbn [andb].
    eexists; split; [reflexivity|]. unfold value_of. rewrite zord_nat, zord_chr by lia. split; [lia|].
    replace (256 + n) with (n + 1 * 256) by lia. rewrite <- (Z.mod_add n 1) by lia. apply Z.mod_small; lia.
  - replace (0 <=? n) with true by lia. replace (n <? 256) with true by lia. cbn [andb].
    eexists; split; [reflexivity|]. unfold value_of. rewrite zord_nat, zord_chr by lia. split; [lia|]. apply Z.mod_small; lia.
Qed.
Lemma signedchr_out n : ~ -128 <= n <= 127 -> signedchr n = Exc AssertionError.
Proof.
  intros H. unfold signedchr. destruct (Z.ltb_spec (-129) n); cbn [negb]; [|reflexivity].
  destruct (Z.ltb_spec n 128); cbn [negb]; [lia|reflexivity].
Qed.
Lemma signedchr_iff n c : signedchr n = Ok c <-> value_of c n.
Proof.
  split.
  - intros H. destruct (Z_le_dec (-128) n) as [A|A]; [destruct (Z_le_dec n 127) as [B|B]|].
    + destruct (signedchr_in n ltac:(lia)) as (d & E & V). congruence.
    + rewrite signedchr_out in H by lia. discriminate.
    + rewrite signedchr_out in H by lia. discriminate.
  - intros V. destruct (signedchr_in n (proj1 V)) as (d & E & W). rewrite E. f_equal. eapply value_char; eauto.
Qed.

(* C30 *)
Lemma signed_byte :
  (forall c, value_of c (signedord c)) /\
  (forall n c, signedchr n = Ok c <-> value_of c n) /\
  (forall n, -128 <= n <= 127 -> exists c, signedchr n = Ok c /\ signedord c = n) /\
  (forall c, signedchr (signedord c) = Ok c) /\
  (forall n, ~ -128 <= n <= 127 -> signedchr n = Exc AssertionError).
Proof.
  split; [apply signedord_value|]. split; [apply signedchr_iff|]. split.
  - intros n H. destruct (signedchr_in n H) as (c & E & V). exists c. split; [exact E|]. apply signedord_iff; exact V.
  - split; [intros c; apply signedchr_iff, signedord_value|apply signedchr_out].
Qed.

(* ---- the 26-byte code ---- *)
Lemma Forall2_nth {A B} (P : A -> B -> Prop) l r : Forall2 P l r <->
  List.length l = List.length r /\ forall k x, nth_error l k = Some x -> exists y, nth_error r k = Some y /\ P x y.
Proof.
  revert r; induction l as [|a l IH]; intros r.
  - split.
    + intros H; inversion H; subst. split; [reflexivity|]. intros [|k] x E; discriminate.
    + intros [H _]. destruct r; [constructor|discriminate].
  - split.
    + intros H; inversion H as [|? b ? r' H1 H2]; subst. apply IH in H2. destruct H2 as [H2 H3]. split; [cbn; lia|].
      intros [|k] x E; cbn in *; [injection E as <-; eauto|eauto].
    + intros [H H1]. destruct r as [|b r]; [discriminate|]. constructor.
      * destruct (H1 O a eq_refl) as (y & E & ?). cbn in E. congruence.
      * apply IH. split; [cbn in H; lia|]. intros k x E. apply (H1 (S k) x E).
Qed.
Lemma nth_zrange k a b : 0 <= k < b - a -> nth_error (zrange a b) (Z.to_nat k) = Some (a + k).
Proof.
  intros H. unfold zrange.
  assert (E : nth_error (seq 0 (Z.to_nat (b - a))) (Z.to_nat k) = Some (Z.to_nat k)).
  { rewrite (nth_error_nth' _ O) by (rewrite seq_length; lia). rewrite seq_nth by lia. reflexivity. }
  rewrite (map_nth_error _ _ _ E). rewrite Z2Nat.id by lia. reflexivity.
Qed.
Lemma length_zrange a b : List.length (zrange a b) = Z.to_nat (b - a).
Proof. unfold zrange. rewrite map_length, seq_length. reflexivity. Qed.

(* value of byte k *)
Definition bval (p : list Z * list Z) (k : Z) : Z :=
  if k =? 0 then - count (snd p) 24
  else if k =? 25 then count (fst p) 24
  else count (fst p) (k - 1) - count (snd p) (24 - k).
Lemma bval_layout p k v : 0 <= k <= 25 -> (layout p k v <-> v = bval p k).
Proof.
  intros H. unfold layout, bval. destruct (Z.eqb_spec k 0); [|destruct (Z.eqb_spec k 25)].
  - split; [intros (A & _); auto|intros ->; repeat split; intros; lia].
  - split; [intros (_ & _ & A); auto|intros ->; repeat split; intros; lia].
  - split; [intros (_ & A & _); apply A; lia|intros ->; repeat split; intros; lia].
Qed.

Lemma encode_ok p s : encode_position p = Ok s <->
  List.length (fst p) = 25%nat /\ List.length (snd p) = 25%nat /\ List.length s = 26%nat /\
  forall k, 0 <= k <= 25 -> byte_at s k (bval p k).
Proof.
  destruct p as [f g]. unfold encode_position; cbn [fst snd].
  destruct (Z.eqb_spec (zlen f) 25) as [Hf|Hf]; cbn [negb]; [|split; [discriminate|intros (A & _); unfold zlen in Hf; lia]].
  destruct (Z.eqb_spec (zlen g) 25) as [Hg|Hg]; cbn [negb]; [|split; [discriminate|intros (_ & A & _); unfold zlen in Hg; lia]].
  assert (Lf : zlen (0 :: f) = 26) by (unfold zlen in *; cbn [List.length]; lia).
  assert (Lg : zlen (0 :: g) = 26) by (unfold zlen in *; cbn [List.length]; lia).
  assert (B : forall i, 0 <= i <= 25 ->
     (let! a := pyget (0 :: f) i in let! o := pyget (0 :: g) (25 - i) in signedchr (a - o)) = signedchr (bval (f, g) i)).
  { intros i Hi. rewrite (pyget_in _ i 0), (pyget_in _ (25 - i) 0) by lia. cbn [bind]. f_equal.
    unfold bval, count; cbn [fst snd]. destruct (Z.eqb_spec i 0) as [->|N0]; [|destruct (Z.eqb_spec i 25) as [->|N1]].
    - replace (Z.to_nat (25 - 0)) with (S (Z.to_nat 24)) by lia. change (Z.to_nat 0) with O. cbn [nth]. lia.
    - replace (Z.to_nat 25) with (S (Z.to_nat 24)) by lia. change (Z.to_nat (25 - 25)) with O. cbn [nth]. lia.
    - replace (Z.to_nat i) with (S (Z.to_nat (i - 1))) by lia. replace (Z.to_nat (25 - i)) with (S (Z.to_nat (24 - i))) by lia.
      cbn [nth]. reflexivity. }
  cbv zeta. unfold str in *. rewrite mapM_ok, Forall2_nth. rewrite length_zrange. split.
  - intros [H1 H2]. split; [unfold zlen in Hf; lia|]. split; [unfold zlen in Hg; lia|]. split; [rewrite <- H1; reflexivity|].
    intros k Hk. specialize (H2 (Z.to_nat k) _ (nth_zrange k 0 26 ltac:(lia))). destruct H2 as (c & E & F).
    exists c. split; [exact E|]. cbn [Z.add] in F. rewrite B in F by lia. apply signedchr_iff. exact F.
  - intros (_ & _ & H1 & H2). split; [rewrite H1; reflexivity|]. intros k x E.
    assert (Hk : (k < 26)%nat). { assert (k < List.length (zrange 0 26))%nat by (apply nth_error_Some; congruence). rewrite length_zrange in *. lia. }
    assert (x = Z.of_nat k) as ->.
    { pose proof (nth_zrange (Z.of_nat k) 0 26 ltac:(lia)) as Q. rewrite Nat2Z.id in Q. rewrite Q in E. injection E as <-. lia. }
    destruct (H2 (Z.of_nat k) ltac:(lia)) as (c & F & V). rewrite Nat2Z.id in F. exists c. split; [exact F|].
    rewrite B by lia. apply signedchr_iff. exact V.
Qed.

Definition bv (s : str) (k : nat) : Z := signedord (nth k s zero).
Lemma byte_at_iff s k v : List.length s = 26%nat -> 0 <= k <= 25 -> (byte_at s k v <-> v = bv s (Z.to_nat k)).
Proof.
  intros Hs Hk. unfold byte_at, bv. rewrite (nth_error_nth' s zero) by lia. split.
  - intros (c & E & V). injection E as <-. symmetry. apply signedord_iff; exact V.
  - intros ->. eexists; split; [reflexivity|apply signedord_value].
Qed.

Definition posi (n : Z) := if 0 <? n then n else 0.
Definition nega (n : Z) := if n <? 0 then - n else 0.
Lemma nth_tl {A} (l : list A) k d : nth k (tl l) d = nth (S k) l d.
Proof. destruct l; [destruct k; reflexivity|reflexivity]. Qed.
Lemma length_tl {A} (l : list A) : List.length (tl l) = (List.length l - 1)%nat.
Proof. destruct l; cbn; lia. Qed.
Lemma decode_ok s : List.length s = 26%nat -> exists p, decode_position s = Ok p /\
  List.length (fst p) = 25%nat /\ List.length (snd p) = 25%nat /\
  forall n, 0 <= n <= 24 -> count (fst p) n = posi (bv s (Z.to_nat (n + 1))) /\ count (snd p) n = nega (bv s (Z.to_nat (24 - n))).
Proof.
  intros Hs. unfold decode_position, zlen. rewrite Hs. cbn [Z.eqb negb Z.of_nat]. change (Pos.of_succ_nat 25) with 26%positive. cbn [Z.eqb Pos.eqb negb].
  eexists; split; [reflexivity|]. cbn [fst snd]. rewrite !length_tl, !map_length, rev_length, Hs. split; [reflexivity|]. split; [reflexivity|].
  intros n Hn. unfold count, bv. rewrite !nth_tl, !map_map. split.
  - erewrite (nth_indep _ 0 (posi (signedord zero))) by (rewrite map_length; lia).
    change (fun x => if 0 <? signedord x then signedord x else 0) with (fun x => posi (signedord x)).
    rewrite map_nth with (f := fun x => posi (signedord x)). do 3 f_equal. lia.
  - erewrite (nth_indep _ 0 (nega (signedord zero))) by (rewrite map_length, rev_length; lia).
    change (fun x => if signedord x <? 0 then - signedord x else 0) with (fun x => nega (signedord x)).
    rewrite map_nth with (f := fun x => nega (signedord x)). f_equal. f_equal. rewrite rev_nth by lia. f_equal. lia.
Qed.
Lemma decode_bad s : List.length s <> 26%nat -> decode_position s = Exc AssertionError.
Proof. intros H. unfold decode_position, zlen. destruct (Z.eqb_spec (Z.of_nat (List.length s)) 26); [lia|reflexivity]. Qed.

Lemma list_eq_count (l m : list Z) : List.length l = 25%nat -> List.length m = 25%nat ->
  (forall n, 0 <= n <= 24 -> count l n = count m n) -> l = m.
Proof.
  intros A B H. apply (list_eq_nth l m 0); [lia|]. intros k Hk. specialize (H (Z.of_nat k) ltac:(lia)).
  unfold count in H. rewrite Nat2Z.id in H. exact H.
Qed.
Lemma Forall_count (P : Z -> Prop) l : List.length l = 25%nat -> (Forall P l <-> forall n, 0 <= n <= 24 -> P (count l n)).
Proof.
  intros H. rewrite Forall_nth. unfold count. split.
  - intros F n Hn. apply F. lia.
  - intros F k d Hk. specialize (F (Z.of_nat k) ltac:(lia)). rewrite Nat2Z.id in F. rewrite (nth_indep l d 0) by lia. exact F.
Qed.

Lemma bv_range s k : -128 <= bv s k <= 127.
Proof. unfold bv. apply (signedord_value (nth k s zero)). Qed.
Lemma posi_range n : -128 <= n <= 127 -> 0 <= posi n <= 127.
Proof. unfold posi. destruct (Z.ltb_spec 0 n); lia. Qed.
Lemma nega_range n : -128 <= n <= 127 -> 0 <= nega n <= 128.
Proof. unfold nega. destruct (Z.ltb_spec n 0); lia. Qed.

Lemma decode_codable s p : decode_position s = Ok p -> List.length s = 26%nat /\ codable p.
Proof.
  intros H. destruct (Nat.eq_dec (List.length s) 26) as [Hs|Hs]; [|rewrite decode_bad in H by assumption; discriminate].
  split; [exact Hs|]. destruct (decode_ok s Hs) as (q & E & A & B & C). rewrite E in H. injection H as <-.
  unfold codable. split; [exact A|]. split; [exact B|]. split.
  - apply Forall_count; [exact A|]. intros n Hn. rewrite (proj1 (C n Hn)). apply posi_range, bv_range.
  - split.
    + apply Forall_count; [exact B|]. intros n Hn. rewrite (proj2 (C n Hn)). apply nega_range, bv_range.
    + intros n Hn. rewrite (proj1 (C n ltac:(lia))), (proj2 (C (23 - n) ltac:(lia))).
      replace (24 - (23 - n)) with (n + 1) by lia. unfold posi, nega.
      destruct (Z.ltb_spec 0 (bv s (Z.to_nat (n + 1)))), (Z.ltb_spec (bv s (Z.to_nat (n + 1))) 0); auto; lia.
Qed.

Lemma encode_codable p : codable p -> exists s, encode_position p = Ok s.
Proof.
  intros (A & B & C & D & S0). rewrite Forall_count in C, D by assumption.
  assert (R : forall k, 0 <= k <= 25 -> -128 <= bval p k <= 127).
  { intros k Hk. unfold bval. destruct (Z.eqb_spec k 0); [pose proof (D 24 ltac:(lia)); lia|].
    destruct (Z.eqb_spec k 25); [pose proof (C 24 ltac:(lia)); lia|].
    pose proof (C (k - 1) ltac:(lia)). pose proof (D (24 - k) ltac:(lia)).
    destruct (S0 (k - 1) ltac:(lia)) as [E|E]; [|replace (23 - (k - 1)) with (24 - k) in E by lia]; lia. }
  (* build the string *)
  pose (ch := fun k => match signedchr (bval p k) with Ok c => c | Exc _ => zero end).
  exists (map ch (zrange 0 26)). apply encode_ok. rewrite map_length, length_zrange.
  split; [exact A|]. split; [exact B|]. split; [reflexivity|]. intros k Hk.
  exists (ch k). split; [rewrite (map_nth_error _ _ _ (nth_zrange k 0 26 ltac:(lia))); reflexivity|].
  unfold ch. destruct (signedchr_in (bval p k) (R k Hk)) as (c & E & V). rewrite E. exact V.
Qed.

Lemma decode_encode p s : codable p -> encode_position p = Ok s -> decode_position s = Ok p.
Proof.
  intros (A & B & C & D & S0) E. rewrite Forall_count in C, D by assumption. apply encode_ok in E. destruct E as (_ & _ & Hs & V).
  destruct (decode_ok s Hs) as ([f g] & F & Q1 & Q2 & Q). rewrite F. f_equal.
  assert (V' : forall k, 0 <= k <= 25 -> bv s (Z.to_nat k) = bval p k).
  { intros k Hk. symmetry. apply byte_at_iff; auto. }
  destruct p as [f' g']; cbn [fst snd] in *. f_equal; apply list_eq_count; auto; intros n Hn.
  - rewrite (proj1 (Q n Hn)), V' by lia. unfold bval, posi; cbn [fst snd].
    destruct (Z.eqb_spec (n + 1) 0); [lia|]. destruct (Z.eqb_spec (n + 1) 25).
    + replace n with 24 by lia. pose proof (C 24 ltac:(lia)). destruct (Z.ltb_spec 0 (count f' 24)); lia.
    + replace (n + 1 - 1) with n by lia. replace (24 - (n + 1)) with (23 - n) by lia.
      pose proof (C n ltac:(lia)). pose proof (D (23 - n) ltac:(lia)).
      destruct (S0 n ltac:(lia)) as [E|E]; destruct (Z.ltb_spec 0 (count f' n - count g' (23 - n))); lia.
  - rewrite (proj2 (Q n Hn)), V' by lia. unfold bval, nega; cbn [fst snd].
    destruct (Z.eqb_spec (24 - n) 0).
    + replace n with 24 by lia. pose proof (D 24 ltac:(lia)). destruct (Z.ltb_spec (- count g' 24) 0); lia.
    + destruct (Z.eqb_spec (24 - n) 25); [lia|]. replace (24 - n - 1) with (23 - n) by lia. replace (24 - (24 - n)) with n by lia.
      pose proof (C (23 - n) ltac:(lia)). pose proof (D n ltac:(lia)).
      destruct (S0 (23 - n) ltac:(lia)) as [E|E]; replace (23 - (23 - n)) with n in E by lia;
        destruct (Z.ltb_spec (count f' (23 - n) - count g' n) 0); lia.
Qed.

(* C31 *)
Lemma position_code :
  (forall p s, encode_position p = Ok s -> List.length s = 26%nat /\
     forall k, 0 <= k <= 25 -> exists v, byte_at s k v /\ layout p k v) /\
  (forall p, codable p <-> exists s, encode_position p = Ok s /\ decode_position s = Ok p) /\
  (forall s, List.length s = 26%nat -> exists p, decode_position s = Ok p /\ codable p /\
     exists s', encode_position p = Ok s' /\
       (forall k v, 1 <= k <= 24 -> byte_at s k v -> byte_at s' k v) /\
       (forall v, byte_at s 0 v -> byte_at s' 0 (Z.min v 0)) /\
       (forall v, byte_at s 25 v -> byte_at s' 25 (Z.max v 0))) /\
  (forall s, List.length s <> 26%nat -> decode_position s = Exc AssertionError).
Proof.
  split; [|split; [|split; [|apply decode_bad]]].
  - intros p s E. apply encode_ok in E. destruct E as (_ & _ & Hs & V). split; [exact Hs|]. intros k Hk.
    exists (bval p k). split; [auto|]. apply bval_layout; auto.
  - intros p. split.
    + intros C. destruct (encode_codable p C) as (s & E). exists s. split; [exact E|]. apply decode_encode; auto.
    + intros (s & _ & E). eapply decode_codable; exact E.
  - intros s Hs. destruct (decode_ok s Hs) as (p & E & A & B & C). destruct (decode_codable s p E) as [_ P].
    exists p. split; [exact E|]. split; [exact P|]. destruct (encode_codable p P) as (s' & E'). exists s'. split; [exact E'|].
    apply encode_ok in E'. destruct E' as (_ & _ & Hs' & V).
    assert (W : forall k v, 0 <= k <= 25 -> byte_at s k v -> byte_at s' k (bval p k) /\ v = bv s (Z.to_nat k)).
    { intros k v Hk H. split; [auto|]. apply byte_at_iff; auto. }
    split; [|split].
    + intros k v Hk H. destruct (W k v ltac:(lia) H) as [W1 ->].
      replace (bv s (Z.to_nat k)) with (bval p k); [exact W1|]. unfold bval.
      destruct (Z.eqb_spec k 0); [lia|]. destruct (Z.eqb_spec k 25); [lia|].
      rewrite (proj1 (C (k - 1) ltac:(lia))), (proj2 (C (24 - k) ltac:(lia))).
      replace (k - 1 + 1) with k by lia. replace (24 - (24 - k)) with k by lia. unfold posi, nega.
      destruct (Z.ltb_spec 0 (bv s (Z.to_nat k))), (Z.ltb_spec (bv s (Z.to_nat k)) 0); lia.
    + intros v H. destruct (W 0 v ltac:(lia) H) as [W1 ->].
      replace (Z.min (bv s (Z.to_nat 0)) 0) with (bval p 0); [exact W1|]. unfold bval; cbn [Z.eqb].
      rewrite (proj2 (C 24 ltac:(lia))). replace (24 - 24) with 0 by lia. unfold nega.
      destruct (Z.ltb_spec (bv s (Z.to_nat 0)) 0); lia.
    + intros v H. destruct (W 25 v ltac:(lia) H) as [W1 ->].
      replace (Z.max (bv s (Z.to_nat 25)) 0) with (bval p 25); [exact W1|]. unfold bval; cbn [Z.eqb Pos.eqb].
      rewrite (proj1 (C 24 ltac:(lia))). replace (24 + 1) with 25 by lia. unfold posi.
      destruct (Z.ltb_spec 0 (bv s (Z.to_nat 25))); lia.
Qed.

(* ---- distance ---- *)
Definition sq (p : ascii * ascii) : Z := (signedord (fst p) - signedord (snd p)) ^ 2.
Lemma fold_dist l : forall d, fold_left (fun d p => d + (signedord (fst p) - signedord (snd p)) ^ 2) l d = d + zsum (map sq l).
Proof.
  induction l as [|p l IH]; intros d; cbn [fold_left map zsum fold_right]; [lia|]. rewrite IH. unfold sq, zsum. cbn [fold_right]. lia.
Qed.
Lemma distance_sum xs ys : distance xs ys = zsum (map sq (combine xs ys)).
Proof. unfold distance. rewrite fold_dist. lia. Qed.
Lemma distance_cons x xs y ys : distance (x :: xs) (y :: ys) = (signedord x - signedord y) * (signedord x - signedord y) + distance xs ys.
Proof. rewrite !distance_sum. cbn [combine map]. change (zsum (?a :: ?l)) with (a + zsum l). unfold sq at 1. cbn [fst snd]. ring. Qed.
Lemma distance_nonneg xs ys : 0 <= distance xs ys.
Proof. revert ys; induction xs as [|x xs IH]; intros [|y ys]; try (cbn; lia). rewrite distance_cons. specialize (IH ys). pose proof (Z.square_nonneg (signedord x - signedord y)). lia. Qed.
Lemma distance_sym xs ys : distance xs ys = distance ys xs.
Proof. revert ys; induction xs as [|x xs IH]; intros [|y ys]; try reflexivity. rewrite !distance_cons, IH. ring. Qed.
Lemma signedord_inj a b : signedord a = signedord b -> a = b.
Proof. intros H. eapply value_char; [apply signedord_value|rewrite H; apply signedord_value]. Qed.
Lemma distance_zero xs ys : List.length xs = List.length ys -> (distance xs ys = 0 <-> xs = ys).
Proof.
  revert ys; induction xs as [|x xs IH]; intros [|y ys] Hl; try discriminate; [split; reflexivity|].
  rewrite distance_cons. pose proof (distance_nonneg xs ys). injection Hl as Hl. split.
  - pose proof (Z.square_nonneg (signedord x - signedord y)) as Q. intros H0.
    assert (E : (signedord x - signedord y) * (signedord x - signedord y) = 0) by lia.
    apply Z.mul_eq_0 in E. f_equal; [apply signedord_inj; lia|apply IH; [assumption|lia]].
  - intros E. injection E as -> ->. rewrite (proj2 (IH ys eq_refl)) by reflexivity. lia.
Qed.
(* inner product of two differences *)
Lemma cauchy xs : forall ys zs, List.length xs = List.length ys -> List.length ys = List.length zs ->
  (distance xs zs - distance xs ys - distance ys zs) ^ 2 <= 4 * (distance xs ys * distance ys zs).
Proof.
  induction xs as [|x xs IH]; intros [|y ys] [|z zs] H1 H2; try discriminate.
  injection H1 as H1. injection H2 as H2. rewrite !distance_cons. specialize (IH ys zs H1 H2).
  pose proof (distance_nonneg xs ys) as A. pose proof (distance_nonneg ys zs) as B.
  set (a := signedord x) in *. set (b := signedord y) in *. set (c := signedord z) in *.
  set (P := distance xs ys) in *. set (Q := distance ys zs) in *. set (W := distance xs zs) in *.
  set (s := W - P - Q) in *.
  replace ((a - c) * (a - c) + W - ((a - b) * (a - b) + P) - ((b - c) * (b - c) + Q)) with (2 * ((a - b) * (b - c)) + s) by (unfold s; ring).
  clearbody s. set (u := a - b). set (v := b - c). clearbody u v. clear - IH A B.
  (* (2uv+s)^2 <= 4 (u^2+P)(v^2+Q), given s^2 <= 4PQ *)
  assert (H : u * v * s <= u * u * Q + v * v * P).
  { assert (K : (u * v * s) ^ 2 <= (u * u * Q + v * v * P) ^ 2).
    { assert ((u * v) * (u * v) * s ^ 2 <= (u * v) * (u * v) * (4 * (P * Q))) by (apply Z.mul_le_mono_nonneg_l; [apply Z.square_nonneg|exact IH]).
      pose proof (Z.square_nonneg (u * u * Q - v * v * P)). nia. }
    assert (0 <= u * u * Q + v * v * P) by (pose proof (Z.square_nonneg u); pose proof (Z.square_nonneg v); nia).
    destruct (Z_le_dec (u * v * s) (u * u * Q + v * v * P)) as [|N]; [assumption|exfalso]. nia. }
  nia.
Qed.
Lemma triangle xs ys zs : List.length xs = List.length ys -> List.length ys = List.length zs ->
  (root (distance xs zs) <= root (distance xs ys) + root (distance ys zs))%R.
Proof.
  intros H1 H2. pose proof (cauchy xs ys zs H1 H2) as K.
  pose proof (distance_nonneg xs ys) as A. pose proof (distance_nonneg ys zs) as B. pose proof (distance_nonneg xs zs) as C.
  unfold root. set (P := distance xs ys) in *. set (Q := distance ys zs) in *. set (W := distance xs zs) in *. clearbody P Q W. clear H1 H2.
  apply IZR_le in K. apply IZR_le in A. apply IZR_le in B. apply IZR_le in C.
  replace ((W - P - Q) ^ 2) with ((W - P - Q) * (W - P - Q)) in K by ring.
  rewrite !mult_IZR, !minus_IZR in K. set (p := IZR P) in *. set (q := IZR Q) in *. set (w := IZR W) in *. clearbody p q w.
  pose proof (sqrt_sqrt p A) as Sp. pose proof (sqrt_sqrt q B) as Sq. pose proof (sqrt_sqrt w C) as Sw.
  pose proof (sqrt_pos p). pose proof (sqrt_pos q). pose proof (sqrt_pos w).
  set (x := sqrt p) in *. set (y := sqrt q) in *. set (z := sqrt w) in *. clearbody x y z.
  subst p q w.
  destruct (Rle_dec z (x + y)) as [|N]; [assumption|exfalso]. apply Rnot_le_lt in N.
  assert (E1 : ((z * z - x * x - y * y) > 2 * x * y)%R) by nra.
  assert (E2 : (0 <= 2 * x * y)%R) by nra.
  nra.
Qed.
Lemma distance_truncates xs ys zs : List.length xs = List.length ys -> distance (xs ++ zs) ys = distance xs ys /\ distance ys (xs ++ zs) = distance ys xs.
Proof.
  intros H. assert (K : forall l m, List.length l = List.length m -> distance (l ++ zs) m = distance l m).
  { clear. induction l as [|x l IH]; intros [|y m] H; try discriminate.
    - cbn. destruct zs; reflexivity.
    - injection H as H. cbn [app]. rewrite !distance_cons, IH by assumption. reflexivity. }
  split; [apply K; assumption|]. rewrite (distance_sym ys (xs ++ zs)), (distance_sym ys xs). apply K; assumption.
Qed.
Lemma distance_euclid xs ys : List.length xs = List.length ys -> exists f g,
  (forall i c, nth_error xs i = Some c -> value_of c (f i)) /\ (forall i c, nth_error ys i = Some c -> value_of c (g i)) /\
  distance xs ys = euclid (List.length xs) f g.
Proof.
  intros H. exists (bv xs), (bv ys). unfold bv. split; [|split].
  - intros i c E. rewrite (nth_error_nth xs i zero E). apply signedord_value.
  - intros i c E. rewrite (nth_error_nth ys i zero E). apply signedord_value.
  - revert ys H; induction xs as [|x xs IH]; intros [|y ys] H; try discriminate; [reflexivity|]. injection H as H.
    rewrite distance_cons, (IH ys H). unfold euclid. cbn [List.length seq map fold_right nth]. f_equal.
    rewrite <- seq_shift, map_map. cbn [nth]. reflexivity.
Qed.
(* C32 *)
Lemma distance_metric :
  (forall xs ys, List.length xs = List.length ys -> exists f g,
     (forall i c, nth_error xs i = Some c -> value_of c (f i)) /\
     (forall i c, nth_error ys i = Some c -> value_of c (g i)) /\
     distance xs ys = euclid (List.length xs) f g) /\
  (forall xs ys, 0 <= distance xs ys) /\
  (forall xs ys, distance xs ys = distance ys xs) /\
  (forall xs ys, List.length xs = List.length ys -> (distance xs ys = 0 <-> xs = ys)) /\
  (forall xs ys zs, List.length xs = List.length ys -> List.length ys = List.length zs ->
     (root (distance xs zs) <= root (distance xs ys) + root (distance ys zs))%R) /\
  (forall xs ys zs, List.length xs = List.length ys -> distance (xs ++ zs) ys = distance xs ys /\ distance ys (xs ++ zs) = distance ys xs).
Proof.
  split; [exact distance_euclid|]. split; [exact distance_nonneg|]. split; [exact distance_sym|].
  split; [exact distance_zero|]. split; [exact triangle|exact distance_truncates].
Qed.

(* C33 *)
Lemma set_position_id b : set_position (position b) (set_position ([], []) b) = b.
Proof. destruct b; reflexivity. Qed.
Lemma db_roundtrip :
  (forall b, player (on_action b) -> codable (mover b, side b (other (on_action b))) ->
     exists e, db_new b = Ok e /\ db_tomodel e = Ok b) /\
  (forall b b' e, db_new b = Ok e -> db_tomodel e = Ok b' -> changes_only [FPosition] b b') /\
  (forall b b' e e', db_new b = Ok e -> db_new b' = Ok e' -> fst (flip b) = b' -> snd (flip b) = Ok tt ->
     db_bytes e' = db_bytes e) /\
  (forall b, ~ player (on_action b) -> db_new b = Exc AssertionError).
Proof.
  split; [|split; [|split]].
  - intros b [P|P] C; unfold db_new, db_tomodel, mover, side, other in *; rewrite P in *; cbn [Z.eqb YOU HIM Pos.eqb Z.sub Z.opp Z.add Pos.add] in *.
    + destruct (encode_codable _ C) as (s & E). exists (mkDb s (set_position ([], []) b)).
      rewrite <- surjective_pairing in E, C. rewrite E. cbn [bind]. split; [reflexivity|]. cbn [db_fields db_bytes set_position on_action].
      rewrite P. change (0 =? YOU) with true. cbv iota. rewrite (decode_encode _ _ C E). cbn [bind]. f_equal. apply set_position_id.
    + destruct (encode_codable _ C) as (s & E). exists (mkDb s (set_position ([], []) b)).
      change (Z.pos_sub 1 1) with 0 in *. cbn [Z.eqb] in *.
      rewrite E. cbn [bind]. split; [reflexivity|]. cbn [db_fields db_bytes set_position on_action].
      rewrite P. change (1 =? YOU) with false. change (1 =? HIM) with true. cbv iota. rewrite (decode_encode _ _ C E). cbn [bind fst snd]. f_equal.
      rewrite <- surjective_pairing. apply set_position_id.
  - intros b b' e E F. unfold db_new in E. apply bind_ok in E. destruct E as (s & _ & E). injection E as <-.
    unfold db_tomodel in F. apply bind_ok in F. destruct F as (p & _ & F). injection F as <-.
    unfold changes_only. intros f Hf. destruct f; cbn; auto; exfalso; apply Hf; left; reflexivity.
  - intros b b' e e' E E' F G. subst b'. unfold db_new in E, E'. apply bind_ok in E. destruct E as (s & E & K). injection K as <-.
    apply bind_ok in E'. destruct E' as (s' & E' & K). injection K as <-. cbn [db_bytes].
    destruct (flip b) as [b' r] eqn:K. cbn [fst snd] in *. subst r. apply flip_ok in K. subst b'.
    destruct b as [[f g] cu ow oa cr st ia db ro rl ml sc]. cbn in E, E'. unfold flip_owner in E'.
    destruct (Z.eqb_spec oa YOU) as [->|N0]; [cbn in E'; congruence|]. destruct (Z.eqb_spec oa HIM) as [->|N1]; [cbn in E'; congruence|].
    discriminate.
  - intros b H. unfold db_new. unfold player in H. destruct (Z.eqb_spec (on_action b) YOU); [exfalso; apply H; left; assumption|].
    destruct (Z.eqb_spec (on_action b) HIM); [exfalso; apply H; right; assumption|]. reflexivity.
Qed.
