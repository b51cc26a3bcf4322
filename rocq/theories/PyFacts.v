(* Lemmas about Py.v *)
From Verif Require Import Py.
From Coq Require Import DecimalFacts DecimalZ ZifyBool ZifyNat.

Lemma bind_ok {A B} (m : res A) (k : A -> res B) b :
  bind m k = Ok b <-> exists a, m = Ok a /\ k a = Ok b.
Proof.
  destruct m as [a|e]; cbn; split.
  - intros H; exists a; auto.
  - intros (a' & H & K); congruence.
  - discriminate.
  - intros (a' & H & K); congruence.
Qed.

Lemma str_eqb_eq a b : str_eqb a b = true <-> a = b.
Proof.
  revert b; induction a as [|x a IH]; intros [|y b]; cbn; try (split; congruence).
  rewrite andb_true_iff, Ascii.eqb_eq, IH. split; [intros [-> ->]; auto | injection 1; auto].
Qed.
Lemma str_eqb_refl a : str_eqb a a = true.
Proof. apply str_eqb_eq; reflexivity. Qed.

Lemma zlist_eqb_eq a b : zlist_eqb a b = true <-> a = b.
Proof.
  revert b; induction a as [|x a IH]; intros [|y b]; cbn; try (split; congruence).
  rewrite andb_true_iff, Z.eqb_eq, IH. split; [intros [-> ->]; auto | injection 1; auto].
Qed.
Lemma zpair_eqb_eq a b : zpair_eqb a b = true <-> a = b.
Proof.
  destruct a, b; unfold zpair_eqb; cbn. rewrite andb_true_iff, !Z.eqb_eq.
  split; [intros [-> ->]; auto | injection 1; auto].
Qed.

Lemma zmem_In x l : zmem x l = true <-> In x l.
Proof.
  unfold zmem; rewrite existsb_exists; split.
  - intros (y & H & E); apply Z.eqb_eq in E; subst; auto.
  - intros H; exists x; split; [auto | apply Z.eqb_refl].
Qed.
Lemma In_zrange x a b : In x (zrange a b) <-> a <= x < b.
Proof.
  unfold zrange; rewrite in_map_iff; split.
  - intros (k & E & H); apply in_seq in H; lia.
  - intros H; exists (Z.to_nat (x - a)); split; [lia | apply in_seq; lia].
Qed.
Lemma zmem_zrange x a b : zmem x (zrange a b) = (a <=? x) && (x <? b).
Proof.
  apply eq_true_iff_eq; rewrite zmem_In, In_zrange; lia.
Qed.
Lemma In_zrange_down x a b : In x (zrange_down a b) <-> b < x <= a.
Proof.
  unfold zrange_down; rewrite in_map_iff; split.
  - intros (k & E & H); apply in_seq in H; lia.
  - intros H; exists (Z.to_nat (a - x)); split; [lia | apply in_seq; lia].
Qed.

(* indexing *)
Lemma zlen_nonneg {A} (l : list A) : 0 <= zlen l.
Proof. unfold zlen; lia. Qed.
Lemma zlen_app {A} (l m : list A) : zlen (l ++ m) = zlen l + zlen m.
Proof. unfold zlen; rewrite app_length; lia. Qed.
Lemma list_set_length {A} (l : list A) k a : List.length (list_set l k a) = List.length l.
Proof. revert k; induction l as [|x l IH]; intros [|k]; cbn; auto. Qed.
Lemma zlen_list_set {A} (l : list A) k a : zlen (list_set l k a) = zlen l.
Proof. unfold zlen; rewrite list_set_length; auto. Qed.
Lemma pyix_list_set {A} (l : list A) k a i : pyix (list_set l k a) i = pyix l i.
Proof. unfold pyix; rewrite zlen_list_set; auto. Qed.
Lemma pyix_in {A} (l : list A) i : 0 <= i < zlen l -> pyix l i = Some (Z.to_nat i).
Proof.
  intros H; unfold pyix. replace ((0 <=? i) && (i <? zlen l)) with true by lia. auto.
Qed.
Lemma pyix_lt {A} (l : list A) i k : pyix l i = Some k -> (k < List.length l)%nat.
Proof.
  unfold pyix. destruct ((0 <=? i) && (i <? zlen l)) eqn:E1.
  - intros [= <-]. unfold zlen in *; lia.
  - destruct ((- zlen l <=? i) && (i <? 0)) eqn:E2; [|discriminate].
    intros [= <-]. unfold zlen in *; lia.
Qed.
Lemma nth_error_list_set {A} (l : list A) k j a :
  (k < List.length l)%nat ->
  nth_error (list_set l k a) j = if Nat.eqb j k then Some a else nth_error l j.
Proof.
  revert k j; induction l as [|x l IH]; intros [|k] [|j]; cbn; intros H; try lia; auto.
  apply IH; lia.
Qed.
Lemma pyget_in {A} (l : list A) i d :
  0 <= i < zlen l -> pyget l i = Ok (nth (Z.to_nat i) l d).
Proof.
  intros H. unfold pyget. rewrite pyix_in by auto.
  rewrite nth_error_nth' with (d := d) by (unfold zlen in *; lia). auto.
Qed.
Lemma pyget_ok_bounds {A} (l : list A) i a : pyget l i = Ok a -> - zlen l <= i < zlen l.
Proof.
  unfold pyget, pyix. destruct ((0 <=? i) && (i <? zlen l)) eqn:E1; [lia|].
  destruct ((- zlen l <=? i) && (i <? 0)) eqn:E2; [lia|discriminate].
Qed.
Lemma pyget_err {A} (l : list A) i e : pyget l i = Exc e ->
  e = IndexError /\ ~ (- zlen l <= i < zlen l).
Proof.
  unfold pyget. destruct (pyix l i) as [k|] eqn:E.
  - pose proof (pyix_lt _ _ _ E) as H. destruct (nth_error l k) eqn:E2; [discriminate|].
    apply nth_error_None in E2; lia.
  - intros [= <-]. split; auto. unfold pyix in E.
    destruct ((0 <=? i) && (i <? zlen l)) eqn:E1; [discriminate|].
    destruct ((- zlen l <=? i) && (i <? 0)) eqn:E2; [discriminate|]. lia.
Qed.
Lemma pyset_in {A} (l : list A) i a :
  0 <= i < zlen l -> pyset l i a = Ok (list_set l (Z.to_nat i) a).
Proof. intros H; unfold pyset; rewrite pyix_in by auto; auto. Qed.
Lemma pyadd_in l i d : 0 <= i < zlen l ->
  pyadd l i d = Ok (list_set l (Z.to_nat i) (nth (Z.to_nat i) l 0 + d)).
Proof. intros H; unfold pyadd; rewrite (pyget_in l i 0) by auto; cbn; apply pyset_in; auto. Qed.
Lemma pyadd_out l i d : ~ (- zlen l <= i < zlen l) -> pyadd l i d = Exc IndexError.
Proof.
  intros H; unfold pyadd. destruct (pyget l i) eqn:E; cbn.
  - apply pyget_ok_bounds in E; contradiction.
  - apply pyget_err in E; destruct E as [-> _]; auto.
Qed.
Lemma nth_list_set {A} (l : list A) k j a d :
  nth j (list_set l k a) d =
  if Nat.eqb j k && Nat.ltb k (List.length l) then a else nth j l d.
Proof.
  revert k j; induction l as [|x l IH]; intros [|k] [|j]; cbn; auto.
  - rewrite andb_false_r; auto.
  - rewrite IH. destruct (Nat.eqb j k) eqn:E; cbn; auto.
Qed.
Lemma list_set_app_nth {A} (l : list A) k d : (k < List.length l)%nat ->
  list_set l k (nth k l d) = l.
Proof.
  revert k; induction l as [|x l IH]; intros [|k]; cbn; intros H; try lia; auto.
  rewrite IH by lia; auto.
Qed.
Lemma list_set_set {A} (l : list A) k a b : list_set (list_set l k a) k b = list_set l k b.
Proof. revert k; induction l as [|x l IH]; intros [|k]; cbn; auto. rewrite IH; auto. Qed.
Lemma list_set_comm {A} (l : list A) j k a b : j <> k ->
  list_set (list_set l j a) k b = list_set (list_set l k b) j a.
Proof.
  revert j k; induction l as [|x l IH]; intros [|j] [|k]; cbn; intros H; auto; try lia.
  rewrite IH by lia; auto.
Qed.
Lemma zsum_app a b : zsum (a ++ b) = zsum a + zsum b.
Proof. unfold zsum; induction a as [|x a IH]; cbn; lia. Qed.
Lemma zsum_list_set l k v : (k < List.length l)%nat ->
  zsum (list_set l k v) = zsum l - nth k l 0 + v.
Proof.
  revert k; induction l as [|x l IH]; intros [|k]; cbn; intros H; try lia.
  fold (zsum (list_set l k v)); fold (zsum l). rewrite IH by lia; lia.
Qed.
Lemma list_eq_nth {A} (l m : list A) d : List.length l = List.length m ->
  (forall k, (k < List.length l)%nat -> nth k l d = nth k m d) -> l = m.
Proof. intros; eapply nth_ext; eauto. Qed.

(* decimal *)
Lemma uint_of_chars_of_uint u : uint_of_chars (chars_of_uint u) = Some u.
Proof. induction u as [|u IH|u IH|u IH|u IH|u IH|u IH|u IH|u IH|u IH|u IH]; cbn; try rewrite IH; auto. Qed.

Definition is_digit (c : ascii) : bool :=
  match digit_val c with Some _ => true | None => false end.
Lemma chars_of_uint_digits u : forallb is_digit (chars_of_uint u) = true.
Proof. induction u; cbn; auto. Qed.
Lemma digit_not_space c : is_digit c = true -> is_space c = false.
Proof. destruct c as [[] [] [] [] [] [] [] []]; vm_compute; intros; congruence. Qed.
Lemma lstrip_nospace s : forallb (fun c => negb (is_space c)) s = true -> lstrip s = s.
Proof.
  destruct s as [|c s]; cbn; auto. destruct (is_space c); cbn; auto; discriminate.
Qed.
Lemma strip_nospace s : forallb (fun c => negb (is_space c)) s = true -> strip s = s.
Proof.
  intros H; unfold strip, rstrip. rewrite (lstrip_nospace s) by auto.
  rewrite lstrip_nospace; [apply rev_involutive|].
  apply forallb_forall; intros c Hc; apply in_rev in Hc.
  rewrite forallb_forall in H; auto.
Qed.
Lemma digits_nospace s : forallb is_digit s = true -> forallb (fun c => negb (is_space c)) s = true.
Proof.
  rewrite !forallb_forall; intros H c Hc; rewrite digit_not_space; auto.
Qed.

Lemma py_int_str n : py_int (py_str_int n) = Ok n.
Proof.
  unfold py_str_int.
  assert (Hz : Z.of_int (Z.to_int n) = n) by apply DecimalZ.of_to.
  destruct (Z.to_int n) as [u|u] eqn:E.
  - unfold py_int. rewrite strip_nospace by (apply digits_nospace, chars_of_uint_digits).
    pose proof (chars_of_uint_digits u) as Hd.
    pose proof (uint_of_chars_of_uint u) as Hu.
    cbn in Hz.
    destruct (chars_of_uint u) as [|c s] eqn:Ec.
    + exfalso. destruct u; cbn in Ec; try discriminate.
      destruct n; cbn in E; discriminate.
    + cbn in Hd. apply andb_true_iff in Hd; destruct Hd as [Hc _].
      destruct c as [[] [] [] [] [] [] [] []]; try (vm_compute in Hc; discriminate);
        cbv beta iota zeta; rewrite Hu, Z.mul_1_l, Hz; auto.
  - unfold py_int.
    assert (Hns : forallb (fun c => negb (is_space c)) ("-"%char :: chars_of_uint u) = true).
    { cbn. apply digits_nospace, chars_of_uint_digits. }
    rewrite strip_nospace by auto.
    pose proof (uint_of_chars_of_uint u) as Hu. cbn in Hz.
    destruct (chars_of_uint u) as [|c s] eqn:Ec.
    + exfalso. destruct u; cbn in Ec; try discriminate.
      destruct n; cbn in E; discriminate.
    + rewrite Hu. f_equal. lia.
Qed.

Lemma zord_range c : 0 <= zord c < 256.
Proof. unfold zord. pose proof (N_ascii_bounded c). lia. Qed.
Lemma pychr_zord c : pychr (zord c) = Ok c.
Proof.
  unfold pychr. pose proof (zord_range c). replace (0 <=? zord c) with true by lia.
  replace (zord c <? 256) with true by lia. cbn [andb]. unfold zord. rewrite N2Z.id, ascii_N_embedding. reflexivity.
Qed.
Lemma zord_chr n : 0 <= n < 256 -> zord (ascii_of_N (Z.to_N n)) = n.
Proof. intros H. unfold zord. rewrite N_ascii_embedding by lia. lia. Qed.
Lemma zord_inj a b : zord a = zord b -> a = b.
Proof. intros H. pose proof (pychr_zord a) as E. rewrite H, pychr_zord in E. congruence. Qed.

Lemma mapM_ok {A B} (f : A -> res B) l r : mapM f l = Ok r <-> Forall2 (fun x y => f x = Ok y) l r.
Proof.
  revert r; induction l as [|x l IH]; intros r; cbn.
  - split; intros H; [injection H as <-; constructor|inversion H; reflexivity].
  - split.
    + destruct (f x) as [y|e] eqn:E; cbn; [|discriminate]. destruct (mapM f l) as [s|e] eqn:F; cbn; [|discriminate].
      intros H. injection H as <-. constructor; auto. apply IH; reflexivity.
    + intros H. inversion H as [|? ? ? ? H1 H2]; subst. rewrite H1. cbn. rewrite (proj2 (IH _) H2). reflexivity.
Qed.
Lemma mapM_map {A B C} (f : B -> res C) (g : A -> B) l : mapM f (map g l) = mapM (fun x => f (g x)) l.
Proof. induction l as [|x l IH]; cbn; [reflexivity|]. rewrite IH. reflexivity. Qed.
Lemma mapM_total {A B} (f : A -> res B) (g : A -> B) l : (forall x, In x l -> f x = Ok (g x)) -> mapM f l = Ok (map g l).
Proof.
  induction l as [|x l IH]; intros H; cbn; [reflexivity|]. rewrite H by (left; reflexivity). cbn.
  rewrite IH by (intros; apply H; right; assumption). reflexivity.
Qed.
