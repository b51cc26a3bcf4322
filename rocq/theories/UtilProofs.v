From Verif Require Import Py PyFacts UtilModel UtilSpec.
From Coq Require Import ZifyBool ZifyNat.

(* ---- py_int is exactly [denotes] ---- *)
#[local] Arguments blank : simpl never.
#[local] Arguments is_space : simpl never.
Lemma is_space_blank c : is_space c = true <-> blank c.
Proof.
  unfold blank.
  transitivity (existsb (Nat.eqb (nat_of_ascii c)) [9; 10; 11; 12; 13; 32]%nat = true).
  - replace (existsb (Nat.eqb (nat_of_ascii c)) [9; 10; 11; 12; 13; 32]%nat) with (is_space c);
      [reflexivity|].
    destruct c as [[] [] [] [] [] [] [] []]; vm_compute; reflexivity.
  - rewrite existsb_exists; split.
    + intros (x & H & E); apply Nat.eqb_eq in E; subst; auto.
    + intros H; eexists; split; [exact H | apply Nat.eqb_refl].
Qed.
Lemma is_digit_dec c : is_digit c = true <-> dec_digit c.
Proof.
  unfold dec_digit.
  transitivity (((0 <=? digit c) && (digit c <=? 9)) = true); [|lia].
  replace ((0 <=? digit c) && (digit c <=? 9)) with (is_digit c); [reflexivity|].
  destruct c as [[] [] [] [] [] [] [] []]; vm_compute; reflexivity.
Qed.
Lemma digit_val_spec c d : digit_val c = Some d ->
  (digit c = 0 /\ d = Decimal.D0) \/ (digit c = 1 /\ d = Decimal.D1) \/
  (digit c = 2 /\ d = Decimal.D2) \/ (digit c = 3 /\ d = Decimal.D3) \/
  (digit c = 4 /\ d = Decimal.D4) \/ (digit c = 5 /\ d = Decimal.D5) \/
  (digit c = 6 /\ d = Decimal.D6) \/ (digit c = 7 /\ d = Decimal.D7) \/
  (digit c = 8 /\ d = Decimal.D8) \/ (digit c = 9 /\ d = Decimal.D9).
Proof.
  destruct c as [[] [] [] [] [] [] [] []]; cbn; intros H; try discriminate;
    injection H as <-; tauto.
Qed.

Definition hstep a c := 10 * a + digit c.
Lemma of_uint_acc_horner s u p : uint_of_chars s = Some u ->
  Zpos (Pos.of_uint_acc u p) = fold_left hstep s (Zpos p).
Proof.
  revert u p; induction s as [|c s IH]; cbn [uint_of_chars fold_left]; intros u p H.
  - injection H as <-; reflexivity.
  - destruct (digit_val c) as [d|] eqn:E; [|discriminate].
    destruct (uint_of_chars s) as [u'|] eqn:E2; [|discriminate].
    injection H as <-.
    apply digit_val_spec in E. unfold hstep at 2.
    repeat (destruct E as [[-> ->]|E]); [..|destruct E as [-> ->]];
      cbn [Pos.of_uint_acc]; rewrite (IH u') by reflexivity; f_equal; lia.
Qed.
Lemma of_uint_horner s u : uint_of_chars s = Some u -> Z.of_uint u = horner s.
Proof.
  unfold horner. fold hstep. revert u.
  induction s as [|c s IH]; intros u H.
  - cbn in H; injection H as <-; reflexivity.
  - cbn in H.
    destruct (digit_val c) as [d|] eqn:E; [|discriminate].
    destruct (uint_of_chars s) as [u'|] eqn:E2; [|discriminate].
    injection H as <-.
    apply digit_val_spec in E. cbn [fold_left]. unfold hstep at 2.
    repeat (destruct E as [[-> ->]|E]); [..|destruct E as [-> ->]].
    1: exact (IH u' eq_refl).
    all: unfold Z.of_uint; cbn -[Pos.of_uint_acc fold_left]; apply of_uint_acc_horner; exact E2.
Qed.
Lemma uint_of_chars_digits s : (exists u, uint_of_chars s = Some u) <-> Forall dec_digit s.
Proof.
  induction s as [|c s IH]; cbn.
  - split; eauto.
  - split.
    + intros (u & H). destruct (digit_val c) as [d|] eqn:E; [|discriminate].
      destruct (uint_of_chars s) as [u'|] eqn:E2; [|discriminate].
      constructor; [apply is_digit_dec; unfold is_digit; rewrite E; auto | apply IH; eauto].
    + intros H; inversion H as [|? ? H1 H2]; subst. apply IH in H2; destruct H2 as [u ->].
      apply is_digit_dec in H1; unfold is_digit in H1. destruct (digit_val c); [eauto|discriminate].
Qed.

Lemma lstrip_spec s : exists l, Forall blank l /\ s = l ++ lstrip s /\
  match lstrip s with [] => True | c :: _ => ~ blank c end.
Proof.
  induction s as [|c s IH]; cbn.
  - exists []; auto.
  - destruct (is_space c) eqn:E.
    + destruct IH as (l & H1 & H2 & H3). exists (c :: l). split; [|split]; auto.
      * constructor; auto; apply is_space_blank; auto.
      * cbn; congruence.
    + exists []; split; [|split]; auto. rewrite <- is_space_blank; congruence.
Qed.
Lemma lstrip_blank l s : Forall blank l -> lstrip (l ++ s) = lstrip s.
Proof.
  induction 1 as [|c l Hc _ IH]; cbn; auto. apply is_space_blank in Hc; rewrite Hc; auto.
Qed.
Lemma lstrip_head c s : ~ blank c -> lstrip (c :: s) = c :: s.
Proof. cbn [lstrip]; rewrite <- is_space_blank. destruct (is_space c); congruence. Qed.
Lemma strip_core l m r : Forall blank l -> Forall blank r ->
  m <> [] -> (forall c, In c m -> ~ blank c) -> strip (l ++ m ++ r) = m.
Proof.
  intros Hl Hr Hm Hn. unfold strip, rstrip. rewrite lstrip_blank by auto.
  destruct m as [|c m]; [congruence|]. cbn [app].
  rewrite lstrip_head by (apply Hn; cbn; auto).
  change (c :: m ++ r) with ((c :: m) ++ r). rewrite rev_app_distr.
  rewrite lstrip_blank by (apply Forall_rev; auto).
  destruct (rev (c :: m)) as [|d t] eqn:E.
  - exfalso. apply (f_equal (@rev _)) in E; rewrite rev_involutive in E; discriminate.
  - rewrite lstrip_head; [rewrite <- E; apply rev_involutive|].
    apply Hn. apply in_rev. rewrite E; cbn; auto.
Qed.
Lemma strip_decomp s : exists l r, Forall blank l /\ Forall blank r /\ s = l ++ strip s ++ r.
Proof.
  destruct (lstrip_spec s) as (l & H1 & H2 & _).
  destruct (lstrip_spec (rev (lstrip s))) as (r & H3 & H4 & _).
  exists l, (rev r). split; auto. split; [apply Forall_rev; auto|].
  rewrite H2 at 1. f_equal. unfold strip, rstrip.
  rewrite <- rev_app_distr, <- H4, rev_involutive; auto.
Qed.

Lemma dec_not_blank c : dec_digit c -> ~ blank c.
Proof. rewrite <- is_digit_dec, <- is_space_blank. intros H; rewrite digit_not_space; auto. Qed.

Definition digits_res (sgn : Z) (t : str) : res Z :=
  match t with
  | [] => Exc ValueError
  | _ => match uint_of_chars t with
         | Some u => Ok (sgn * Z.of_uint u)
         | None => Exc ValueError
         end
  end.
Lemma digits_res_ok sgn t z : digits_res sgn t = Ok z <->
  t <> [] /\ Forall dec_digit t /\ z = sgn * horner t.
Proof.
  unfold digits_res. destruct t as [|c t]; [split; [discriminate|tauto]|].
  destruct (uint_of_chars (c :: t)) as [u|] eqn:E.
  - rewrite (of_uint_horner _ _ E). split.
    + intros [= <-]. repeat split; auto; [discriminate|].
      apply uint_of_chars_digits; eauto.
    + intros (_ & _ & ->); auto.
  - split; [discriminate|]. intros (_ & H & _). apply uint_of_chars_digits in H.
    destruct H; congruence.
Qed.
Lemma digits_res_err sgn t e : digits_res sgn t = Exc e -> e = ValueError.
Proof. unfold digits_res; destruct t; [congruence|]. destruct (uint_of_chars _); congruence. Qed.

Lemma py_int_cases s : py_int s =
  match strip s with
  | [] => Exc ValueError
  | c :: t => if Ascii.eqb c "-"%char then digits_res (-1) t
              else if Ascii.eqb c "+"%char then digits_res 1 t
              else digits_res 1 (c :: t)
  end.
Proof.
  unfold py_int, digits_res. destruct (strip s) as [|c t]; auto.
  destruct c as [[] [] [] [] [] [] [] []]; reflexivity.
Qed.
Lemma py_int_error s e : py_int s = Exc e -> e = ValueError.
Proof.
  rewrite py_int_cases. destruct (strip s) as [|c t]; [congruence|].
  repeat (match goal with |- context [if ?b then _ else _] => destruct b end);
    apply digits_res_err.
Qed.

Lemma sign_not_blank : ~ blank "-"%char /\ ~ blank "+"%char.
Proof. rewrite <- !is_space_blank; vm_compute; split; congruence. Qed.
Lemma py_int_denotes s z : py_int s = Ok z <-> denotes s z.
Proof.
  rewrite py_int_cases. split.
  - intros H. destruct (strip_decomp s) as (l & r & Hl & Hr & Hs).
    destruct (strip s) as [|c t] eqn:E; [discriminate|].
    destruct (Ascii.eqb_spec c "-"%char) as [->|N1];
      [|destruct (Ascii.eqb_spec c "+"%char) as [->|N2]];
      apply digits_res_ok in H; destruct H as (H1 & H2 & H3).
    + exists l, t, r. repeat (split; [assumption|]). right; right. split; [auto|lia].
    + exists l, t, r. repeat (split; [assumption|]). right; left. split; [auto|lia].
    + exists l, (c :: t), r. repeat (split; [assumption|]). left. split; [auto|lia].
  - intros (l & ds & r & Hl & Hr & Hn & Hd & H).
    assert (Hnb : forall c, In c ds -> ~ blank c).
    { intros c Hc; apply dec_not_blank. rewrite Forall_forall in Hd; auto. }
    destruct sign_not_blank as [Hm Hp].
    destruct H as [[-> ->]|[[-> ->]|[-> ->]]].
    + rewrite strip_core by auto. destruct ds as [|c ds]; [congruence|].
      inversion Hd as [|? ? Hc Hd']; subst. apply is_digit_dec in Hc.
      destruct (Ascii.eqb_spec c "-"%char) as [->|_]; [vm_compute in Hc; discriminate|].
      destruct (Ascii.eqb_spec c "+"%char) as [->|_]; [vm_compute in Hc; discriminate|].
      apply digits_res_ok. repeat split; auto; lia.
    + change ("+"%char :: ds ++ r) with (("+"%char :: ds) ++ r).
      rewrite strip_core; auto; [|discriminate|intros c [<-|Hc]; auto].
      cbn [Ascii.eqb eqb]. apply digits_res_ok. repeat split; auto; lia.
    + change ("-"%char :: ds ++ r) with (("-"%char :: ds) ++ r).
      rewrite strip_core; auto; [|discriminate|intros c [<-|Hc]; auto].
      cbn [Ascii.eqb eqb]. apply digits_res_ok. repeat split; auto; lia.
Qed.

(* ---- C01 ---- *)
Lemma py_str_int_not n s : (exists e, py_int s = Exc e) -> str_eqb (py_str_int n) s = false.
Proof.
  intros (e & H). destruct (str_eqb (py_str_int n) s) eqn:E; auto.
  apply str_eqb_eq in E. rewrite <- E, py_int_str in H; discriminate.
Qed.
Lemma not_num s : (match py_int s with Exc _ => true | Ok _ => false end) = true -> exists e, py_int s = Exc e.
Proof. destruct (py_int s); [discriminate|eauto]. Qed.

Lemma move_roundtrip n : -1 <= n <= 24 -> exists s, move_ntop n = Ok s /\ move_pton s = Ok n.
Proof.
  intros H. unfold move_ntop.
  destruct (n <? 0) eqn:E1.
  { assert (n = -1) by lia; subst. eexists; split; [reflexivity|vm_compute; reflexivity]. }
  destruct ((0 <=? n) && (n <? 24)) eqn:E2.
  - eexists; split; [reflexivity|]. unfold move_pton.
    rewrite !py_str_int_not by (apply not_num; vm_compute; reflexivity).
    rewrite py_int_str; cbn [bind].
    replace ((0 <=? n + 1) && (n + 1 <=? 25)) with true by lia. f_equal; lia.
  - assert (n = 24) by lia; subst. eexists; split; [reflexivity|vm_compute; reflexivity].
Qed.
Lemma move_ntop_domain n :
  (n > 24 -> move_ntop n = Exc ValueError) /\ (n < -1 -> move_ntop n = move_ntop (-1)).
Proof.
  unfold move_ntop; split; intros H.
  - replace (n <? 0) with false by lia. replace ((0 <=? n) && (n <? 24)) with false by lia.
    replace (n =? 24) with false by lia; auto.
  - replace (n <? 0) with true by lia. reflexivity.
Qed.
Lemma position_roundtrip n who : (who = YOU \/ who = HIM) -> -1 <= n <= 24 ->
  exists s, position_ntop n who = Ok s /\ position_pton s who = Ok n.
Proof.
  intros Hw H. unfold position_ntop.
  destruct (n <? 0) eqn:E1.
  { assert (n = -1) by lia; subst. destruct Hw as [-> | ->]; eexists; split; try reflexivity; vm_compute; reflexivity. }
  destruct ((0 <=? n) && (n <? 24)) eqn:E2.
  - destruct Hw as [-> | ->]; cbn [YOU HIM Z.eqb];
    eexists; (split; [reflexivity|]); unfold position_pton;
    rewrite !py_str_int_not by (apply not_num; vm_compute; reflexivity);
    rewrite py_int_str; cbn [bind orb].
    + replace ((0 <? n + 1) && (n + 1 <? 25)) with true by lia. cbn [HIM YOU Z.eqb]. f_equal; lia.
    + replace ((0 <? 24 - n) && (24 - n <? 25)) with true by lia. cbn [HIM YOU Z.eqb]. f_equal; lia.
  - replace (n =? 24) with true by lia. assert (n = 24) by lia; subst.
    destruct Hw as [-> | ->]; eexists; split; try reflexivity; vm_compute; reflexivity.
Qed.
Lemma position_ntop_domain n who : (who = YOU \/ who = HIM) ->
  (n > 24 -> position_ntop n who = Exc ValueError) /\
  (n < -1 -> position_ntop n who = position_ntop (-1) who).
Proof.
  intros Hw; unfold position_ntop; split; intros H.
  - replace (n <? 0) with false by lia. replace ((0 <=? n) && (n <? 24)) with false by lia.
    replace (n =? 24) with false by lia; auto.
  - replace (n <? 0) with true by lia. reflexivity.
Qed.
Lemma names_roundtrip :
  (forall n, -1 <= n <= 24 -> exists s, move_ntop n = Ok s /\ move_pton s = Ok n) /\
  (forall n who, who = YOU \/ who = HIM -> -1 <= n <= 24 ->
     exists s, position_ntop n who = Ok s /\ position_pton s who = Ok n) /\
  (forall n, n > 24 -> move_ntop n = Exc ValueError /\
     (forall who, who = YOU \/ who = HIM -> position_ntop n who = Exc ValueError)) /\
  (forall n, n < -1 -> move_ntop n = move_ntop (-1) /\
     (forall who, who = YOU \/ who = HIM -> position_ntop n who = position_ntop (-1) who)).
Proof.
  repeat split; intros.
  - apply move_roundtrip; auto.
  - apply position_roundtrip; auto.
  - apply move_ntop_domain; auto.
  - apply position_ntop_domain; auto.
  - apply move_ntop_domain; auto.
  - apply position_ntop_domain; auto.
Qed.

(* ---- C02 ---- *)
Lemma move_pton_exact s v :
  move_pton s = Ok v <->
  (s = L "bar" /\ v = 24) \/ (s = L "off" /\ v = -1) \/
  (exists i, denotes s i /\ 0 <= i <= 25 /\ v = i - 1).
Proof.
  unfold move_pton.
  destruct (str_eqb s (L "bar")) eqn:E1.
  { apply str_eqb_eq in E1; subst. split.
    - intros [= <-]; auto.
    - intros [[_ ->]|[[H _]|(i & H & _)]]; auto; [discriminate|].
      apply py_int_denotes in H; vm_compute in H; discriminate. }
  destruct (str_eqb s (L "off")) eqn:E2.
  { apply str_eqb_eq in E2; subst. split.
    - intros [= <-]; auto.
    - intros [[H _]|[[_ ->]|(i & H & _)]]; auto; [discriminate|].
      apply py_int_denotes in H; vm_compute in H; discriminate. }
  assert (N1 : s <> L "bar") by (intros ->; rewrite str_eqb_refl in E1; discriminate).
  assert (N2 : s <> L "off") by (intros ->; rewrite str_eqb_refl in E2; discriminate).
  destruct (py_int s) as [i|e] eqn:E; cbn.
  - split.
    + destruct ((0 <=? i) && (i <=? 25)) eqn:B; [|discriminate]. intros [= <-].
      right; right. exists i. split; [apply py_int_denotes; auto|lia].
    + intros [[H _]|[[H _]|(j & H & Hj & ->)]]; try tauto.
      apply py_int_denotes in H. rewrite E in H; injection H as ->.
      replace ((0 <=? j) && (j <=? 25)) with true by lia; auto.
  - split; [discriminate|]. intros [[H _]|[[H _]|(j & H & Hj & ->)]]; try tauto.
    apply py_int_denotes in H. congruence.
Qed.
Lemma move_pton_error s e : move_pton s = Exc e -> e = ValueError.
Proof.
  unfold move_pton. destruct (str_eqb s _); [discriminate|]. destruct (str_eqb s _); [discriminate|].
  destruct (py_int s) as [i|x] eqn:E; cbn.
  - destruct (_ && _); congruence.
  - intros [= <-]; eapply py_int_error; eauto.
Qed.
Lemma move_pton_range s v : move_pton s = Ok v -> -1 <= v <= 24.
Proof.
  rewrite move_pton_exact. intros [[_ ->]|[[_ ->]|(i & _ & H & ->)]]; lia.
Qed.
Lemma position_pton_exact s who v :
  position_pton s who = Ok v <->
  ((s = L "your home" \/ s = L "his home") /\ v = -1) \/
  ((s = L "your bar" \/ s = L "his bar") /\ v = 24) \/
  (exists i, denotes s i /\ 1 <= i <= 24 /\ v = if who =? YOU then i - 1 else 24 - i).
Proof.
  assert (N : forall t, py_int t = Exc ValueError -> forall i, ~ denotes t i).
  { intros t H i Hi; apply py_int_denotes in Hi; congruence. }
  unfold position_pton.
  destruct (str_eqb s (L "your home") || str_eqb s (L "his home")) eqn:E1.
  { apply orb_true_iff in E1; rewrite !str_eqb_eq in E1. split.
    - intros [= <-]; auto.
    - intros [[_ ->]|[[H _]|(i & H & _)]]; auto.
      + destruct E1 as [-> | ->], H as [H|H]; discriminate.
      + exfalso; revert H. apply N. destruct E1 as [-> | ->]; vm_compute; reflexivity. }
  destruct (str_eqb s (L "your bar") || str_eqb s (L "his bar")) eqn:E2.
  { apply orb_true_iff in E2; rewrite !str_eqb_eq in E2. split.
    - intros [= <-]; auto.
    - intros [[H _]|[[_ ->]|(i & H & _)]]; auto.
      + destruct E2 as [-> | ->], H as [H|H]; discriminate.
      + exfalso; revert H. apply N. destruct E2 as [-> | ->]; vm_compute; reflexivity. }
  apply orb_false_iff in E1, E2.
  assert (N1 : ~ (s = L "your home" \/ s = L "his home")).
  { intros [-> | ->]; rewrite str_eqb_refl in E1; destruct E1; discriminate. }
  assert (N2 : ~ (s = L "your bar" \/ s = L "his bar")).
  { intros [-> | ->]; rewrite str_eqb_refl in E2; destruct E2; discriminate. }
  destruct (py_int s) as [i|e] eqn:E; cbn.
  - split.
    + destruct ((0 <? i) && (i <? 25)) eqn:B; [|discriminate]. intros H.
      right; right. exists i. split; [apply py_int_denotes; auto|]. split; [lia|].
      destruct (who =? YOU); congruence.
    + intros [[H _]|[[H _]|(j & H & Hj & ->)]]; try tauto.
      apply py_int_denotes in H. rewrite E in H; injection H as ->.
      replace ((0 <? j) && (j <? 25)) with true by lia; destruct (who =? YOU); auto.
  - split; [discriminate|]. intros [[H _]|[[H _]|(j & H & Hj & ->)]]; try tauto.
    apply py_int_denotes in H. congruence.
Qed.
Lemma position_pton_error s who e : position_pton s who = Exc e -> e = ValueError.
Proof.
  unfold position_pton. destruct (_ || _); [discriminate|]. destruct (_ || _); [discriminate|].
  destruct (py_int s) as [i|x] eqn:E; cbn.
  - destruct (_ && _); [destruct (who =? YOU)|]; congruence.
  - intros [= <-]; eapply py_int_error; eauto.
Qed.
Lemma parser_exact :
  (forall s v, move_pton s = Ok v <->
    (s = L "bar" /\ v = 24) \/ (s = L "off" /\ v = -1) \/
    (exists i, denotes s i /\ 0 <= i <= 25 /\ v = i - 1)) /\
  (forall s e, move_pton s = Exc e -> e = ValueError) /\
  (forall s who v, position_pton s who = Ok v <->
    ((s = L "your home" \/ s = L "his home") /\ v = -1) \/
    ((s = L "your bar" \/ s = L "his bar") /\ v = 24) \/
    (exists i, denotes s i /\ 1 <= i <= 24 /\ v = if who =? 0 then i - 1 else 24 - i)) /\
  (forall s who e, position_pton s who = Exc e -> e = ValueError) /\
  (forall s v, move_pton s = Ok v -> -1 <= v <= 24) /\
  (forall s who v, position_pton s who = Ok v -> -1 <= v <= 24).
Proof.
  split; [exact move_pton_exact|]. split; [exact move_pton_error|].
  split; [exact position_pton_exact|]. split; [exact position_pton_error|].
  split; [exact move_pton_range|].
  intros s who v. rewrite position_pton_exact.
  intros [[_ ->]|[[_ ->]|(i & _ & H & ->)]]; try lia. destruct (who =? YOU); lia.
Qed.

(* ---- C03 ---- *)
Lemma opp_flip :
  (forall p q, get_opp p = Ok q -> get_opp q = Ok p /\ p <> q) /\
  (forall p, p = YOU \/ p = HIM -> exists q, get_opp p = Ok q /\ (q = YOU \/ q = HIM)) /\
  (forall p, p <> YOU -> p <> HIM -> get_opp p = Exc ValueError) /\
  (forall n, flip_point (flip_point n) = n) /\
  (forall n, 0 <= n <= 23 <-> 0 <= flip_point n <= 23).
Proof.
  unfold get_opp, YOU, HIM, flip_point. split; [|split; [|split; [|split]]].
  - intros p q. destruct (p =? 1) eqn:E1; [intros [= <-]; cbn; split; [f_equal|]; lia|].
    destruct (p =? 0) eqn:E2; [intros [= <-]; cbn; split; [f_equal|]; lia|discriminate].
  - intros p [-> | ->]; cbn; eauto.
  - intros p H1 H2. replace (p =? 1) with false by lia. replace (p =? 0) with false by lia. auto.
  - intros; lia.
  - intros; lia.
Qed.
