(* Lemmas for C42, C43 and C77-C79 *)
From Verif Require Import Py PyFacts UtilModel UtilSpec UtilProofs BoardModel BoardSpec XgidSpec XgidProofs FibsModel FibsSpec.

Lemma line_get s v : fibs_line s v -> forall i, (3 <= i <= 42)%nat -> geti (split_on ":"%char s) i = Ok (v i).
Proof.
  intros (fs & S & C & Ln & D) i Hi. rewrite S, split_join; [|destruct fs; [cbn in Ln; lia|discriminate]|exact C].
  unfold geti. rewrite (@nth_error_nth' str fs i []) by lia. specialize (D i Hi). rewrite <- py_int_denotes in D. rewrite D. reflexivity.
Qed.
Lemma plog_log2 p : plog p = Z.log2 (Zpos p).
Proof.
  induction p as [p IH|p IH|]; [| |reflexivity]; cbn [plog]; rewrite IH.
  - rewrite Pos2Z.inj_xI, Z.log2_succ_double by lia. lia.
  - rewrite Pos2Z.inj_xO, Z.log2_double by lia. lia.
Qed.
Lemma log_log2 n : fibs_log n = Z.log2 n.
Proof. destruct n; [reflexivity|apply plog_log2|reflexivity]. Qed.

Lemma seq_parts (v : nat -> Z) : map v (seq 6 26) = v 6%nat :: map v (seq 7 24) ++ [v 31%nat].
Proof. reflexivity. Qed.
Lemma pos_ok s v : fibs_line s v -> exists p, fibs_position (split_on ":"%char s) = Ok p /\ line_position v p.
Proof.
  intros H. pose proof (line_get s v H) as G. unfold fibs_position, get_board.
  rewrite (mapM_total (geti (split_on ":"%char s)) v) by (intros x I; apply in_seq in I; apply G; lia). cbn [bind].
  rewrite !G by lia. cbn [bind]. rewrite seq_parts.
  set (mid := map v (seq 7 24)).
  assert (Lm : List.length mid = 24%nat) by reflexivity.
  assert (M : firstn 24 (skipn 1 (v 6%nat :: mid ++ [v 31%nat])) = mid).
  { cbn [skipn]. rewrite firstn_app, Lm, Nat.sub_diag, firstn_O, app_nil_r. apply firstn_all2. lia. }
  rewrite M. rewrite (pyget_in _ 0 0) by (unfold zlen; cbn [List.length]; lia). cbn [bind].
  rewrite (pyget_in _ 25 0) by (unfold zlen; cbn [List.length]; rewrite app_length, Lm; cbn; lia). cbn [bind].
  assert (B0 : nth (Z.to_nat 0) (v 6%nat :: mid ++ [v 31%nat]) 0 = v 6%nat) by reflexivity.
  assert (B25 : nth (Z.to_nat 25) (v 6%nat :: mid ++ [v 31%nat]) 0 = v 31%nat) by reflexivity.
  rewrite B0, B25.
  assert (Dn : forall k, (k < 25)%nat -> nth k (mid ++ [v 31%nat]) 0 = entry v true k).
  { intros k Hk. change (mid ++ [v 31%nat]) with (map v (seq 7 25)). rewrite nth_indep with (d' := v 0%nat) by (rewrite map_length, seq_length; lia).
    rewrite map_nth, seq_nth by lia. unfold entry. f_equal; lia. }
  assert (Up : forall k, (k < 25)%nat -> nth k (rev (v 6%nat :: mid)) 0 = entry v false k).
  { intros k Hk. change (v 6%nat :: mid) with (map v (seq 6 25)). rewrite rev_nth by (rewrite map_length, seq_length; lia). rewrite map_length, seq_length.
    rewrite nth_indep with (d' := v 0%nat) by (rewrite map_length, seq_length; lia). rewrite map_nth, seq_nth by lia. unfold entry. f_equal; lia. }
  assert (LD : List.length (mid ++ [v 31%nat]) = 25%nat) by reflexivity.
  assert (LU : List.length (rev (v 6%nat :: mid)) = 25%nat) by reflexivity.
  set (dn := mid ++ [v 31%nat]) in *. set (up := rev (v 6%nat :: mid)) in *. clearbody dn up mid. clear M B0 B25.
  assert (Nm : forall f l k, f 0 = 0 -> nth k (map f l) 0 = f (nth k l 0)) by (intros f l k E; rewrite <- E at 1; apply map_nth).
  assert (Y0 : forall c, your_chequers c 0 = 0) by (intros c; unfold your_chequers; rewrite Z.mul_0_r; reflexivity).
  assert (H0 : forall c, his_chequers c 0 = 0) by (intros c; unfold his_chequers; rewrite Z.mul_0_r; reflexivity).
  destruct (v 42%nat <? 0) eqn:E; (eexists; split; [reflexivity|]); unfold line_position; cbn [fst snd]; rewrite !map_length, E; cbn [negb];
    (split; [assumption|]); (split; [assumption|]); intros k Hk; rewrite !Nm by auto; [rewrite Dn, Up by exact Hk|rewrite Dn, Up by exact Hk]; split; reflexivity.
Qed.
Lemma fibs_decode : forall m s v, fibs_line s v ->
  (v 32%nat = v 41%nat -> exists m', decode m s = (m', Ok tt) /\ line_board v m m') /\
  (v 32%nat <> v 41%nat -> exists m', decode m s = (m', Exc NameError) /\
     line_position v (position m') /\ changes_only [FPosition; FCube; FOwner; FCrawford; FRolled; FOnAction; FInner] m m' /\
     rolled m' = (if v 32%nat =? - v 41%nat then (v 35%nat, v 36%nat) else (0, 0))).
Proof.
  intros m s v H. pose proof (line_get s v H) as G. destruct (pos_ok s v H) as (p & Ep & P). unfold decode. rewrite Ep. cbv zeta.
  rewrite !G by lia. rewrite log_log2. split; intros T.
  - rewrite T, Z.eqb_refl. eexists. split; [reflexivity|]. unfold line_board, line_owner, line_crawford.
    destruct (v 38%nat =? 0), (v 39%nat =? 0), (v 40%nat =? 0); cbn [negb andb];
      (split; [exact P|]); repeat match goal with |- _ /\ _ => split end; destruct m; reflexivity.
  - destruct (Z.eqb_spec (v 32%nat) (v 41%nat)) as [|_]; [contradiction|].
    replace (v 41%nat * -1) with (- v 41%nat) by lia.
    destruct (v 32%nat =? - v 41%nat); (eexists; split; [reflexivity|]);
      destruct (v 38%nat =? 0), (v 39%nat =? 0); cbn [negb andb]; (split; [exact P|]); (split; [|destruct m; reflexivity]);
      intros f Hf; destruct f; try reflexivity; exfalso; apply Hf; cbn; tauto.
Qed.
Definition his_turn : str :=
  L "board:You:someplayer:3:0:0:0:-2:0:0:0:0:5:0:3:0:0:0:-5:5:0:0:0:-3:0:-5:0:0:0:0:2:0:-1:0:0:6:2:1:1:1:0:1:-1:0:25:0:0:0:0:2:0:0:0".
Definition my_turn : str :=
  L "board:You:someplayer:3:0:0:0:-2:0:0:0:0:5:0:3:0:0:0:-5:5:0:0:0:-3:0:-5:0:0:0:0:2:0:1:6:2:0:0:1:1:1:0:1:-1:0:25:0:0:0:0:2:0:0:0".
Definition values (s : str) (i : nat) : Z := match geti (split_on ":"%char s) i with Ok v => v | Exc _ => 0 end.
Lemma line_check s : (Nat.leb 43 (List.length (split_on ":"%char s)) &&
   forallb (fun i => match geti (split_on ":"%char s) i with Ok _ => true | Exc _ => false end) (seq 3 40)) = true -> fibs_line s (values s).
Proof.
  intros H. apply andb_true_iff in H as [A B]. apply Nat.leb_le in A. rewrite forallb_forall in B.
  exists (split_on ":"%char s). split; [symmetry; apply join_split|]. split; [apply split_clean|]. split; [exact A|]. intros i Hi.
  specialize (B i ltac:(apply in_seq; lia)). unfold values. unfold geti in *. rewrite (@nth_error_nth' str _ i []) in * by lia.
  apply py_int_denotes. destruct (py_int (nth i (split_on ":"%char s) [])); [reflexivity|discriminate].
Qed.
Lemma fibs_turn_refuted : exists s v, fibs_line s v /\ v 41%nat = 1 /\ v 32%nat = -1 /\ forall m, snd (decode m s) = Exc NameError.
Proof.
  exists his_turn, (values his_turn). split; [apply line_check; vm_compute; reflexivity|]. split; [vm_compute; reflexivity|]. split; [vm_compute; reflexivity|].
  intros m. destruct (fibs_decode m his_turn (values his_turn)) as [_ G]; [apply line_check; vm_compute; reflexivity|].
  destruct G as (m' & E & _); [vm_compute; discriminate|]. rewrite E. reflexivity.
Qed.

(* C43 *)
Lemma is_die_digit c : is_die c = true <-> die_digit c.
Proof. unfold is_die, die_digit, code. rewrite andb_true_iff, !Nat.leb_le. lia. Qed.
Lemma die_int c : is_die c = true -> py_int [c] = Ok (code c - 48).
Proof.
  intros H. assert (G : (fun c => implb (is_die c) (match py_int [c] with Ok v => v =? code c - 48 | Exc _ => false end)) c = true)
    by (revert c H; intros c _; revert c; apply all_chars; vm_compute; reflexivity).
  cbv beta in G. rewrite H in G. cbn [implb] in G. destruct (py_int [c]); [|discriminate]. apply Z.eqb_eq in G. congruence.
Qed.
Lemma filter_none {T} (f : T -> bool) l : filter f l = [] <-> Forall (fun c => f c <> true) l.
Proof.
  induction l as [|x l IH]; cbn; [split; constructor|]. destruct (f x) eqn:E.
  - split; [discriminate|]. intros H. inversion H; congruence.
  - rewrite IH. split; [intros H; constructor; [congruence|exact H]|intros H; inversion H; assumption].
Qed.
Lemma filter_cons_iff {T} (f : T -> bool) l x r : filter f l = x :: r <->
  exists p q, l = p ++ x :: q /\ Forall (fun c => f c <> true) p /\ f x = true /\ filter f q = r.
Proof.
  split.
  - induction l as [|y l IH]; cbn; [discriminate|]. destruct (f y) eqn:E; intros H.
    + injection H as -> <-. exists [], l. repeat split; auto.
    + destruct (IH H) as (p & q & -> & A & B & C). exists (y :: p), q. repeat split; auto. constructor; [congruence|exact A].
  - intros (p & q & -> & A & B & <-). rewrite filter_app, (proj2 (filter_none f p) A). cbn. rewrite B. reflexivity.
Qed.
Lemma no_die l : Forall (fun c => is_die c <> true) l <-> Forall (fun c => ~ die_digit c) l.
Proof. split; apply Forall_impl; intros c H G; apply H, is_die_digit, G. Qed.
Lemma dice : forall s,
  (forall a b, get_dice s = Ok (a, b) <->
     exists p x q y r, s = p ++ x :: q ++ y :: r /\ die_digit x /\ die_digit y /\
       Forall (fun c => ~ die_digit c) p /\ Forall (fun c => ~ die_digit c) q /\ Forall (fun c => ~ die_digit c) r /\
       a = code x - 48 /\ b = code y - 48) /\
  (forall e, get_dice s = Exc e -> e = ValueError) /\ (forall a b, get_dice s = Ok (a, b) -> 1 <= a <= 6 /\ 1 <= b <= 6).
Proof.
  intros s.
  assert (K : forall a b, get_dice s = Ok (a, b) <->
     exists p x q y r, s = p ++ x :: q ++ y :: r /\ die_digit x /\ die_digit y /\
       Forall (fun c => ~ die_digit c) p /\ Forall (fun c => ~ die_digit c) q /\ Forall (fun c => ~ die_digit c) r /\
       a = code x - 48 /\ b = code y - 48).
  { intros a b. unfold get_dice. split.
    - destruct (filter is_die s) as [|x [|y [|]]] eqn:E; try discriminate.
      apply filter_cons_iff in E as (p & t & -> & A & B & E). apply filter_cons_iff in E as (q & r & -> & C & D & E).
      rewrite (die_int x B), (die_int y D). cbn [bind]. intros H. injection H as <- <-. exists p, x, q, y, r.
      apply filter_none in E. rewrite <- !no_die, <- !is_die_digit. repeat split; assumption.
    - intros (p & x & q & y & r & -> & X & Y & A & B & C & -> & ->). rewrite <- no_die in A, B, C. rewrite <- is_die_digit in X, Y.
      rewrite filter_app. cbn [filter]. rewrite X, filter_app. cbn [filter]. rewrite Y.
      rewrite (proj2 (filter_none is_die p) A), (proj2 (filter_none is_die q) B), (proj2 (filter_none is_die r) C). cbn [app].
      rewrite (die_int x X), (die_int y Y). reflexivity. }
  split; [exact K|]. split.
  - intros e. unfold get_dice. destruct (filter is_die s) as [|x [|y [|]]] eqn:E; try congruence.
    assert (In x (filter is_die s)) as Ix by (rewrite E; left; reflexivity). assert (In y (filter is_die s)) as Iy by (rewrite E; right; left; reflexivity).
    apply filter_In in Ix as [_ Ix]. apply filter_In in Iy as [_ Iy]. rewrite (die_int x Ix), (die_int y Iy). discriminate.
  - intros a b H. apply K in H as (p & x & q & y & r & _ & X & Y & _ & _ & _ & -> & ->). unfold die_digit in *. lia.
Qed.

(* C77 *)
Lemma in_name_char c : in_name c = true <-> name_char c.
Proof.
  unfold in_name, name_char, code. rewrite !orb_true_iff, !andb_true_iff, !Nat.leb_le, !Nat.eqb_eq.
  assert (E : forall d, c = d <-> nat_of_ascii c = nat_of_ascii d).
  { intros d. split; [intros ->; reflexivity|]. intros H. rewrite <- (ascii_nat_embedding c), H. apply ascii_nat_embedding. }
  rewrite (E "_"%char), (E "<"%char), (E ">"%char). change (nat_of_ascii "_") with 95%nat. change (nat_of_ascii "<") with 60%nat. change (nat_of_ascii ">") with 62%nat. lia.
Qed.
Lemma takewhile_spec f s : exists r, s = takewhile f s ++ r /\ Forall (fun c => f c = true) (takewhile f s) /\ (match r with [] => True | c :: _ => f c = false end).
Proof.
  induction s as [|c s (r & E & A & B)]; cbn; [exists []; auto|]. destruct (f c) eqn:F.
  - exists r. cbn. rewrite <- E. auto.
  - exists (c :: s). auto.
Qed.
Lemma takewhile_uniq f n : forall r, Forall (fun c => f c = true) n -> (match r with [] => True | c :: _ => f c = false end) -> takewhile f (n ++ r) = n.
Proof.
  induction n as [|c n IH]; intros r A B; cbn.
  - destruct r as [|c r]; [reflexivity|]. cbn. rewrite B. reflexivity.
  - inversion A; subst. rewrite H1. f_equal. apply IH; assumption.
Qed.
Lemma name_of : forall s,
  (forall n, get_name s = Some n <-> exists r, s = n ++ r /\ n <> [] /\ Forall name_char n /\ (forall c r', r = c :: r' -> ~ name_char c)) /\
  (get_name s = None <-> forall c r, s = c :: r -> ~ name_char c).
Proof.
  intros s. destruct (takewhile_spec in_name s) as (r & E & A & B). split.
  - intros n. unfold get_name. split.
    + intros H. assert (takewhile in_name s = n /\ n <> []) as [T N].
      { destruct (takewhile in_name s); [discriminate|]. injection H as <-. split; [reflexivity|discriminate]. }
      exists r. rewrite T in *. split; [exact E|]. split; [exact N|]. split; [eapply Forall_impl; [|exact A]; intros c Hc; apply in_name_char, Hc|].
      intros c r' -> F. apply in_name_char in F. congruence.
    + intros (r0 & -> & N & F & G). rewrite takewhile_uniq; [destruct n; [contradiction|reflexivity]|eapply Forall_impl; [|exact F]; intros c Hc; apply in_name_char, Hc|].
      destruct r0 as [|c r0]; [exact I|]. destruct (in_name c) eqn:Q; [|reflexivity]. exfalso. apply (G c r0 eq_refl), in_name_char, Q.
  - unfold get_name. split.
    + intros H c r0 -> F. apply in_name_char in F. cbn in H. rewrite F in H. discriminate.
    + intros H. destruct s as [|c s]; [reflexivity|]. cbn. destruct (in_name c) eqn:Q; [|reflexivity]. exfalso. apply (H c s eq_refl), in_name_char, Q.
Qed.

(* C78 *)
Lemma extractors_refuted :
  (forall s, get_taker_name s = Ok None) /\ (forall s who, get_move s who = Exc NameError) /\ (forall s, get_score s = Exc TypeError).
Proof. split; [|split; reflexivity]. intros s. unfold get_taker_name. destruct (get_name s); reflexivity. Qed.

(* C79 *)
Lemma is_num_digit c : is_num c = true <-> dec_digit c.
Proof. unfold is_num, dec_digit, digit. rewrite andb_true_iff, !Nat.leb_le. unfold nat_of_ascii. lia. Qed.
Lemma not_num_digit c : is_num c = false <-> ~ dec_digit c.
Proof. rewrite <- is_num_digit. destruct (is_num c); split; congruence. Qed.
Lemma numbers_skip a : forall s, no_digit a -> numbers (a ++ s) = numbers s.
Proof. induction a as [|c a IH]; intros s H; [reflexivity|]. inversion H; subst. cbn. apply not_num_digit in H2. rewrite H2. apply IH. assumption. Qed.
Lemma numbers_run x : forall s, numeral x -> stops s -> numbers (x ++ s) = x :: numbers s.
Proof.
  induction x as [|c x IH]; intros s [N F] S; [contradiction|]. inversion F as [|? ? Fc Fx]; subst. apply is_num_digit in Fc. cbn [app numbers]. rewrite Fc.
  destruct x as [|d x].
  - cbn [app]. destruct s as [|d s]; [reflexivity|]. specialize (S d s eq_refl). apply not_num_digit in S. rewrite S. reflexivity.
  - assert (Q : is_num d = true) by (inversion Fx; apply is_num_digit; assumption). cbn [app] in *. rewrite Q.
    rewrite (IH s); [reflexivity|split; [discriminate|exact Fx]|exact S].
Qed.
Lemma numbers_nil s : numbers s = [] <-> no_digit s.
Proof.
  induction s as [|c s IH]; [split; constructor|]. cbn. destruct (is_num c) eqn:E.
  - split; intros H.
    + exfalso. destruct s as [|d s]; [discriminate|]. destruct (is_num d); [|discriminate]. destruct (numbers (d :: s)); discriminate.
    + exfalso. inversion H; subst. apply H2, is_num_digit, E.
  - rewrite IH. split; [intros H; constructor; [apply not_num_digit, E|exact H]|intros H; inversion H; assumption].
Qed.
Lemma numbers_cons s x l : numbers s = x :: l <-> exists a r, s = a ++ x ++ r /\ no_digit a /\ numeral x /\ stops r /\ numbers r = l.
Proof.
  split.
  - revert x l. induction s as [|c s IH]; intros x l H; [discriminate|]. cbn [numbers] in H. destruct (is_num c) eqn:E.
    + apply is_num_digit in E as D. destruct s as [|d s].
      * injection H as <- <-. exists [], []. repeat split; auto; try constructor; try discriminate; auto.
      * destruct (is_num d) eqn:Ed.
        -- destruct (numbers (d :: s)) as [|h t] eqn:Q.
           { apply numbers_nil in Q. inversion Q; subst. exfalso. apply H2, is_num_digit, Ed. }
           injection H as <- <-. destruct (IH h t eq_refl) as (a & r & Es & A & [N F] & S & R).
           assert (a = []) as ->.
           { destruct a as [|z a]; [reflexivity|]. injection Es as <- _. inversion A; subst. exfalso. apply H1, is_num_digit, Ed. }
           exists [], r. cbn [app] in *. rewrite Es. repeat split; auto; try constructor; auto; discriminate.
        -- injection H as <- <-. exists [], (d :: s). repeat split; auto; try constructor; auto; try discriminate.
           intros ? ? Q. injection Q as <- <-. apply not_num_digit, Ed.
    + destruct (IH x l H) as (a & r & -> & A & B & C). exists (c :: a), r. split; [reflexivity|]. split; [constructor; [apply not_num_digit, E|exact A]|].
      split; assumption.
  - intros (a & r & -> & A & B & S & <-). rewrite numbers_skip by exact A. apply numbers_run; assumption.
Qed.
Lemma numeral_int x : numeral x -> py_int x = Ok (horner x).
Proof.
  intros [N F]. apply py_int_denotes. exists [], x, []. split; [constructor|]. split; [constructor|]. split; [exact N|]. split; [exact F|].
  left. rewrite app_nil_r. split; reflexivity.
Qed.
Lemma scores : forall s,
  (forall a b c, get_match_scores s = Ok (a, b, c) <->
     exists p x q y r z t, s = p ++ x ++ q ++ y ++ r ++ z ++ t /\ numeral x /\ numeral y /\ numeral z /\
       no_digit p /\ no_digit q /\ no_digit r /\ no_digit t /\ q <> [] /\ r <> [] /\
       a = horner x /\ b = horner y /\ c = horner z) /\
  (forall e, get_match_scores s = Exc e -> e = ValueError) /\
  (forall a, get_resign_score s = Ok a <-> exists p x t, s = p ++ x ++ t /\ numeral x /\ no_digit p /\ stops t /\ a = horner x) /\
  (forall e, get_resign_score s = Exc e -> e = IndexError /\ no_digit s).
Proof.
  assert (Gap : forall q y s, no_digit q -> q <> [] -> stops (q ++ y ++ s)).
  { intros q y s H N c r E. destruct q as [|d q]; [contradiction|]. injection E as -> _. inversion H; assumption. }
  assert (St : forall s x l, numbers s = x :: l -> stops s -> exists a r, s = a ++ x ++ r /\ no_digit a /\ a <> [] /\ numeral x /\ stops r /\ numbers r = l).
  { intros s x l H S. apply numbers_cons in H as (a & r & -> & A & B & C & D). exists a, r. repeat split; auto; try apply B.
    intros ->. destruct B as [N F]. destruct x as [|c x]; [contradiction|]. apply (S c (x ++ r) eq_refl). inversion F; assumption. }
  intros s. split; [|split; [|split]].
  - intros a b c. unfold get_match_scores. split.
    + destruct (numbers s) as [|x [|y [|z [|]]]] eqn:E; try discriminate. apply numbers_cons in E as (p & s1 & -> & P & X & S1 & E).
      apply St in E as (q & s2 & -> & Q & Q' & Y & S2 & E); [|exact S1]. apply St in E as (r & t & -> & R & R' & Zz & S3 & E); [|exact S2].
      apply numbers_nil in E. rewrite !numeral_int by assumption. cbn [bind]. intros H. injection H as <- <- <-.
      exists p, x, q, y, r, z, t. repeat split; auto; try apply X; try apply Y; try apply Zz.
    + intros (p & x & q & y & r & z & t & -> & X & Y & Zz & P & Q & R & T & Q' & R' & -> & -> & ->).
      rewrite numbers_skip by exact P. rewrite numbers_run by (auto; apply Gap; assumption). rewrite numbers_skip by exact Q.
      rewrite numbers_run by (auto; apply Gap; assumption). rewrite numbers_skip by exact R. rewrite numbers_run; [|exact Zz|].
      2:{ intros d w ->. inversion T; assumption. }
      rewrite (proj2 (numbers_nil t) T), !numeral_int by assumption. reflexivity.
  - intros e. unfold get_match_scores. destruct (numbers s) as [|x [|y [|z [|]]]] eqn:E; try congruence.
    apply numbers_cons in E as (p & s1 & -> & P & X & S1 & E).
    apply numbers_cons in E as (q & s2 & -> & Q & Y & S2 & E). apply numbers_cons in E as (r & t & -> & R & Zz & S3 & E).
    rewrite !numeral_int by assumption. discriminate.
  - intros a. unfold get_resign_score. split.
    + destruct (numbers s) as [|x l] eqn:E; [discriminate|]. apply numbers_cons in E as (p & t & -> & P & X & S & _). rewrite numeral_int by exact X.
      intros H. injection H as <-. exists p, x, t. auto.
    + intros (p & x & t & -> & X & P & S & ->). rewrite numbers_skip by exact P. rewrite numbers_run by assumption. apply numeral_int, X.
  - intros e. unfold get_resign_score. destruct (numbers s) as [|x l] eqn:E.
    + intros H. injection H as <-. split; [reflexivity|]. apply numbers_nil, E.
    + apply numbers_cons in E as (p & t & -> & P & X & S & _). rewrite numeral_int by exact X. discriminate.
Qed.
