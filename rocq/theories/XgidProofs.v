(* Lemmas for C39-C41 and C74-C76 *)
From Verif Require Import Py PyFacts UtilModel UtilSpec UtilProofs BoardModel BoardSpec XgidModel XgidSpec.

(* ---------- the position field ---------- *)
Lemma all_chars (P : ascii -> bool) : forallb P (map ascii_of_nat (seq 0 256)) = true -> forall c, P c = true.
Proof.
  intros H c. rewrite forallb_forall in H. apply H. rewrite <- (ascii_nat_embedding c). apply in_map, in_seq.
  pose proof (nat_ascii_bounded c). lia.
Qed.
Lemma conv_him_lower c : conv_him c = lower c.
Proof. apply Z.eqb_eq. revert c. apply all_chars. vm_compute. reflexivity. Qed.
Lemma conv_you_upper c : conv_you c = upper c.
Proof. apply Z.eqb_eq. revert c. apply all_chars. vm_compute. reflexivity. Qed.
Lemma nth_skip1 {A} (l : list A) k d : nth k (skipn 1 l) d = nth (k + 1) l d.
Proof. destruct l; [destruct k; reflexivity|]. rewrite Nat.add_1_r. reflexivity. Qed.
Lemma nth_firstn {A} (l : list A) n k d : (k < n)%nat -> nth k (firstn n l) d = nth k l d.
Proof. revert n k; induction l as [|x l IH]; intros [|n] [|k] H; try lia; try reflexivity. cbn. apply IH. lia. Qed.
Lemma position_reads s : List.length s = 26%nat -> exists p, decode_position s = Ok p /\ reads_position s p.
Proof.
  intros H. unfold decode_position, zlen. rewrite H. change (Z.of_nat 26 =? 26) with true. cbn [negb]. eexists. split; [reflexivity|].
  unfold reads_position; cbn [fst snd]. rewrite !map_length, rev_length, !firstn_length, skipn_length, H. split; [reflexivity|]. split; [reflexivity|].
  intros k Hk. split.
  - rewrite nth_indep with (d' := conv_him "-"%char) by (rewrite map_length, rev_length, firstn_length, H; lia).
    rewrite map_nth, conv_him_lower. f_equal. rewrite rev_nth by (rewrite firstn_length, H; lia). rewrite firstn_length, H.
    rewrite nth_firstn by lia. f_equal; lia.
  - rewrite nth_indep with (d' := conv_you "-"%char) by (rewrite map_length, firstn_length, skipn_length, H; lia).
    rewrite map_nth, conv_you_upper. f_equal. rewrite nth_firstn by lia. apply nth_skip1.
Qed.
Lemma reads_position_fun s p q : reads_position s p -> reads_position s q -> p = q.
Proof.
  intros (A & B & C) (A' & B' & C'). destruct p as [p1 p2], q as [q1 q2]; cbn [fst snd] in *. f_equal.
  - apply list_eq_nth with (d := 0); [congruence|]. intros k Hk. rewrite (proj1 (C k ltac:(lia))), (proj1 (C' k ltac:(lia))). reflexivity.
  - apply list_eq_nth with (d := 0); [congruence|]. intros k Hk. rewrite (proj2 (C k ltac:(lia))), (proj2 (C' k ltac:(lia))). reflexivity.
Qed.
(* C39 *)
Lemma xgid_position : forall s,
  (List.length s = 26%nat -> exists p, decode_position s = Ok p /\ reads_position s p) /\
  (List.length s <> 26%nat -> decode_position s = Exc DecodeError).
Proof.
  intros s. split; [apply position_reads|]. intros H. unfold decode_position. destruct (Z.eqb_spec (zlen s) 26) as [E|E]; [|reflexivity].
  unfold zlen in E. lia.
Qed.

(* ---------- splitting ---------- *)
Lemma split_nonnil c s : split_on c s <> [].
Proof. destruct s as [|x s]; cbn; [discriminate|]. destruct (Ascii.eqb x c); [discriminate|]. destruct (split_on c s); discriminate. Qed.
Lemma join_split c s : join c (split_on c s) = s.
Proof.
  induction s as [|x s IH]; [reflexivity|]. cbn [split_on]. destruct (Ascii.eqb_spec x c) as [->|N].
  - cbn [join]. pose proof (split_nonnil c s). destruct (split_on c s) eqn:E; [contradiction|]. rewrite IH. reflexivity.
  - pose proof (split_nonnil c s). destruct (split_on c s) as [|h t] eqn:E; [contradiction|]. cbn [join] in *. destruct t; cbn [app]; rewrite <- IH; reflexivity.
Qed.
Lemma split_clean c s : Forall (fun f => ~ In c f) (split_on c s).
Proof.
  induction s as [|x s IH]; [repeat constructor; intros []|]. cbn [split_on]. destruct (Ascii.eqb_spec x c) as [->|N].
  - constructor; [intros []|exact IH].
  - destruct (split_on c s) as [|h t]; [repeat constructor; intros [H|[]]; contradiction|]. inversion IH; subst. constructor; [|assumption].
    intros [H|H]; contradiction.
Qed.
Lemma split_clean_app c f s : ~ In c f -> split_on c (f ++ c :: s) = f :: split_on c s.
Proof.
  induction f as [|x f IH]; intros H; cbn [app split_on]; [rewrite Ascii.eqb_refl; reflexivity|].
  destruct (Ascii.eqb_spec x c) as [->|N]; [exfalso; apply H; left; reflexivity|]. rewrite IH; [reflexivity|]. intros G; apply H; right; exact G.
Qed.
Lemma split_clean_one c f : ~ In c f -> split_on c f = [f].
Proof.
  induction f as [|x f IH]; intros H; [reflexivity|]. cbn [split_on]. destruct (Ascii.eqb_spec x c) as [->|N]; [exfalso; apply H; left; reflexivity|].
  rewrite IH; [reflexivity|]. intros G; apply H; right; exact G.
Qed.
Lemma split_join c fs : fs <> [] -> Forall (fun f => ~ In c f) fs -> split_on c (join c fs) = fs.
Proof.
  intros N H. induction H as [|f fs Hf Hfs IH]; [contradiction|]. destruct fs as [|g fs].
  - cbn [join]. apply split_clean_one, Hf.
  - cbn [join]. rewrite split_clean_app by exact Hf. f_equal. apply IH. discriminate.
Qed.

(* ---------- the decoder ---------- *)
Lemma xint_denotes s v : xint s = Ok v <-> denotes s v.
Proof. unfold xint. rewrite <- py_int_denotes. destruct (py_int s); split; intros; congruence. Qed.
Lemma xint_err s e : xint s = Exc e -> e = DecodeError.
Proof. unfold xint. destruct (py_int s); congruence. Qed.
Definition seat_of (v : Z) : option Z :=
  if v =? XGID_PLAYER1 then Some YOU else if v =? XGID_PLAYER2 then Some HIM else if v =? XGID_CENTER then Some CENTER else None.

Lemma decode_reads m s x : reads s x -> x_accepted x -> exists m', decode m s = (m', Ok tt) /\ x_board x m m'.
Proof.
  intros (cube & owner & turn & d1 & d2 & your & his & flag & len & max & (S & _ & C) & D1 & D2 & D3 & D4 & D5 & D6 & D7 & D8 & D9)
    (P & O & T & F & ML).
  destruct (position_reads (x_pos x) P) as (p & Ep & Rp).
  assert (N : s <> []).
  { subst s. destruct (x_pos x); discriminate. }
  unfold decode. destruct s as [|c0 s0] eqn:Es; [contradiction|]. rewrite S. rewrite split_join by (discriminate || exact C).
  rewrite Ep. rewrite <- xint_denotes in D1, D2, D3, D4, D5, D8, D9. rewrite <- py_int_denotes in D6, D7.
  rewrite D1, D2, D3, D4, D5, D6, D7, D8, D9.
  destruct x as [pos cu ow tu r1 r2 ys hs fl le]; cbn [x_pos x_cube x_owner x_turn x_r1 x_r2 x_your x_his x_flag x_len] in *.
  unfold XGID_PLAYER1, XGID_PLAYER2, XGID_CENTER.
  assert ((fl =? 0) || (fl =? 1) = true) as -> by (destruct F; subst; reflexivity). cbn [negb].
  destruct m. unfold x_board. cbn [x_pos x_cube x_owner x_turn x_r1 x_r2 x_your x_his x_flag x_len].
  destruct (Z.eqb_spec le 0) as [->|L0].
  - destruct O as [->|[->| ->]], T as [->| ->], F as [->| ->];
      (eexists; split; [reflexivity|]; repeat match goal with |- _ /\ _ => split end; try reflexivity; exact Rp).
  - destruct (Z.ltb_spec 0 le) as [L|L]; [|lia].
    destruct O as [->|[->| ->]], T as [->| ->], F as [->| ->];
      (eexists; split; [reflexivity|]; repeat match goal with |- _ /\ _ => split end; try reflexivity; exact Rp).
Qed.

Lemma decode_ok m s m' : decode m s = (m', Ok tt) -> exists x, reads s x /\ x_accepted x.
Proof.
  unfold decode. destruct s as [|c0 s0]; [discriminate|]. pose proof (split_clean ":"%char (c0 :: s0)) as C.
  pose proof (join_split ":"%char (c0 :: s0)) as J. set (s := c0 :: s0) in *. clearbody s.
  destruct (split_on ":"%char s) as [|f1 [|f2 [|f3 [|f4 [|f5 [|f6 [|f7 [|f8 [|f9 [|f10 [|]]]]]]]]]]]; try discriminate.
  destruct (decode_position f1) as [p|] eqn:E1; [|discriminate]. cbv zeta.
  destruct (xint f2) as [cu|] eqn:E2; [|discriminate]. destruct (xint f3) as [ow|] eqn:E3; [|discriminate].
  match goal with |- (match ?t with _ => _ end = _ -> _) => destruct t as [o|] eqn:Eo; [|discriminate] end.
  destruct (xint f4) as [tu|] eqn:E4; [|discriminate].
  match goal with |- (match ?t with _ => _ end = _ -> _) => destruct t as [w|] eqn:Ew; [|discriminate] end.
  destruct f5 as [|d1 [|d2 [|]]]; try discriminate.
  destruct (xint [d1]) as [r1|] eqn:Ed1; [|discriminate]. destruct (xint [d2]) as [r2|] eqn:Ed2; [|discriminate].
  destruct (py_int f7) as [h|] eqn:E7; [|discriminate]. destruct (py_int f6) as [y|] eqn:E6; [|discriminate].
  destruct (xint f8) as [cj|] eqn:E8; [|discriminate]. destruct ((cj =? 0) || (cj =? 1)) eqn:Ecj; [|discriminate]. cbn [negb].
  destruct (xint f9) as [ml|] eqn:E9; [|discriminate]. intros H.
  assert (ML : 0 <= ml).
  { destruct (Z.eqb_spec ml 0); [lia|]. destruct (Z.ltb_spec 0 ml); [lia|discriminate]. }
  exists (mkXg f1 cu ow tu r1 r2 y h cj ml). split.
  - exists f2, f3, f4, d1, d2, f6, f7, f8, f9, f10. cbn [x_pos x_cube x_owner x_turn x_r1 x_r2 x_your x_his x_flag x_len].
    split; [split; [symmetry; exact J|split; [reflexivity|exact C]]|].
    repeat match goal with |- _ /\ _ => split end; first [apply xint_denotes; assumption|apply py_int_denotes; assumption].
  - unfold x_accepted; cbn [x_pos x_cube x_owner x_turn x_r1 x_r2 x_your x_his x_flag x_len].
    apply orb_true_iff in Ecj. rewrite !Z.eqb_eq in Ecj. unfold XGID_PLAYER1, XGID_PLAYER2, XGID_CENTER in *.
    split; [|split; [|split; [|split]]]; try assumption.
    + destruct (xgid_position f1) as [_ G]. destruct (Nat.eq_dec (List.length f1) 26); [assumption|]. rewrite G in E1 by assumption. discriminate.
    + destruct (Z.eqb_spec ow (-1)); [lia|]. destruct (Z.eqb_spec ow 1); [lia|]. destruct (Z.eqb_spec ow 0); [lia|discriminate].
    + destruct (Z.eqb_spec tu (-1)); [lia|]. destruct (Z.eqb_spec tu 1); [lia|discriminate].
Qed.

(* what a failure leaves behind *)
Lemma py_int_not s e : py_int s = Exc e -> not_numeral s.
Proof. intros H z D. rewrite <- py_int_denotes in D. congruence. Qed.

Ltac brk := repeat match goal with
  | |- (match ?t with _ => _ end = _ -> _) => destruct t eqn:?
  | |- ((_, Exc _) = _ -> _) => let H := fresh in intros H; injection H as <- <-
  | |- ((_, Ok _) = _ -> _) => intros; discriminate
  end.
Lemma decode_fail m s m' e : decode m s = (m', Exc e) ->
  (e = DecodeError \/ e = InconsistentData \/ e = TypeError) /\
  changes_only [FPosition; FCube; FOwner; FOnAction; FRolled; FScore] m m' /\
  ((forall fs, ten_fields s fs -> List.length (nth 0 fs []) <> 26%nat) -> e = DecodeError /\ m' = m) /\
  (e = TypeError -> exists fs, ten_fields s fs /\ (not_numeral (nth 5 fs []) \/ not_numeral (nth 6 fs []))) /\
  (forall x, reads s x -> List.length (x_pos x) = 26%nat -> e = InconsistentData /\ ~ x_accepted x).
Proof.
  intros H.
  assert (A5 : forall x, reads s x -> ~ x_accepted x).
  { intros x R A. destruct (decode_reads m s x R A) as (m2 & E & _). congruence. }
  revert H. unfold decode. destruct s as [|c0 s0].
  { intros H. injection H as <- <-. split; [left; reflexivity|]. split; [intros f _; destruct f; reflexivity|]. split; [intros _; split; reflexivity|].
    split; [discriminate|]. intros x (? & ? & ? & ? & ? & ? & ? & ? & ? & ? & (S & _) & _). destruct (x_pos x); discriminate. }
  pose proof (split_clean ":"%char (c0 :: s0)) as C. pose proof (join_split ":"%char (c0 :: s0)) as J. set (s := c0 :: s0) in *. clearbody s.
  assert (U : forall fs, ten_fields s fs -> split_on ":"%char s = fs).
  { intros fs (S & Ln & Cf). rewrite S. apply split_join; [destruct fs; discriminate|exact Cf]. }
  destruct (Nat.eq_dec (List.length (split_on ":"%char s)) 10) as [T|T].
  2:{ intros H. assert (G : (m, @Exc unit DecodeError) = (m', Exc e)).
      { destruct (split_on ":"%char s) as [|f1 [|f2 [|f3 [|f4 [|f5 [|f6 [|f7 [|f8 [|f9 [|f10 [|]]]]]]]]]]]; try exact H. exfalso. apply T. reflexivity. }
      injection G as <- <-. split; [left; reflexivity|]. split; [intros f _; destruct f; reflexivity|]. split; [intros _; split; reflexivity|].
      split; [discriminate|]. intros x (? & ? & ? & ? & ? & ? & ? & ? & ? & ? & (S & Ln & Cf) & _). exfalso. apply T. rewrite (U _ (conj S (conj Ln Cf))). reflexivity. }
  assert (TF : ten_fields s (split_on ":"%char s)) by (split; [symmetry; exact J|split; [exact T|exact C]]).
  destruct (split_on ":"%char s) as [|f1 [|f2 [|f3 [|f4 [|f5 [|f6 [|f7 [|f8 [|f9 [|f10 [|]]]]]]]]]]]; try discriminate T. clear T.
  assert (X : forall x, reads s x -> exists d1 d2, f5 = [d1; d2] /\ f1 = x_pos x /\ xint f2 = Ok (x_cube x) /\ xint f3 = Ok (x_owner x) /\ xint f4 = Ok (x_turn x) /\ xint [d1] = Ok (x_r1 x) /\
     xint [d2] = Ok (x_r2 x) /\ py_int f6 = Ok (x_your x) /\ py_int f7 = Ok (x_his x) /\ xint f8 = Ok (x_flag x) /\ xint f9 = Ok (x_len x)).
  { intros x (g2 & g3 & g4 & d1 & d2 & g6 & g7 & g8 & g9 & g10 & TF' & D). pose proof (U _ TF') as E. injection E as -> -> -> -> -> -> -> -> -> ->.
    exists d1, d2. rewrite !xint_denotes, !py_int_denotes. split; [reflexivity|]. split; [reflexivity|]. exact D. }
  assert (K0 : forall mm, changes_only [FPosition; FCube; FOwner; FOnAction; FRolled; FScore] m mm -> True) by trivial. clear K0.
  destruct (decode_position f1) as [p|e1] eqn:E1.
  2:{ intros H. injection H as <- <-. destruct (Nat.eq_dec (List.length f1) 26) as [E26|E26].
      { destruct (position_reads f1 E26) as (p & Ep & _). congruence. }
      destruct (xgid_position f1) as [_ G]. rewrite G in E1 by exact E26. injection E1 as <-.
      split; [left; reflexivity|]. split; [intros f _; destruct f; reflexivity|]. split; [intros _; split; reflexivity|]. split; [discriminate|].
      intros x R P. destruct (X x R) as (? & ? & _ & Q & _). congruence. }
  assert (P26 : List.length f1 = 26%nat).
  { destruct (Nat.eq_dec (List.length f1) 26); [assumption|]. destruct (xgid_position f1) as [_ G]. rewrite G in E1 by assumption. discriminate. }
  cbv zeta.
  assert (Fin : forall ee, (ee = DecodeError \/ ee = InconsistentData \/ (ee = TypeError /\ (not_numeral f6 \/ not_numeral f7))) ->
     (ee <> InconsistentData -> forall x, ~ reads s x) -> forall mm,
     changes_only [FPosition; FCube; FOwner; FOnAction; FRolled; FScore] m mm ->
     (ee = DecodeError \/ ee = InconsistentData \/ ee = TypeError) /\
     changes_only [FPosition; FCube; FOwner; FOnAction; FRolled; FScore] m mm /\
     ((forall fs, ten_fields s fs -> List.length (nth 0 fs []) <> 26%nat) -> ee = DecodeError /\ mm = m) /\
     (ee = TypeError -> exists fs, ten_fields s fs /\ (not_numeral (nth 5 fs []) \/ not_numeral (nth 6 fs []))) /\
     (forall x, reads s x -> List.length (x_pos x) = 26%nat -> ee = InconsistentData /\ ~ x_accepted x)).
  { intros ee A B mm Cm. split; [tauto|]. split; [exact Cm|]. split; [intros G; exfalso; exact (G _ TF P26)|].
    split; [intros ->; eexists; split; [exact TF|]; cbn [nth]; destruct A as [A|[A|[_ A]]]; try discriminate; exact A|].
    intros x R _. split; [|exact (A5 x R)]. destruct A as [A|[A|[A _]]]; [|exact A|]; exfalso; (apply (B ltac:(rewrite A; discriminate) x R)). }
  Ltac done Fin X := apply Fin; [|intros NI x R; try (apply NI; reflexivity); destruct (X x R) as (? & ? & ? & ? & ? & ? & ? & ? & ? & ? & ? & ? & ?); congruence|
     intros f Hf; destruct f; cbn; try reflexivity; exfalso; apply Hf; cbn; tauto].
  destruct (xint f2) as [cu|] eqn:E2; [|intros H; injection H as <- <-; apply xint_err in E2 as Q; subst; done Fin X; left; reflexivity].
  destruct (xint f3) as [ow|] eqn:E3; [|intros H; injection H as <- <-; apply xint_err in E3 as Q; subst; done Fin X; left; reflexivity].
  match goal with |- (match ?t with _ => _ end = _ -> _) => destruct t as [o|] eqn:Eo; [|intros H; injection H as <- <-; done Fin X; right; left; reflexivity] end.
  destruct (xint f4) as [tu|] eqn:E4; [|intros H; injection H as <- <-; apply xint_err in E4 as Q; subst; done Fin X; left; reflexivity].
  match goal with |- (match ?t with _ => _ end = _ -> _) => destruct t as [w|] eqn:Ew; [|intros H; injection H as <- <-; done Fin X; right; left; reflexivity] end.
  destruct f5 as [|d1 [|d2 [|]]]; try (intros H; injection H as <- <-; done Fin X; right; left; reflexivity).
  assert (W : forall e0, (xint [d1] = Exc e0 \/ xint [d2] = Exc e0) -> forall x, ~ reads s x).
  { intros e0 W x R. destruct (X x R) as (? & ? & Q & ? & ? & ? & ? & ? & ? & ? & ? & ? & ?). injection Q as <- <-. destruct W; congruence. }
  destruct (xint [d1]) as [r1|] eqn:Ed1.
  2:{ intros H; injection H as <- <-. apply Fin; [left; reflexivity|intros _; eapply W; left; reflexivity|intros f Hf; destruct f; cbn; try reflexivity; exfalso; apply Hf; cbn; tauto]. }
  destruct (xint [d2]) as [r2|] eqn:Ed2.
  2:{ intros H; injection H as <- <-. apply Fin; [left; reflexivity|intros _; eapply W; right; reflexivity|intros f Hf; destruct f; cbn; try reflexivity; exfalso; apply Hf; cbn; tauto]. }
  destruct (py_int f7) as [h|] eqn:E7; [|intros H; injection H as <- <-; done Fin X; right; right; split; [reflexivity|right; eapply py_int_not; eassumption]].
  destruct (py_int f6) as [y|] eqn:E6; [|intros H; injection H as <- <-; done Fin X; right; right; split; [reflexivity|left; eapply py_int_not; eassumption]].
  destruct (xint f8) as [cj|] eqn:E8; [|intros H; injection H as <- <-; apply xint_err in E8 as Q; subst; done Fin X; left; reflexivity].
  destruct ((cj =? 0) || (cj =? 1)) eqn:Ecj; cbn [negb]; [|intros H; injection H as <- <-; done Fin X; right; left; reflexivity].
  destruct (xint f9) as [ml|] eqn:E9; [|intros H; injection H as <- <-; apply xint_err in E9 as Q; subst; done Fin X; left; reflexivity].
  destruct (ml =? 0); [intros H; discriminate|]. destruct (0 <? ml); [intros H; discriminate|].
  intros H; injection H as <- <-; done Fin X; right; left; reflexivity.
Qed.

(* C40 *)
Lemma xgid_decode : forall m s,
  (forall x, reads s x -> x_accepted x -> exists m', decode m s = (m', Ok tt) /\ x_board x m m') /\
  (forall m', decode m s = (m', Ok tt) -> exists x, reads s x /\ x_accepted x /\ x_board x m m') /\
  (forall m' e, decode m s = (m', Exc e) ->
     (e = DecodeError \/ e = InconsistentData \/ e = TypeError) /\
     ((forall fs, ten_fields s fs -> List.length (nth 0 fs []) <> 26%nat) -> e = DecodeError) /\
     (e = TypeError -> exists fs, ten_fields s fs /\ (not_numeral (nth 5 fs []) \/ not_numeral (nth 6 fs []))) /\
     (forall x, reads s x -> List.length (x_pos x) = 26%nat -> e = InconsistentData /\ ~ x_accepted x)).
Proof.
  intros m s. split; [intros x R A; apply decode_reads; assumption|]. split.
  - intros m' H. destruct (decode_ok m s m' H) as (x & R & A). exists x. split; [exact R|]. split; [exact A|].
    destruct (decode_reads m s x R A) as (m2 & E & B). congruence.
  - intros m' e H. destruct (decode_fail m s m' e H) as (A & _ & B & C & D). split; [exact A|]. split; [intros G; apply B, G|]. split; assumption.
Qed.
Definition start26 : string := "-b----E-C---eE---c-e----B-".
Lemma xgid_only_decode_error_refuted :
  (exists s, forall m, snd (decode m s) = Exc TypeError) /\ (exists s, forall m, snd (decode m s) = Exc InconsistentData).
Proof.
  split.
  - exists (L (start26 ++ ":0:0:1:00:x:0:0:0:10")). intros [p a b c d e f g h i j k]. vm_compute. reflexivity.
  - exists (L (start26 ++ ":0:2:1:00:0:0:0:0:10")). intros [p a b c d e f g h i j k]. vm_compute. reflexivity.
Qed.

(* C41, the XGID half *)
Lemma xgid_failure : forall m s m' e, decode m s = (m', Exc e) ->
  changes_only [FPosition; FCube; FOwner; FOnAction; FRolled; FScore] m m' /\
  ((forall fs, ten_fields s fs -> List.length (nth 0 fs []) <> 26%nat) -> m' = m).
Proof. intros m s m' e H. destruct (decode_fail m s m' e H) as (_ & A & B & _). split; [exact A|]. intros G. apply B, G. Qed.
Lemma xgid_failure_refuted : exists m s m', decode m s = (m', Exc DecodeError) /\ position m' <> position m.
Proof.
  exists default_board, (L "-------------------------A:x:0:1:00:0:0:0:0:10"). eexists. split; [vm_compute; reflexivity|]. vm_compute. discriminate.
Qed.

(* C74 *)
Lemma xgid_money_flag_refuted : forall m s x, reads s x -> List.length (x_pos x) = 26%nat -> x_len x = 0 ->
  x_flag x = 2 \/ x_flag x = 3 -> snd (decode m s) = Exc InconsistentData.
Proof.
  intros m s x R P _ F. destruct (decode m s) as [m' [[]|e]] eqn:E; cbn [snd].
  - exfalso. destruct (decode_ok m s m' E) as (y & Ry & (Py & _ & _ & Fy & _)).
    destruct R as (a1 & a2 & a3 & a4 & a5 & a6 & a7 & a8 & a9 & a10 & (S & _ & C) & _ & _ & _ & _ & _ & _ & _ & D & _).
    destruct Ry as (b1 & b2 & b3 & b4 & b5 & b6 & b7 & b8 & b9 & b10 & (S' & _ & C') & _ & _ & _ & _ & _ & _ & _ & D' & _).
    assert (Q : forall l, s = join colon l -> l <> [] -> Forall (fun f => ~ In colon f) l -> split_on colon s = l).
    { intros l -> Nl Cl. apply split_join; assumption. }
    pose proof (Q _ S ltac:(discriminate) C) as Q1. rewrite (Q _ S' ltac:(discriminate) C') in Q1. injection Q1. intros. subst.
    rewrite <- xint_denotes in D, D'. rewrite D in D'. injection D' as D'. lia.
  - destruct (decode_fail m s m' e E) as (_ & _ & _ & _ & G). destruct (G x R P) as [-> _]. reflexivity.
Qed.

(* C76 *)
Lemma xgid_history : forall s m1 m2 m1', decode m1 s = (m1', Ok tt) ->
  exists m2', decode m2 s = (m2', Ok tt) /\ changes_only [FDoubled; FResign] m1' m2' /\
    doubled m1' = doubled m1 /\ resign_offer m1' = resign_offer m1.
Proof.
  intros s m1 m2 m1' H. destruct (xgid_decode m1 s) as (_ & A & _). destruct (A m1' H) as (x & R & Acc & B).
  destruct (decode_reads m2 s x R Acc) as (m2' & E & B2). exists m2'. split; [exact E|].
  destruct B as (P & B1 & B3 & B4 & B5 & B6 & B7 & B8 & B9 & B10 & B11 & B12).
  destruct B2 as (P' & C1 & C3 & C4 & C5 & C6 & C7 & C8 & C9 & C10 & C11 & C12).
  split; [|split; assumption]. pose proof (reads_position_fun _ _ _ P P'). intros f Hf.
  destruct f; cbn; try congruence; exfalso; apply Hf; cbn; tauto.
Qed.
Lemma xgid_history_refuted : exists s m1 m2, snd (decode m1 s) = Ok tt /\ snd (decode m2 s) = Ok tt /\
  doubled (fst (decode m1 s)) <> doubled (fst (decode m2 s)) /\ resign_offer (fst (decode m1 s)) <> resign_offer (fst (decode m2 s)).
Proof.
  exists (L (start26 ++ ":0:0:1:00:0:0:0:5:10")), default_board, (set_doubled true (set_resign_offer 2 default_board)).
  vm_compute. repeat split; discriminate.
Qed.

(* C75 *)
Definition upto15 : list Z := zrange 1 16.
Lemma letter_facts n : 0 < n <= 15 -> lower (letter 96 n) = n /\ upper (letter 96 n) = 0 /\ upper (letter 64 n) = n /\ lower (letter 64 n) = 0 /\
  letter 96 n <> colon /\ letter 64 n <> colon.
Proof.
  intros H. assert (I : In n upto15) by (apply In_zrange; lia). cbv in I.
  repeat (destruct I as [<-|I]; [vm_compute; repeat split; discriminate|]). destruct I.
Qed.
Lemma count_range l k : Forall (fun n => 0 <= n <= 15) l -> 0 <= nth k l 0 <= 15.
Proof.
  intros H. destruct (Nat.lt_ge_cases k (List.length l)) as [G|G]; [|rewrite nth_overflow by exact G; lia].
  rewrite Forall_forall in H. apply H, nth_In, G.
Qed.
Lemma nth_x_text p k : (k < 26)%nat -> nth k (map (x_char p) (seq 0 26)) "-"%char = x_char p k.
Proof.
  intros H. rewrite nth_indep with (d' := x_char p 0%nat) by (rewrite map_length, seq_length; exact H). rewrite map_nth, seq_nth by exact H. reflexivity.
Qed.
Lemma x_text_position b : x_expressible b -> reads_position (map (x_char (position b)) (seq 0 26)) (position b).
Proof.
  intros ((L1 & L2) & (F1 & F2) & S & _). split; [exact L1|]. split; [exact L2|]. intros k Hk.
  rewrite !nth_x_text by lia. unfold x_char. split.
  - replace (24 - (24 - k))%nat with k by lia. pose proof (count_range _ k F1) as R1. pose proof (count_range _ (24 - k - 1) F2) as R2.
    destruct (Nat.leb_spec 1 (24 - k)) as [G|G]; cbn [andb].
    + specialize (S (24 - k - 1)%nat ltac:(lia)). replace (23 - (24 - k - 1))%nat with k in S by lia.
      destruct (Z.ltb_spec 0 (nth (24 - k - 1) (snd (position b)) 0)) as [P|P].
      * destruct (letter_facts (nth (24 - k - 1) (snd (position b)) 0) ltac:(lia)) as (_ & _ & _ & Q & _). rewrite Q. lia.
      * destruct (Nat.leb_spec (24 - k) 24); [|lia]. cbn [andb]. destruct (Z.ltb_spec 0 (nth k (fst (position b)) 0)) as [P'|P'].
        -- symmetry. apply letter_facts. lia.
        -- change (lower "-") with 0. lia.
    + destruct (Nat.leb_spec (24 - k) 24); [|lia]. cbn [andb]. destruct (Z.ltb_spec 0 (nth k (fst (position b)) 0)) as [P'|P'].
      * symmetry. apply letter_facts. lia.
      * change (lower "-") with 0. lia.
  - replace (k + 1 - 1)%nat with k by lia. pose proof (count_range _ k F2) as R2. pose proof (count_range _ (24 - (k + 1)) F1) as R1.
    destruct (Nat.leb_spec 1 (k + 1)); [|lia]. cbn [andb]. destruct (Z.ltb_spec 0 (nth k (snd (position b)) 0)) as [P|P].
    + symmetry. apply letter_facts. lia.
    + destruct (Nat.leb_spec (k + 1) 24); cbn [andb]; [|change (upper "-") with 0; lia].
      destruct (Z.ltb_spec 0 (nth (24 - (k + 1)) (fst (position b)) 0)) as [P'|P'].
      * destruct (letter_facts (nth (24 - (k + 1)) (fst (position b)) 0) ltac:(lia)) as (_ & Q & _). rewrite Q. lia.
      * change (upper "-") with 0. lia.
Qed.
Lemma x_text_clean b : x_expressible b -> ~ In colon (map (x_char (position b)) (seq 0 26)).
Proof.
  intros (_ & (F1 & F2) & _) I. apply in_map_iff in I as (k & E & _). unfold x_char in E.
  destruct ((1 <=? k)%nat && (0 <? nth (k - 1) (snd (position b)) 0)) eqn:T.
  - apply andb_true_iff in T as [_ T]. apply Z.ltb_lt in T. pose proof (count_range _ (k - 1) F2). revert E. apply letter_facts. lia.
  - destruct ((k <=? 24)%nat && (0 <? nth (24 - k) (fst (position b)) 0)) eqn:T2; [|discriminate].
    apply andb_true_iff in T2 as [_ T2]. apply Z.ltb_lt in T2. pose proof (count_range _ (24 - k) F1). revert E. apply letter_facts. lia.
Qed.
Lemma digits_clean u : ~ In colon (chars_of_uint u).
Proof. induction u; cbn; [intros []|..]; (intros [H|H]; [discriminate|contradiction]). Qed.
Lemma str_int_clean n : ~ In colon (py_str_int n).
Proof. unfold py_str_int. destruct (Z.to_int n); [apply digits_clean|]. intros [H|H]; [discriminate|]. revert H. apply digits_clean. Qed.
Lemma denotes_str n : denotes (py_str_int n) n.
Proof. apply py_int_denotes, py_int_str. Qed.
Lemma x_digit_facts n : 0 <= n <= 9 -> x_digit n <> colon /\ xint [x_digit n] = Ok n.
Proof.
  intros H. assert (I : In n (zrange 0 10)) by (apply In_zrange; lia). cbv in I.
  repeat (destruct I as [<-|I]; [vm_compute; split; [discriminate|reflexivity]|]). destruct I.
Qed.
Lemma x_text_reads b max : x_expressible b -> ~ In colon max ->
  reads (x_text b max) (mkXg (map (x_char (position b)) (seq 0 26)) (cube_in_logarithm b)
     (if cube_owner b =? 0 then -1 else if cube_owner b =? 1 then 1 else 0) (if on_action b =? 0 then -1 else 1)
     (fst (rolled b)) (snd (rolled b)) (snd (score b)) (fst (score b)) (if crawford b then 1 else 0) (match_length b)).
Proof.
  intros H M. pose proof (x_text_clean b H) as C0. destruct H as (_ & _ & _ & O & T & _ & (R1 & R2) & ML & CR & _).
  destruct (x_digit_facts _ R1) as (C1 & V1). destruct (x_digit_facts _ R2) as (C2 & V2).
  unfold reads. cbn [x_pos x_cube x_owner x_turn x_r1 x_r2 x_your x_his x_flag x_len].
  do 10 eexists. split; [split; [reflexivity|split; [reflexivity|]]|].
  - constructor; [exact C0|]. constructor; [apply str_int_clean|]. constructor; [unfold x_sign; destruct O as [->|[->| ->]]; intros I; repeat (destruct I as [I|I]; [discriminate|]); destruct I|].
    constructor; [unfold x_sign; destruct T as [->| ->]; intros I; repeat (destruct I as [I|I]; [discriminate|]); destruct I|].
    constructor; [intros [I|[I|[]]]; contradiction|]. constructor; [apply str_int_clean|]. constructor; [apply str_int_clean|].
    constructor; [destruct (crawford b); intros [I|[]]; discriminate|]. constructor; [apply str_int_clean|]. constructor; [exact M|constructor].
  - repeat match goal with |- _ /\ _ => split end; try apply denotes_str.
    + apply xint_denotes. destruct O as [->|[->| ->]]; reflexivity.
    + apply xint_denotes. destruct T as [->| ->]; reflexivity.
    + apply xint_denotes. exact V1.
    + apply xint_denotes. exact V2.
    + apply xint_denotes. destruct (crawford b); reflexivity.
Qed.
Lemma xgid_roundtrip : forall b max m, x_expressible b -> ~ In colon max ->
  decode m (x_text b max) = (set_doubled (doubled m) (set_resign_offer (resign_offer m) b), Ok tt).
Proof.
  intros b max m H M. pose proof (x_text_reads b max H M) as R. pose proof (x_text_position b H) as P.
  destruct H as ((L1 & L2) & (F1 & F2) & S & O & T & IA & (R1 & R2) & ML & CR & GS).
  destruct (decode_reads m _ _ R) as (m' & E & (P' & B1 & B3 & B4 & B5 & B6 & B7 & B8 & B9 & B10 & B11 & B12)).
  - unfold x_accepted. cbn [x_pos x_cube x_owner x_turn x_r1 x_r2 x_your x_his x_flag x_len]. rewrite map_length, seq_length. split; [reflexivity|].
    split; [destruct O as [->|[->| ->]]; cbn; auto|]. split; [destruct T as [->| ->]; cbn; auto|]. split; [destruct (crawford b); auto|exact ML].
  - rewrite E. f_equal. cbn [x_pos x_cube x_owner x_turn x_r1 x_r2 x_your x_his x_flag x_len] in *.
    pose proof (reads_position_fun _ _ _ P P') as Q.
    destruct m' as [p a c d e f g h i j k l], b as [p0 a0 c0 d0 e0 f0 g0 h0 i0 [j0 j1] k0 [l0 l1]].
    unfold set_doubled, set_resign_offer.
    cbn [position cube_in_logarithm cube_owner on_action crawford game_state on_inner_action doubled resign_offer rolled match_length score fst snd] in *.
    assert (x_seat (if c0 =? 0 then -1 else if c0 =? 1 then 1 else 0) = c0) as X1 by (destruct O as [->|[->| ->]]; reflexivity).
    assert (x_seat (if d0 =? 0 then -1 else 1) = d0) as X2 by (destruct T as [->| ->]; reflexivity).
    assert (((0 <? k0) && ((if e0 then 1 else 0) =? 1)) = e0) as X3.
    { destruct e0; [|apply andb_false_r]. specialize (CR eq_refl). destruct (Z.ltb_spec 0 k0); [reflexivity|lia]. }
    rewrite X1, X2, X3 in *. congruence.
Qed.
