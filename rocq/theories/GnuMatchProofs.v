(* Lemmas for C34-C38 and C41, continued *)
From Verif Require Import Py PyFacts UtilModel BoardModel BoardSpec GnuModel GnuSpec GnuProofs.

Lemma odd_testbit v j : Z.odd (v / 2 ^ Z.of_nat j) = Z.testbit v (Z.of_nat j).
Proof. rewrite Z.testbit_odd, Z.shiftr_div_pow2 by lia. reflexivity. Qed.
Lemma lowbits_int w v : lowbits w v = bits_of_int (Z.of_nat w) v.
Proof.
  unfold lowbits, bits_of_int, zrange. rewrite Z.sub_0_r, Nat2Z.id, map_map. apply map_ext. intros j. apply odd_testbit.
Qed.
Lemma zord_of_nat c : Z.of_nat (nat_of_ascii c) = zord c.
Proof. unfold zord, nat_of_ascii. lia. Qed.
Lemma bits_of_string_eq s : bits_of_string s = flat_map byte_bits s.
Proof. unfold bits_of_string. apply flat_map_ext. intros c. rewrite lowbits_int, zord_of_nat. reflexivity. Qed.

(* C34 *)
Lemma decode_encode_position p fuel : wf_side (fst p) -> wf_side (snd p) -> (3 <= fuel)%nat ->
  decode_position fuel (encode_position p) = Ok p.
Proof.
  intros A B F. unfold decode_position, encode_position. destruct (b64_roundtrip (twoside_encode p) fuel F) as (E & R & _).
  rewrite E, R. cbn [bind]. rewrite (twoside_roundtrip p A B). cbv zeta. unfold zlen. rewrite (proj1 A), (proj1 B). reflexivity.
Qed.
Lemma position_id :
  (forall p fuel, wf_side (fst p) -> wf_side (snd p) -> (3 <= fuel)%nat -> decode_position fuel (encode_position p) = Ok p) /\
  (forall p q, wf_side (fst p) -> wf_side (snd p) -> wf_side (fst q) -> wf_side (snd q) ->
     encode_position p = encode_position q -> p = q) /\
  (forall p, exists k, bits_of_string (twoside_encode p) = position_bits p ++ repeat false k) /\
  (forall p, Forall (fun c => is_b64 c = true) (encode_position p)).
Proof.
  split; [exact decode_encode_position|]. split; [|split].
  - intros p q A B C D E. pose proof (decode_encode_position p 3 A B ltac:(lia)) as P.
    rewrite E, (decode_encode_position q 3 C D ltac:(lia)) in P. congruence.
  - intros p. rewrite bits_of_string_eq. destruct (seq2bytes_bits (fst p ++ snd p)) as (k & E & _). exists k. exact E.
  - intros p. apply (b64_roundtrip (twoside_encode p) 3). lia.
Qed.

(* C35 *)
Lemma unary_length l : Forall (fun x => 0 <= x) l -> zlen (flat_map unary l) = total l + zlen l.
Proof.
  induction 1 as [|x l H _ IH]; [reflexivity|]. cbn [flat_map]. rewrite zlen_app, IH. unfold unary, total, zlen. rewrite app_length, repeat_length.
  cbn [List.length fold_right]. lia.
Qed.
Lemma total_app a b : total (a ++ b) = total a + total b.
Proof. unfold total. induction a as [|x a IH]; cbn; [reflexivity|]. rewrite IH. lia. Qed.
Lemma id_length : forall p, wf_side (fst p) -> wf_side (snd p) -> chequers p <= 30 ->
  zlen (encode_position p) = if (chequers p mod 8 =? 6) && negb (chequers p =? 30) then 12 else 14.
Proof.
  intros p [A A'] [B B'] C. unfold encode_position.
  destruct (b64_roundtrip (twoside_encode p) 3 ltac:(lia)) as (_ & _ & E & _). rewrite E.
  unfold twoside_encode. destruct (seq2bytes_bits (fst p ++ snd p)) as (k & _ & S). rewrite S.
  rewrite unary_length by (apply Forall_app; split; assumption). rewrite total_app, zlen_app. fold (chequers p).
  assert (N : 0 <= chequers p).
  { unfold chequers. assert (T : forall l, Forall (fun x => 0 <= x) l -> 0 <= total l) by (clear; intros l H; induction H; cbn; [lia|unfold total in *; lia]).
    pose proof (T _ A'). pose proof (T _ B'). lia. }
  assert (zlen (fst p) = 25) as -> by (unfold zlen; lia). assert (zlen (snd p) = 25) as -> by (unfold zlen; lia).
  set (n := chequers p) in *. clearbody n. clear - N C.
  assert (I : In n (zrange 0 31)) by (apply In_zrange; lia).
  assert (V : forallb (fun n => (4 * (Z.max 9 ((n + (25 + 25)) / 8) + (if (n + (25 + 25)) mod 8 =? 0 then 0 else 1)) + 2) / 3 =?
     (if (n mod 8 =? 6) && negb (n =? 30) then 12 else 14)) (zrange 0 31) = true) by (vm_compute; reflexivity).
  rewrite forallb_forall in V. apply Z.eqb_eq. apply (V n I).
Qed.
(* six chequers left *)
Definition six_left : list Z * list Z := (3 :: repeat 0 24, 0 :: 3 :: repeat 0 23).
Lemma id_length_refuted : exists p, wf_side (fst p) /\ wf_side (snd p) /\ total (fst p) <= 15 /\ total (snd p) <= 15 /\
  List.length (encode_position p) = 12%nat.
Proof.
  exists six_left. split; [split; [reflexivity|repeat constructor; discriminate]|]. split; [split; [reflexivity|repeat constructor; discriminate]|].
  vm_compute. repeat split; discriminate.
Qed.

(* C36 *)
Lemma decoder_total :
  (forall s fuel, In EQ s -> decode_position fuel s = Exc TypeError) /\
  (forall s fuel, ~ In EQ s -> significant s mod 4 = 1 -> decode_position fuel s = Exc OutOfFuel) /\
  (forall s, ~ In EQ s -> significant s mod 4 <> 1 ->
     exists r, (forall fuel, (3 <= fuel)%nat -> decode_position fuel s = r) /\
       (r = Exc DecodeError \/ exists p, r = Ok p /\ wf_side (fst p) /\ wf_side (snd p))).
Proof.
  assert (E : forall s, existsb (Ascii.eqb EQ) s = true <-> In EQ s).
  { intros s. rewrite existsb_exists. split; [intros (c & I & Q); apply Ascii.eqb_eq in Q; subst; exact I|intros I; exists EQ; split; [exact I|apply Ascii.eqb_refl]]. }
  assert (N : forall s, ~ In EQ s -> existsb (Ascii.eqb EQ) s = false).
  { intros s H. destruct (existsb (Ascii.eqb EQ) s) eqn:Q; [|reflexivity]. apply E in Q. contradiction. }
  split; [|split].
  - intros s fuel H. unfold decode_position. apply E in H. rewrite H. reflexivity.
  - intros s fuel H M. unfold decode_position. rewrite (N s H). rewrite b64_loop_diverges; [reflexivity|apply existsb_noeq, N, H|exact M].
  - intros s H M. unfold decode_position. rewrite (N s H).
    eexists. split; [intros fuel F; rewrite (b64_loop_ok s fuel) by (auto; apply existsb_noeq, N, H); cbn [bind]; reflexivity|].
    cbv zeta. destruct (Z.eqb_spec (zlen (fst (twoside_decode (payload s)))) 25) as [A|A]; [|left; reflexivity].
    destruct (Z.eqb_spec (zlen (snd (twoside_decode (payload s)))) 25) as [B|B]; [|left; reflexivity].
    right. eexists. split; [reflexivity|].
    assert (NN : forall n bits, 0 <= n -> Forall (fun x => 0 <= x) (fst (run_bits n bits)) /\ 0 <= snd (run_bits n bits)).
    { intros n bits. revert n. induction bits as [|[|] r IH]; intros n Hn; cbn [run_bits]; [split; [constructor|exact Hn]|apply IH; lia|].
      specialize (IH 0 ltac:(lia)). destruct (run_bits 0 r); cbn [fst snd] in *. split; [constructor; [exact Hn|apply IH]|apply IH]. }
    assert (Q : Forall (fun x => 0 <= x) (byts2seq (payload s))).
    { unfold byts2seq. specialize (NN 0 (flat_map byte_bits (payload s)) ltac:(lia)). destruct (run_bits 0 (flat_map byte_bits (payload s))); cbn [fst snd] in *.
      apply Forall_app. split; [apply NN|constructor; [apply NN|constructor]]. }
    assert (FS : forall (l : list Z) n, Forall (fun x => 0 <= x) l -> Forall (fun x => 0 <= x) (firstn n l) /\ Forall (fun x => 0 <= x) (skipn n l)).
    { intros l n Hl. rewrite <- (firstn_skipn n l) in Hl. apply Forall_app in Hl. exact Hl. }
    unfold twoside_decode in *; cbn [fst snd] in *. split; (split; [unfold zlen in *; lia|]).
    + apply FS, Q.
    + apply FS, FS, Q.
Qed.
Lemma decoder_refuted : exists s, ~ In EQ s /\ forall fuel, decode_position fuel s = Exc OutOfFuel.
Proof.
  exists (L "A"). assert (~ In EQ (L "A")) as H by (intros [H|[]]; discriminate). split; [exact H|].
  intros fuel. apply (proj1 (proj2 decoder_total)); [exact H|]. reflexivity.
Qed.

(* ---------- match ---------- *)
Lemma int_of_bits_val w : forall v, 0 <= v < 2 ^ Z.of_nat w -> int_of_bits (lowbits w v) = v.
Proof.
  induction w as [|w IH]; intros v H.
  - cbn in *. lia.
  - unfold lowbits. cbn [seq map int_of_bits fold_right]. rewrite Z.div_1_r. rewrite <- seq_shift, map_map.
    rewrite (map_ext _ (fun j => Z.odd (v / 2 / 2 ^ Z.of_nat j))).
    + specialize (IH (v / 2)). unfold lowbits, int_of_bits in IH. rewrite IH.
      * pose proof (Z.div_mod v 2 ltac:(lia)) as D. rewrite (Zmod_odd v) in D. destruct (Z.odd v); cbn [Z.b2z]; lia.
      * rewrite Nat2Z.inj_succ, Z.pow_succ_r in H by lia. Z.to_euclidean_division_equations; lia.
    + intros j. rewrite Nat2Z.inj_succ, Z.pow_succ_r by lia. rewrite Z.div_div by lia. reflexivity.
Qed.

Lemma byte_of_bits l : List.length l = 8%nat -> byte_bits (ascii_of_N (Z.to_N (int_of_bits l))) = l.
Proof.
  intros H. do 8 (destruct l as [|[|] l]; try discriminate); destruct l; try discriminate; vm_compute; reflexivity.
Qed.
Lemma byte_of_short l : (List.length l <= 8)%nat -> byte_bits (ascii_of_N (Z.to_N (int_of_bits l))) = l ++ repeat false (8 - List.length l).
Proof.
  intros H. rewrite <- (byte_of_bits (l ++ repeat false (8 - List.length l))) by (rewrite app_length, repeat_length; lia).
  do 3 f_equal. unfold int_of_bits. rewrite fold_right_app. f_equal. induction (8 - List.length l)%nat as [|n IH]; [reflexivity|].
  cbn [repeat fold_right Z.b2z]. rewrite <- IH. reflexivity.
Qed.
Lemma bytes_of_bits_read n : forall l, (List.length l <= 8 * n)%nat ->
  flat_map byte_bits (bytes_of_bits n l) = l ++ repeat false (8 * n - List.length l).
Proof.
  induction n as [|n IH]; intros l H; cbn [bytes_of_bits flat_map].
  - destruct l; [reflexivity|cbn in H; lia].
  - rewrite IH by (rewrite skipn_length; lia). rewrite byte_of_short by (rewrite firstn_length; lia).
    rewrite firstn_length, skipn_length. destruct (Nat.le_gt_cases 8 (List.length l)) as [G|G].
    + rewrite Nat.min_l by lia. cbn [repeat Nat.sub]. rewrite app_nil_r, app_assoc, firstn_skipn. f_equal. f_equal. lia.
    + rewrite Nat.min_r by lia. rewrite firstn_all2, skipn_all2 by lia. cbn [app]. rewrite <- app_assoc, <- repeat_app. f_equal. f_equal. lia.
Qed.
Lemma bytes_of_bits_length n l : List.length (bytes_of_bits n l) = n.
Proof. revert l; induction n as [|n IH]; intros l; cbn; [reflexivity|]. rewrite IH. reflexivity. Qed.
Lemma match_roundtrip od d fuel : List.length d = 66%nat -> (3 <= fuel)%nat -> decode_match od fuel (encode_match d) = Ok d.
Proof.
  intros Hd F. unfold decode_match, encode_match. destruct (b64_roundtrip (bytes_of_bits 9 d) fuel F) as (E & R & _).
  rewrite E, R. cbn [bind]. unfold match_read, zlen. rewrite bytes_of_bits_length. change (Z.of_nat 9 =? 9) with true. cbv iota.
  rewrite bytes_of_bits_read by lia. rewrite firstn_app, Hd, Nat.sub_diag, firstn_O, app_nil_r, firstn_all2 by lia. reflexivity.
Qed.
Lemma match_id_length d : List.length (encode_match d) = 12%nat.
Proof.
  unfold encode_match. destruct (b64_roundtrip (bytes_of_bits 9 d) 3 ltac:(lia)) as (_ & _ & E & _).
  unfold zlen at 2 in E. rewrite bytes_of_bits_length in E. change ((4 * Z.of_nat 9 + 2) / 3) with 12 in E. unfold zlen in E. lia.
Qed.

Ltac fit := rewrite ?Z.leb_refl; repeat match goal with
  | |- context [(0 <=? ?v) && (?v <? ?w)] =>
      replace ((0 <=? v) && (v <? w)) with true by (symmetry; apply andb_true_iff; split; [apply Z.leb_le|apply Z.ltb_lt]; cbn; lia)
  end.
Lemma lowbits_length w v : List.length (lowbits w v) = w.
Proof. unfold lowbits. rewrite map_length, seq_length. reflexivity. Qed.
Lemma set_in ov A B C v b e w : 0 <= b -> Z.of_nat w = e - b -> List.length A = Z.to_nat b -> List.length B = w -> 0 <= v < 2 ^ (e - b) ->
  set_shiftable ov (A ++ B ++ C) v b e = Ok (A ++ lowbits w v ++ C).
Proof.
  intros Hb Hw HA HB Hv. unfold set_shiftable. replace ((0 <=? v) && (v <? 2 ^ (e - b))) with true by lia.
  f_equal. rewrite firstn_app, HA, Nat.sub_diag, firstn_O, app_nil_r, firstn_all2 by lia. f_equal. rewrite lowbits_int, Hw. f_equal.
  rewrite app_assoc, skipn_app, app_length. rewrite skipn_all2 by (rewrite app_length; lia). cbn [app].
  replace (Z.to_nat e - (List.length A + List.length B))%nat with 0%nat by lia. apply skipn_O.
Qed.
Lemma lowbits_b2z b : lowbits 1 (Z.b2z b) = [b].
Proof. destruct b; reflexivity. Qed.
Lemma match_of_board_bits ov m : fits m -> match_of_board ov m = Ok (match_bits m).
Proof.
  destruct m as [p cu ow oa cr gs ia db ro [r1 r2] ml [s1 s2]]. unfold fits; cbn.
  intros (H1 & H2 & H3 & H4 & H5 & H6 & [H7 H8] & H9 & [H10 H11]). unfold player in H3, H5.
  unfold match_of_board, match_bits, set_int, set_bool, set_pair; cbn [cube_in_logarithm cube_owner on_action crawford game_state on_inner_action doubled resign_offer rolled match_length score fst snd].
  change match_new with ([] ++ repeat false 4 ++ repeat false 62).
  rewrite (set_in _ _ _ _ _ _ _ 4) by (cbn; lia || reflexivity). cbn [bind].
  change (repeat false 62) with (repeat false 2 ++ repeat false 60). cbn [app].
  rewrite (set_in _ (lowbits 4 cu) _ _ _ _ _ 2) by (rewrite ?lowbits_length; cbn; lia || reflexivity). cbn [bind].
  change (repeat false 60) with (repeat false 1 ++ repeat false 59). rewrite app_assoc.
  rewrite (set_in _ (lowbits 4 cu ++ _) _ _ _ _ _ 1) by (rewrite ?app_length, ?lowbits_length; cbn; lia || reflexivity). cbn [bind].
  change (repeat false 59) with (repeat false 1 ++ repeat false 58). rewrite app_assoc.
  rewrite (set_in _ ((lowbits 4 cu ++ _) ++ _) _ _ _ _ _ 1) by (rewrite ?app_length, ?lowbits_length; destruct cr; cbn; lia || reflexivity). cbn [bind]. rewrite lowbits_b2z.
  change (repeat false 58) with (repeat false 3 ++ repeat false 55). rewrite app_assoc.
  rewrite (set_in _ (((lowbits 4 cu ++ _) ++ _) ++ _) _ _ _ _ _ 3) by (rewrite ?app_length, ?lowbits_length; cbn; lia || reflexivity). cbn [bind].
  change (repeat false 55) with (repeat false 1 ++ repeat false 54). rewrite app_assoc.
  rewrite (set_in _ ((((lowbits 4 cu ++ _) ++ _) ++ _) ++ _) _ _ _ _ _ 1) by (rewrite ?app_length, ?lowbits_length; cbn; lia || reflexivity). cbn [bind].
  change (repeat false 54) with (repeat false 1 ++ repeat false 53). rewrite app_assoc.
  rewrite (set_in _ (((((lowbits 4 cu ++ _) ++ _) ++ _) ++ _) ++ _) _ _ _ _ _ 1) by (rewrite ?app_length, ?lowbits_length; destruct db; cbn; lia || reflexivity). cbn [bind]. rewrite lowbits_b2z.
  change (repeat false 53) with (repeat false 2 ++ repeat false 51). rewrite app_assoc.
  rewrite (set_in _ ((((((lowbits 4 cu ++ _) ++ _) ++ _) ++ _) ++ _) ++ _) _ _ _ _ _ 2) by (rewrite ?app_length, ?lowbits_length; cbn; lia || reflexivity). cbn [bind].
  change (15 + (21 - 15) / 2) with 18. change (36 + (66 - 36) / 2) with 51.
  change (repeat false 51) with (repeat false 3 ++ repeat false 48). rewrite app_assoc.
  rewrite (set_in _ (((((((lowbits 4 cu ++ _) ++ _) ++ _) ++ _) ++ _) ++ _) ++ _) _ _ _ _ _ 3) by (rewrite ?app_length, ?lowbits_length; cbn; lia || reflexivity). cbn [bind].
  change (repeat false 48) with (repeat false 3 ++ repeat false 45). rewrite app_assoc.
  rewrite (set_in _ ((((((((lowbits 4 cu ++ _) ++ _) ++ _) ++ _) ++ _) ++ _) ++ _) ++ _) _ _ _ _ _ 3) by (rewrite ?app_length, ?lowbits_length; cbn; lia || reflexivity). cbn [bind].
  change (repeat false 45) with (repeat false 15 ++ repeat false 30). rewrite app_assoc.
  rewrite (set_in _ (((((((((lowbits 4 cu ++ _) ++ _) ++ _) ++ _) ++ _) ++ _) ++ _) ++ _) ++ _) _ _ _ _ _ 15) by (rewrite ?app_length, ?lowbits_length; cbn; lia || reflexivity). cbn [bind].
  change (repeat false 30) with (repeat false 15 ++ repeat false 15). rewrite app_assoc.
  rewrite (set_in _ ((((((((((lowbits 4 cu ++ _) ++ _) ++ _) ++ _) ++ _) ++ _) ++ _) ++ _) ++ _) ++ _) _ _ _ _ _ 15) by (rewrite ?app_length, ?lowbits_length; cbn; lia || reflexivity). cbn [bind].
  rewrite app_assoc. change (repeat false 15) with (repeat false 15 ++ []).
  rewrite (set_in _ (((((((((((lowbits 4 cu ++ _) ++ _) ++ _) ++ _) ++ _) ++ _) ++ _) ++ _) ++ _) ++ _) ++ _) _ _ _ _ _ 15) by (rewrite ?app_length, ?lowbits_length; cbn; lia || reflexivity).
  reflexivity.
Qed.

Lemma board_of_match_bits m x : fits m -> board_of_match (match_bits m) x = set_position (position x) m.
Proof.
  intros (H1 & H2 & H3 & H4 & H5 & H6 & [H7 H8] & H9 & [H10 H11]). unfold board_of_match, get_int, get_bool, get_pair.
  change (15 + (21 - 15) / 2) with 18. change (36 + (66 - 36) / 2) with 51.
  change (slice 0 4 (match_bits m)) with (lowbits 4 (cube_in_logarithm m)).
  change (slice 4 6 (match_bits m)) with (lowbits 2 (cube_owner m)).
  change (slice 6 7 (match_bits m)) with (lowbits 1 (on_action m)).
  change (slice 7 8 (match_bits m)) with [crawford m].
  change (slice 8 11 (match_bits m)) with (lowbits 3 (game_state m)).
  change (slice 11 12 (match_bits m)) with (lowbits 1 (on_inner_action m)).
  change (slice 12 13 (match_bits m)) with [doubled m].
  change (slice 13 15 (match_bits m)) with (lowbits 2 (resign_offer m)).
  change (slice 15 18 (match_bits m)) with (lowbits 3 (fst (rolled m))).
  change (slice 18 21 (match_bits m)) with (lowbits 3 (snd (rolled m))).
  change (slice 21 36 (match_bits m)) with (lowbits 15 (match_length m)).
  change (slice 36 51 (match_bits m)) with (lowbits 15 (fst (score m))).
  change (slice 51 66 (match_bits m)) with (lowbits 15 (snd (score m))).
  unfold player in *. rewrite !int_of_bits_val by (cbn; lia). cbn [existsb]. rewrite !orb_false_r.
  destruct m as [p cu ow oa cr gs ia db ro [r1 r2] ml [s1 s2]]. reflexivity.
Qed.
Lemma match_bits_length m : List.length (match_bits m) = 66%nat.
Proof. reflexivity. Qed.

(* C37 *)
Lemma match_id : forall ov od m fuel, fits m -> (3 <= fuel)%nat -> exists d,
  match_of_board ov m = Ok d /\ d = match_bits m /\
  List.length (encode_match d) = 12%nat /\ Forall (fun c => is_b64 c = true) (encode_match d) /\
  decode_match od fuel (encode_match d) = Ok d /\
  forall x, board_of_match d x = set_position (position x) m.
Proof.
  intros ov od m fuel H F. exists (match_bits m). split; [apply match_of_board_bits; exact H|]. split; [reflexivity|].
  split; [apply match_id_length|]. split; [apply (b64_roundtrip (bytes_of_bits 9 (match_bits m)) 3); lia|].
  split; [apply match_roundtrip; [apply match_bits_length|exact F]|]. intros x. apply board_of_match_bits; exact H.
Qed.

(* C38 *)
Lemma encode_fits ov m : fits m -> encode ov m =
  Ok (encode_position (if on_action m =? 0 then (snd (position m), fst (position m)) else position m), encode_match (match_bits m)).
Proof.
  intros H. unfold encode. rewrite match_of_board_bits by exact H. cbn [bind]. unfold get_int.
  change (slice 6 7 (match_bits m)) with (lowbits 1 (on_action m)). destruct H as (_ & _ & H3 & _). unfold player in H3.
  rewrite int_of_bits_val by (cbn; lia). unfold YOU, HIM. destruct H3 as [E|E]; rewrite E; reflexivity.
Qed.
Lemma scored_money_test m : (game_state m =? ON_GOING) && (match_length m =? 0) &&
    ((match_length m <? fst (score m)) || (match_length m <? snd (score m))) = true <-> scored_money m.
Proof. unfold scored_money, ON_GOING. rewrite !andb_true_iff, orb_true_iff, !Z.eqb_eq, !Z.ltb_lt. lia. Qed.
Lemma full_board : forall ov od m x fuel, fits m -> wf_side (fst (position m)) -> wf_side (snd (position m)) -> (3 <= fuel)%nat ->
  exists pid mid, encode ov m = Ok (pid, mid) /\
    (~ scored_money m -> decode od fuel x pid mid = (m, Ok tt)) /\
    (scored_money m -> decode od fuel x pid mid = (set_position (position x) m, Exc InconsistentData)).
Proof.
  intros ov od m x fuel H A B F. rewrite encode_fits by exact H. eexists; eexists. split; [reflexivity|].
  unfold decode. rewrite match_roundtrip by (auto using match_bits_length). rewrite board_of_match_bits by exact H. cbv zeta.
  pose proof (scored_money_test m) as T. cbn [set_position game_state match_length score].
  split; intros S.
  - destruct ((game_state m =? ON_GOING) && (match_length m =? 0) && ((match_length m <? fst (score m)) || (match_length m <? snd (score m)))) eqn:E.
    + exfalso. apply S, T. reflexivity.
    + unfold get_int. change (slice 6 7 (match_bits m)) with (lowbits 1 (on_action m)). destruct H as (_ & _ & H3 & _). unfold player in H3.
      rewrite int_of_bits_val by (cbn; lia). destruct H3 as [Q|Q]; rewrite Q.
      * change (0 =? 0) with true. cbv iota. rewrite decode_encode_position by assumption. destruct m as [[f g] ? ? ? ? ? ? ? ? ? ? ?]. reflexivity.
      * change (1 =? 0) with false. change (1 =? 1) with true. cbv iota. rewrite decode_encode_position by assumption.
        destruct m as [[f g] ? ? ? ? ? ? ? ? ? ? ?]. reflexivity.
  - apply T in S. rewrite S. reflexivity.
Qed.
Definition money31 : board := set_score (3, 1) (set_game_state 1 default_board).
Lemma full_board_refuted : exists m, fits m /\ wf_side (fst (position m)) /\ wf_side (snd (position m)) /\
  forall ov od fuel x, (3 <= fuel)%nat -> exists pid mid e, encode ov m = Ok (pid, mid) /\ snd (decode od fuel x pid mid) = Exc e.
Proof.
  exists money31. assert (H : fits money31).
  { unfold fits, player. cbn. unfold CENTER, YOU, RESIGN_NONE. lia. }
  assert (A : wf_side (fst (position money31))) by (split; [reflexivity|repeat constructor; discriminate]).
  assert (B : wf_side (snd (position money31))) by (split; [reflexivity|repeat constructor; discriminate]).
  split; [exact H|]. split; [exact A|]. split; [exact B|]. intros ov od fuel x F.
  destruct (full_board ov od money31 x fuel H A B F) as (pid & mid & E & _ & G). exists pid, mid, InconsistentData. split; [exact E|].
  rewrite G; [reflexivity|]. unfold scored_money. cbn. lia.
Qed.

(* C41, the GNU half *)
Lemma gnu_failure : forall od fuel x pid mid x' e, decode od fuel x pid mid = (x', Exc e) ->
  position x' = position x /\
  ((exists e', decode_match od fuel mid = Exc e') -> x' = x) /\
  (forall d, decode_match od fuel mid = Ok d -> x' = board_of_match d x).
Proof.
  intros od fuel x pid mid x' e. unfold decode. destruct (decode_match od fuel mid) as [d|e0].
  - cbv zeta. destruct (_ && _ && _).
    + intros H. injection H as <- _. split; [reflexivity|]. split; [intros (? & ?); discriminate|]. intros d' H. congruence.
    + destruct (decode_position fuel pid) as [[a o]|e1].
      * destruct (get_int d 6 7 =? 0); [intros H; discriminate|]. destruct (get_int d 6 7 =? 1); [intros H; discriminate|].
        intros H. injection H as <- _. split; [reflexivity|]. split; [intros (? & ?); discriminate|]. intros d' H. congruence.
      * intros H. injection H as <- _. split; [reflexivity|]. split; [intros (? & ?); discriminate|]. intros d' H. congruence.
  - intros H. injection H as <- _. split; [reflexivity|]. split; [reflexivity|]. intros d H. discriminate.
Qed.
Lemma gnu_failure_refuted : forall od, exists x pid mid x', decode od 3 x pid mid = (x', Exc DecodeError) /\ x' <> x.
Proof.
  intros od. exists default_board, (L "AAAA"), (L "QYkqASAAIAAA"). eexists. split; [vm_compute; reflexivity|].
  vm_compute. discriminate.
Qed.
