(* Lemmas for C34-C38 and C41 *)
From Verif Require Import Py PyFacts UtilModel BoardModel BoardSpec GnuModel GnuSpec.
From Coq Require Import ZifyClasses.

(* ---------- bits ---------- *)
Definition rel (c : bctx) (l : list bool) : Prop :=
  ccount c = zlen l /\ 0 <= cbyte c /\ forall j, 0 <= j -> Z.testbit (cbyte c) j = nth (Z.to_nat j) l false.

Lemma rel_reset : rel bc_reset [].
Proof. split; [reflexivity|]. split; [cbn; lia|]. intros j Hj. cbn [bc_reset cbyte]. rewrite Z.bits_0. destruct (Z.to_nat j); reflexivity. Qed.
Lemma nth_snoc {A} (l : list A) x d k : nth k (l ++ [x]) d = if Nat.eqb k (List.length l) then x else nth k l d.
Proof.
  destruct (Nat.eqb_spec k (List.length l)) as [->|N]; [rewrite app_nth2, Nat.sub_diag by lia; reflexivity|].
  destruct (Nat.lt_ge_cases k (List.length l)) as [H|H]; [apply app_nth1; lia|].
  rewrite !nth_overflow; [reflexivity|lia|rewrite app_length; cbn; lia].
Qed.
Lemma rel_write c l b : rel c l -> rel (fst (bc_write c (Z.b2z b))) (l ++ [b]).
Proof.
  intros (A & B & C). unfold bc_write; cbn [fst]. split; [|split].
  - cbn [ccount]. rewrite A, zlen_app. reflexivity.
  - cbn [cbyte]. apply Z.lor_nonneg. split; [exact B|]. apply Z.shiftl_nonneg. destruct b; cbn; lia.
  - intros j Hj. cbn [cbyte]. rewrite Z.lor_spec, C by exact Hj. rewrite Z.shiftl_spec by exact Hj. rewrite nth_snoc.
    rewrite A. unfold zlen. destruct (Nat.eqb_spec (Z.to_nat j) (List.length l)) as [E|E].
    + rewrite nth_overflow by lia. replace (j - Z.of_nat (List.length l)) with 0 by lia. destruct b; reflexivity.
    + replace (Z.testbit (Z.b2z b) (j - Z.of_nat (List.length l))) with false; [apply orb_false_r|]. symmetry.
      destruct (Z_lt_le_dec (j - Z.of_nat (List.length l)) 0) as [N|N]; [apply Z.testbit_neg_r; exact N|].
      destruct b; cbn [Z.b2z]; [|apply Z.bits_0]. apply (Z.pow2_bits_false 0). lia.
Qed.
Lemma testbits_small n : 0 <= n -> (forall j, 8 <= j -> Z.testbit n j = false) -> n < 256.
Proof.
  intros Hn H. replace n with (n mod 2 ^ 8); [apply Z.mod_pos_bound; lia|]. apply Z.bits_inj'. intros j Hj.
  destruct (Z_lt_le_dec j 8) as [L|L]; [apply Z.mod_pow2_bits_low; exact L|].
  rewrite Z.mod_pow2_bits_high by lia. symmetry. apply H. exact L.
Qed.
Lemma byte_bits_eq c l : List.length l = 8%nat -> (forall j, 0 <= j < 8 -> Z.testbit (zord c) j = nth (Z.to_nat j) l false) ->
  byte_bits c = l.
Proof.
  intros Hl H. unfold byte_bits. apply (list_eq_nth _ _ false); [rewrite map_length, Hl; reflexivity|].
  rewrite map_length. change (List.length (zrange 0 8)) with 8%nat. intros k Hk.
  rewrite (nth_indep _ false (Z.testbit (zord c) 0)) by (rewrite map_length; exact Hk).
  rewrite map_nth. assert (E : nth k (zrange 0 8) 0 = Z.of_nat k).
  { do 8 (destruct k as [|k]; [reflexivity|]). lia. }
  rewrite E, H by lia. rewrite Nat2Z.id. reflexivity.
Qed.
Lemma pack_bits c l : rel c l -> List.length l = 8%nat -> byte_bits (bc_pack c) = l.
Proof.
  intros (A & B & C) Hl. apply byte_bits_eq; [exact Hl|]. intros j Hj. unfold bc_pack.
  rewrite zord_chr; [apply C; lia|]. split; [exact B|]. apply testbits_small; [exact B|].
  intros k Hk. rewrite C by lia. apply nth_overflow. lia.
Qed.
Lemma rel_pad c l : rel c l -> (List.length l <= 8)%nat ->
  rel (fold_left (fun c _ => fst (bc_write c 0)) (zrange (ccount c) 8) c) (l ++ repeat false (8 - List.length l)).
Proof.
  intros R Hl. rewrite (proj1 R). unfold zrange, zlen. replace (Z.to_nat (8 - Z.of_nat (List.length l))) with (8 - List.length l)%nat by lia.
  generalize (8 - List.length l)%nat as n. intros n. clear Hl. generalize (seq_length n 0). generalize (seq 0 n) as z. intros z Hz. revert c l n R Hz.
  induction z as [|y z IH]; intros c l n R Hz; cbn [map fold_left].
  - subst n; cbn [List.length repeat]. rewrite app_nil_r. exact R.
  - destruct n as [|n]; [discriminate|]. cbn [repeat].
    change (false :: repeat false n) with ([false] ++ repeat false n). rewrite app_assoc.
    specialize (IH (fst (bc_write c 0)) (l ++ [false]) n (rel_write c l false R)).
    assert (E : forall a, map (fun k => a + Z.of_nat k) z = map (fun k => a + Z.of_nat k) z) by reflexivity.
    injection Hz as Hz. specialize (IH Hz). revert IH. generalize (l ++ [false]) as m. intros m IH.
    (* the loop ignores the index *)
    assert (G : forall (f g : nat -> Z) c0, fold_left (fun c _ => fst (bc_write c 0)) (map f z) c0 = fold_left (fun c _ => fst (bc_write c 0)) (map g z) c0).
    { clear. induction z as [|a z IH]; intros f g c0; cbn; auto. }
    erewrite G. exact IH.
Qed.
Lemma pad_bits c l : rel c l -> (List.length l <= 8)%nat -> byte_bits (bc_pad c) = l ++ repeat false (8 - List.length l).
Proof.
  intros R Hl. unfold bc_pad. apply pack_bits; [apply rel_pad; assumption|]. rewrite app_length, repeat_length. lia.
Qed.

Definition ginv (g : gst) (w : list bool) : Prop :=
  exists rest, w = flat_map byte_bits (gout g) ++ rest /\ rel (gctx g) rest /\ (List.length rest < 8)%nat /\ gcount g = zlen (gout g).
Lemma ginv_put g w b : ginv g w -> ginv (g_put g (Z.b2z b)) (w ++ [b]).
Proof.
  intros (rest & W & R & Hl & Hc). pose proof (rel_write _ _ b R) as R'. unfold g_put.
  assert (E : snd (bc_write (gctx g) (Z.b2z b)) = (zlen (rest ++ [b]) <? 8)).
  { unfold bc_write; cbn [snd ccount]. rewrite (proj1 R), zlen_app. reflexivity. }
  destruct (bc_write (gctx g) (Z.b2z b)) as [c f]; cbn [fst snd] in *. subst f.
  destruct (Z.ltb_spec (zlen (rest ++ [b])) 8) as [L|L].
  - exists (rest ++ [b]). cbn [gout gctx gcount]. split; [rewrite W, app_assoc; reflexivity|]. split; [exact R'|].
    split; [unfold zlen in L; lia|exact Hc].
  - exists []. cbn [gout gctx gcount]. assert (L8 : List.length (rest ++ [b]) = 8%nat) by (rewrite app_length in *; unfold zlen in L; rewrite app_length in L; cbn in *; lia).
    rewrite flat_map_app. cbn [flat_map]. rewrite (pack_bits _ _ R' L8), !app_nil_r.
    split; [rewrite W, app_assoc; reflexivity|]. split; [apply rel_reset|]. split; [cbn; lia|]. rewrite zlen_app, Hc. reflexivity.
Qed.
Lemma ginv_ones n : forall g w (l : list Z), List.length l = n -> ginv g w -> ginv (fold_left (fun g _ => g_put g 1) l g) (w ++ repeat true n).
Proof.
  induction n as [|n IH]; intros g w l Hl H.
  - destruct l; [|discriminate]. cbn. rewrite app_nil_r. exact H.
  - destruct l as [|x l]; [discriminate|]. injection Hl as Hl. cbn [fold_left repeat].
    change (true :: repeat true n) with ([true] ++ repeat true n). rewrite app_assoc. apply IH; [exact Hl|]. apply (ginv_put g w true H).
Qed.
Lemma ginv_num g w x : ginv g w -> ginv (g_num g x) (w ++ unary x).
Proof.
  intros H. unfold g_num, unary. rewrite app_assoc. apply (ginv_put _ _ false). apply ginv_ones; [|exact H].
  unfold zrange. rewrite map_length, seq_length. f_equal. lia.
Qed.
Lemma ginv_all xs : forall g w, ginv g w -> ginv (fold_left g_num xs g) (w ++ flat_map unary xs).
Proof.
  induction xs as [|x xs IH]; intros g w H; cbn [fold_left flat_map]; [rewrite app_nil_r; exact H|].
  rewrite app_assoc. apply IH, ginv_num, H.
Qed.
Lemma bits_length s : List.length (flat_map byte_bits s) = (8 * List.length s)%nat.
Proof. induction s as [|c s IH]; cbn [flat_map List.length]; [reflexivity|]. rewrite app_length, IH. change (List.length (byte_bits c)) with 8%nat. lia. Qed.
Lemma flat_map_zeros n : flat_map byte_bits (map (fun _ : Z => bc_pad bc_reset) n) = repeat false (8 * List.length n).
Proof.
  induction n as [|x n IH]; cbn [map flat_map List.length]; [reflexivity|]. rewrite IH.
  replace (8 * S (List.length n))%nat with (8 + 8 * List.length n)%nat by lia. rewrite repeat_app. f_equal.
Qed.
Lemma seq2bytes_bits xs : let w := flat_map unary xs in
  exists k, flat_map byte_bits (seq2bytes xs) = w ++ repeat false k /\
    zlen (seq2bytes xs) = Z.max 9 (zlen w / 8) + (if zlen w mod 8 =? 0 then 0 else 1).
Proof.
  cbv zeta. assert (G0 : ginv (mkG bc_reset 0 []) []).
  { exists []. split; [reflexivity|]. split; [apply rel_reset|]. split; [cbn; lia|reflexivity]. }
  apply (ginv_all xs) in G0. cbn [app] in G0. unfold seq2bytes. set (g := fold_left g_num xs (mkG bc_reset 0 [])) in *. clearbody g.
  destruct G0 as (rest & W & R & Hl & Hc). cbv zeta.
  assert (LW : zlen (flat_map unary xs) = 8 * zlen (gout g) + zlen rest).
  { rewrite W, zlen_app. unfold zlen. rewrite bits_length. lia. }
  assert (Hr : 0 <= zlen rest < 8) by (unfold zlen; lia).
  assert (D : zlen (flat_map unary xs) / 8 = zlen (gout g)) by (rewrite LW; symmetry; apply Z.div_unique with (zlen rest); lia).
  assert (M : zlen (flat_map unary xs) mod 8 = zlen rest) by (rewrite LW; symmetry; apply Z.mod_unique with (zlen (gout g)); lia).
  rewrite D, M, (proj1 R). pose proof (zlen_nonneg (gout g)).
  assert (Z9 : zlen (map (fun _ : Z => bc_pad bc_reset) (zrange (gcount g) 9)) = Z.max 0 (9 - zlen (gout g))).
  { unfold zlen at 1. rewrite map_length. unfold zrange. rewrite map_length, seq_length. lia. }
  destruct (Z.eqb_spec (zlen rest) 0) as [Z0|Z0]; cbn [negb].
  - exists (8 * List.length (zrange (gcount g) 9))%nat. rewrite flat_map_app, flat_map_zeros. split.
    + rewrite W. destruct rest; [rewrite app_nil_r; reflexivity|unfold zlen in Z0; cbn in Z0; lia].
    + rewrite zlen_app, Z9. lia.
  - exists (8 - List.length rest + 8 * List.length (zrange (gcount g) 9))%nat. rewrite !flat_map_app, flat_map_zeros. split.
    + rewrite W. cbn [flat_map]. rewrite app_nil_r, (pad_bits _ _ R) by lia. rewrite repeat_app, !app_assoc. reflexivity.
    + rewrite !zlen_app, Z9. change (zlen [bc_pad (gctx g)]) with 1. lia.
Qed.

(* ---------- reading the counts back ---------- *)
Lemma run_ones n : forall m r, run_bits m (repeat true n ++ r) = run_bits (m + Z.of_nat n) r.
Proof. induction n as [|n IH]; intros m r; cbn [repeat app run_bits]; [f_equal; lia|]. rewrite IH. f_equal. lia. Qed.
Lemma run_unary xs k : run_bits 0 (flat_map unary xs ++ repeat false k) = (map (fun x => Z.max 0 x) xs ++ repeat 0 k, 0).
Proof.
  induction xs as [|x xs IH]; cbn [flat_map map app].
  - induction k as [|k IH]; [reflexivity|]. cbn [repeat run_bits app] in *. rewrite IH. reflexivity.
  - unfold unary at 1. rewrite <- !app_assoc, run_ones. cbn [app run_bits]. rewrite IH. cbn [app]. do 2 f_equal. lia.
Qed.
Lemma byts2seq_seq2bytes xs : exists k, byts2seq (seq2bytes xs) = map (fun x => Z.max 0 x) xs ++ repeat 0 k.
Proof.
  destruct (seq2bytes_bits xs) as (k & E & _). exists (S k). unfold byts2seq. rewrite E, run_unary.
  rewrite <- app_assoc. f_equal. clear. induction k; cbn; [reflexivity|]. f_equal. exact IHk.
Qed.
Lemma map_max_nonneg l : Forall (fun x => 0 <= x) l -> map (fun x => Z.max 0 x) l = l.
Proof. induction 1 as [|x l H _ IH]; cbn; [reflexivity|]. rewrite IH. f_equal. lia. Qed.
Lemma twoside_roundtrip p : wf_side (fst p) -> wf_side (snd p) -> twoside_decode (twoside_encode p) = p.
Proof.
  destruct p as [f g]; cbn [fst snd]. intros [Lf Nf] [Lg Ng]. unfold twoside_decode, twoside_encode; cbn [fst snd].
  destruct (byts2seq_seq2bytes (f ++ g)) as (k & E). rewrite E. rewrite map_app, !map_max_nonneg by assumption.
  rewrite <- app_assoc. f_equal.
  - rewrite firstn_app, Lf, Nat.sub_diag, firstn_O, app_nil_r, firstn_all2 by lia. reflexivity.
  - rewrite skipn_app, Lf, Nat.sub_diag, skipn_O, skipn_all2 by lia. cbn [app].
    rewrite firstn_app, Lg, Nat.sub_diag, firstn_O, app_nil_r, firstn_all2 by lia. reflexivity.
Qed.

(* ---------- base64 ---------- *)
Lemma b64_in v : 0 <= v < 64 -> b64val (b64char v) = Some v /\ Ascii.eqb (b64char v) EQ = false.
Proof.
  intros H. assert (I : In v (zrange 0 64)) by (apply In_zrange; lia).
  assert (A : forallb (fun v => match b64val (b64char v) with Some w => Z.eqb w v | None => false end && negb (Ascii.eqb (b64char v) EQ)) (zrange 0 64) = true) by (vm_compute; reflexivity).
  rewrite forallb_forall in A. specialize (A v I). apply andb_prop in A. destruct A as [A B].
  destruct (b64val (b64char v)) as [w|]; [|discriminate]. apply Z.eqb_eq in A. subst w. split; [reflexivity|].
  destruct (Ascii.eqb (b64char v) EQ); [discriminate|reflexivity].
Qed.
Lemma all_ascii (P : ascii -> bool) : forallb P (map ascii_of_nat (seq 0 256)) = true -> forall c, P c = true.
Proof.
  intros H c. rewrite forallb_forall in H. apply H. rewrite <- (ascii_nat_embedding c). apply in_map, in_seq.
  pose proof (nat_ascii_bounded c). lia.
Qed.
Lemma is_b64_val c : is_b64 c = (match b64val c with Some _ => true | None => false end).
Proof.
  apply Bool.eqb_prop. revert c. apply (all_ascii (fun c => Bool.eqb (is_b64 c) (match b64val c with Some _ => true | None => false end))).
  vm_compute. reflexivity.
Qed.
Lemma b64val_range c v : b64val c = Some v -> 0 <= v < 64.
Proof.
  pose proof (all_ascii (fun c => match b64val c with Some v => (0 <=? v) && (v <? 64) | None => true end) ltac:(vm_compute; reflexivity) c) as H.
  cbv beta in H. intros E. rewrite E in H. lia.
Qed.

(* what a string without '=' yields, and the state it leaves *)
Fixpoint feed (s : str) (q lc lb : Z) : str * (Z * Z * Z) :=
  match s with
  | [] => ([], (q, lc, lb))
  | c :: s' =>
      match b64val c with
      | None => feed s' q lc lb
      | Some v =>
          let q := (q + 1) mod 4 in
          let lc := lc * 64 + v in
          let lb := lb + 6 in
          if 8 <=? lb then
            let lb := lb - 8 in
            let (o, st) := feed s' q (lc mod 2 ^ lb) lb in
            (ascii_of_N (Z.to_N (lc / 2 ^ lb mod 256)) :: o, st)
          else feed s' q lc lb
      end
  end.
Definition noeq (s : str) : Prop := Forall (fun c => Ascii.eqb c EQ = false) s.
Lemma a2b_feed s t : forall q lc lb, noeq s ->
  a2b (s ++ t) q lc lb = let '(o, (q', lc', lb')) := feed s q lc lb in
                         match a2b t q' lc' lb' with Some r => Some (o ++ r) | None => None end.
Proof.
  induction s as [|c s IH]; intros q lc lb H; cbn [app feed].
  - destruct (a2b t q lc lb); reflexivity.
  - inversion H as [|? ? Hc Hs]; subst. cbn [a2b]. rewrite Hc. destruct (b64val c) as [v|]; [|apply IH; exact Hs].
    cbv zeta. destruct (8 <=? lb + 6); [|apply IH; exact Hs]. rewrite IH by exact Hs.
    destruct (feed s ((q + 1) mod 4) ((lc * 64 + v) mod 2 ^ (lb + 6 - 8)) (lb + 6 - 8)) as [o [[q' lc'] lb']].
    destruct (a2b t q' lc' lb'); reflexivity.
Qed.
Definition lbits (q : Z) : Z := if q =? 0 then 0 else if q =? 1 then 6 else if q =? 2 then 4 else 2.
Lemma feed_state s : forall q lc, 0 <= q < 4 -> exists o lc', feed s q lc (lbits q) = (o, ((q + significant s) mod 4, lc', lbits ((q + significant s) mod 4))).
Proof.
  induction s as [|c s IH]; intros q lc Hq.
  - exists [], lc. cbn [feed]. unfold significant; cbn. rewrite Z.add_0_r, Z.mod_small by lia. reflexivity.
  - cbn [feed]. unfold significant. cbn [filter]. rewrite is_b64_val. destruct (b64val c) as [v|]; [|apply IH; exact Hq].
    cbn [List.length]. fold (significant s) . rewrite Nat2Z.inj_succ. fold (significant s). cbv zeta.
    assert (Hq' : 0 <= (q + 1) mod 4 < 4) by (apply Z.mod_pos_bound; lia).
    assert (HM : (q + Z.succ (significant s)) mod 4 = ((q + 1) mod 4 + significant s) mod 4).
    { rewrite Zplus_mod_idemp_l. f_equal. lia. }
    rewrite HM.
    assert (K : (8 <=? lbits q + 6) = negb (q =? 0) /\ (if q =? 0 then lbits q + 6 else lbits q + 6 - 8) = lbits ((q + 1) mod 4)).
    { assert (q = 0 \/ q = 1 \/ q = 2 \/ q = 3) as [->|[->|[->| ->]]] by lia; split; reflexivity. }
    destruct K as [K1 K2]. rewrite K1. destruct (q =? 0); cbn [negb].
    + rewrite K2. apply IH. exact Hq'.
    + rewrite K2. destruct (IH ((q + 1) mod 4) ((lc * 64 + v) mod 2 ^ lbits ((q + 1) mod 4)) Hq') as (o & lc' & E). rewrite E. eauto.
Qed.
Definition payload (s : str) : str := fst (feed s 0 0 0).
Lemma eqs_ignored n : forall q lc lb, 0 <= q < 2 -> a2b (repeat EQ n) q lc lb = if lb =? 0 then Some [] else None.
Proof.
  induction n as [|n IH]; intros q lc lb H; cbn [repeat a2b]; [reflexivity|]. rewrite Ascii.eqb_refl.
  replace (q <? 2) with true by lia. cbn [orb]. apply IH. exact H.
Qed.
Lemma a2b_eqs s n : noeq s -> a2b (s ++ repeat EQ n) 0 0 0 =
  match significant s mod 4 with
  | 0 => Some (payload s)
  | 1 => None
  | 2 => if Nat.leb n 1 then None else Some (payload s)
  | _ => if Nat.leb n 0 then None else Some (payload s)
  end.
Proof.
  intros H. rewrite a2b_feed by exact H. unfold payload. destruct (feed_state s 0 0 ltac:(lia)) as (o & lc & E).
  change (lbits 0) with 0 in E. rewrite E. cbn [fst]. rewrite Z.add_0_l. pose proof (Z.mod_pos_bound (significant s) 4 ltac:(lia)) as B.
  set (k := significant s mod 4) in *. clearbody k. assert (k = 0 \/ k = 1 \/ k = 2 \/ k = 3) as [->|[->|[->| ->]]] by lia.
  - rewrite eqs_ignored by lia. cbn. rewrite app_nil_r. reflexivity.
  - rewrite eqs_ignored by lia. reflexivity.
  - destruct n as [|[|n]]; cbn; rewrite ?app_nil_r; reflexivity.
  - destruct n as [|n]; cbn; rewrite ?app_nil_r; reflexivity.
Qed.
Lemma b64_loop_eqs s : noeq s -> forall fuel n,
  b64_loop fuel (s ++ repeat EQ n) =
    if significant s mod 4 =? 1 then Exc OutOfFuel
    else let need := (match significant s mod 4 with 0 => 0%nat | 2 => 2%nat | _ => 1%nat end) in
         if Nat.ltb (need - n) fuel then Ok (payload s) else Exc OutOfFuel.
Proof.
  intros H fuel. induction fuel as [|fuel IH]; intros n.
  - cbn. destruct (significant s mod 4 =? 1); [reflexivity|]. destruct (significant s mod 4) as [|[|[]|]|]; reflexivity.
  - cbn [b64_loop]. rewrite a2b_eqs by exact H.
    assert (A : (s ++ repeat EQ n) ++ [EQ] = s ++ repeat EQ (S n)).
    { rewrite <- app_assoc. f_equal. clear. induction n; cbn; [reflexivity|]. f_equal. exact IHn. }
    rewrite A, IH. cbv zeta. pose proof (Z.mod_pos_bound (significant s) 4 ltac:(lia)) as B.
    set (k := significant s mod 4) in *. clearbody k. assert (k = 0 \/ k = 1 \/ k = 2 \/ k = 3) as [->|[->|[->| ->]]] by lia; cbn [Z.eqb Pos.eqb].
    + cbn. reflexivity.
    + reflexivity.
    + destruct n as [|[|n]]; cbn -[Nat.ltb]; try reflexivity.
    + destruct n as [|n]; cbn -[Nat.ltb]; try reflexivity.
Qed.
Lemma b64_loop_ok s fuel : noeq s -> significant s mod 4 <> 1 -> (3 <= fuel)%nat -> b64_loop fuel s = Ok (payload s).
Proof.
  intros H N F. pose proof (b64_loop_eqs s H fuel 0) as E. cbn [repeat] in E. rewrite app_nil_r in E. rewrite E.
  replace (significant s mod 4 =? 1) with false by lia. cbv zeta. rewrite Nat.sub_0_r.
  match goal with |- (if Nat.ltb ?a ?b then _ else _) = _ => replace (Nat.ltb a b) with true; [reflexivity|] end.
  symmetry. apply Nat.ltb_lt. destruct (significant s mod 4) as [|[|[]|]|]; lia.
Qed.
Lemma b64_loop_diverges s fuel : noeq s -> significant s mod 4 = 1 -> b64_loop fuel s = Exc OutOfFuel.
Proof. intros H N. pose proof (b64_loop_eqs s H fuel 0) as E. cbn [repeat] in E. rewrite app_nil_r in E. rewrite E, N. reflexivity. Qed.
Lemma existsb_noeq s : existsb (Ascii.eqb EQ) s = false <-> noeq s.
Proof.
  unfold noeq. induction s as [|c s IH]; cbn [existsb]; [split; [constructor|reflexivity]|]. rewrite orb_false_iff, IH, Ascii.eqb_sym.
  split; [intros [A B]; constructor; assumption|intros H; inversion H; auto].
Qed.

(* encoding *)
Fixpoint nopad (l : list Z) : str :=
  match l with
  | [] => []
  | [a] => [b64char (a / 4); b64char (a mod 4 * 16)]
  | [a; b] => [b64char (a / 4); b64char (a mod 4 * 16 + b / 16); b64char (b mod 16 * 4)]
  | a :: b :: c :: r =>
      b64char (a / 4) :: b64char (a mod 4 * 16 + b / 16) :: b64char (b mod 16 * 4 + c / 64) ::
      b64char (c mod 64) :: nopad r
  end.
Definition bytes (l : list Z) : Prop := Forall (fun x => 0 <= x < 256) l.
(* induction in steps of three *)
Lemma list3_ind (P : list Z -> Prop) : P [] -> (forall a, P [a]) -> (forall a b, P [a; b]) ->
  (forall a b c r, P r -> P (a :: b :: c :: r)) -> forall l, P l.
Proof.
  intros H0 H1 H2 H3. fix F 1. intros [|a [|b [|c r]]]; [exact H0|apply H1|apply H2|]. apply H3. apply F.
Qed.
Ltac digits := repeat match goal with
  | |- context [b64val (b64char ?v)] =>
      let H := fresh in assert (H : 0 <= v < 64) by (Z.to_euclidean_division_equations; lia); rewrite (proj1 (b64_in v H)); clear H
  end.
Ltac inv_bytes := repeat match goal with
  | H : bytes (_ :: _) |- _ => let A := fresh "A" in let B := fresh "B" in inversion H as [|? ? A B]; subst; clear H; fold bytes in *; cbv beta in A
  | H : Forall (fun x => 0 <= x < 256) (_ :: _) |- _ => let A := fresh "A" in let B := fresh "B" in inversion H as [|? ? A B]; subst; clear H; cbv beta in A
  end.
Lemma payload_nopad l : bytes l -> feed (nopad l) 0 0 0 = (map (fun a => ascii_of_N (Z.to_N a)) l,
  let k := Z.of_nat (List.length l) mod 3 in (if k =? 0 then (0, 0, 0) else if k =? 1 then (2, 0, 4) else (3, 0, 2))).
Proof.
  induction l as [|a|a b|a b c r IH] using list3_ind; intros H.
  - reflexivity.
  - inv_bytes. cbn [nopad feed]. digits.
    change ((0 + 1) mod 4) with 1. change ((1 + 1) mod 4) with 2. change (8 <=? 0 + 6) with false. cbv zeta iota. change (8 <=? 0 + 6 + 6) with true. cbv iota.
    change (0 + 6 + 6 - 8) with 4. cbn [map List.length]. change (Z.of_nat 1 mod 3) with 1. cbn [Z.eqb].
    replace ((0 * 64 + a / 4) * 64 + a mod 4 * 16) with (a * 16) by (Z.to_euclidean_division_equations; lia).
    change (2 ^ 4) with 16. rewrite Z.mod_mul, Z.div_mul, Z.mod_small by lia. reflexivity.
  - inv_bytes. cbn [nopad feed]. digits.
    change ((0 + 1) mod 4) with 1. change ((1 + 1) mod 4) with 2. change ((2 + 1) mod 4) with 3. change (8 <=? 0 + 6) with false. cbv zeta iota. change (8 <=? 0 + 6 + 6) with true. cbv iota.
    change (0 + 6 + 6 - 8) with 4. change (8 <=? 4 + 6) with true. cbv iota. change (4 + 6 - 8) with 2. cbn [map List.length]. change (Z.of_nat 2 mod 3) with 2. change (2 =? 0) with false. change (2 =? 1) with false. cbv iota.
    replace ((0 * 64 + a / 4) * 64 + (a mod 4 * 16 + b / 16)) with (b / 16 + a * 16) by (Z.to_euclidean_division_equations; lia).
    change (2 ^ 4) with 16. change (2 ^ 2) with 4. rewrite Z.mod_add, Z.div_add by lia.
    rewrite (Z.mod_small (b / 16) 16) by (Z.to_euclidean_division_equations; lia).
    rewrite (Z.div_small (b / 16) 16) by (Z.to_euclidean_division_equations; lia).
    replace (b / 16 * 64 + b mod 16 * 4) with (b * 4) by (Z.to_euclidean_division_equations; lia).
    rewrite Z.mod_mul, Z.div_mul by lia. rewrite Z.add_0_l, !Z.mod_small by lia. reflexivity.
  - inv_bytes. cbn [nopad feed]. digits.
    change ((0 + 1) mod 4) with 1. change ((1 + 1) mod 4) with 2. change ((2 + 1) mod 4) with 3. change ((3 + 1) mod 4) with 0. change (8 <=? 0 + 6) with false. cbv zeta iota. change (8 <=? 0 + 6 + 6) with true. cbv iota.
    change (0 + 6 + 6 - 8) with 4. change (8 <=? 4 + 6) with true. cbv iota. change (4 + 6 - 8) with 2. change (8 <=? 2 + 6) with true. cbv iota. change (2 + 6 - 8) with 0.
    replace ((0 * 64 + a / 4) * 64 + (a mod 4 * 16 + b / 16)) with (b / 16 + a * 16) by (Z.to_euclidean_division_equations; lia).
    change (2 ^ 4) with 16. change (2 ^ 2) with 4. change (2 ^ 0) with 1. rewrite Z.mod_add, Z.div_add by lia.
    rewrite (Z.mod_small (b / 16) 16) by (Z.to_euclidean_division_equations; lia).
    rewrite (Z.div_small (b / 16) 16) by (Z.to_euclidean_division_equations; lia).
    replace (b / 16 * 64 + (b mod 16 * 4 + c / 64)) with (c / 64 + b * 4) by (Z.to_euclidean_division_equations; lia).
    rewrite Z.mod_add, Z.div_add by lia.
    rewrite (Z.mod_small (c / 64) 4) by (Z.to_euclidean_division_equations; lia).
    rewrite (Z.div_small (c / 64) 4) by (Z.to_euclidean_division_equations; lia).
    replace (c / 64 * 64 + c mod 64) with c by (Z.to_euclidean_division_equations; lia).
    rewrite Z.mod_1_r, Z.div_1_r. rewrite IH by assumption. cbn [map].
    rewrite !Z.add_0_l, !(Z.mod_small _ 256) by lia. do 2 f_equal.
    replace (Z.of_nat (List.length (a :: b :: c :: r))) with (Z.of_nat (List.length r) + 1 * 3) by (cbn [List.length]; lia).
    rewrite Z.mod_add by lia. reflexivity.
Qed.
Lemma nopad_facts l : bytes l -> noeq (nopad l) /\ significant (nopad l) = zlen (nopad l) /\
  zlen (nopad l) = (4 * zlen l + 2) / 3 /\ exists k, b64enc l = nopad l ++ repeat EQ k.
Proof.
  assert (S : forall v s, 0 <= v < 64 -> significant (b64char v :: s) = 1 + significant s).
  { intros v s Hv. unfold significant. cbn [filter]. rewrite is_b64_val, (proj1 (b64_in v Hv)). cbn [List.length]. lia. }
  induction l as [|a|a b|a b c r IH] using list3_ind; intros H.
  - repeat split; try reflexivity; [constructor|exists 0%nat; reflexivity].
  - inv_bytes. cbn [nopad b64enc]. split; [|split; [|split; [reflexivity|exists 2%nat; reflexivity]]].
    + repeat constructor; apply b64_in; Z.to_euclidean_division_equations; lia.
    + rewrite !S by (Z.to_euclidean_division_equations; lia). reflexivity.
  - inv_bytes. cbn [nopad b64enc]. split; [|split; [|split; [reflexivity|exists 1%nat; reflexivity]]].
    + repeat constructor; apply b64_in; Z.to_euclidean_division_equations; lia.
    + rewrite !S by (Z.to_euclidean_division_equations; lia). reflexivity.
  - inv_bytes. destruct IH as (I1 & I2 & I3 & k & I4); [assumption|]. cbn [nopad b64enc].
    split; [|split; [|split; [|exists k; rewrite I4; reflexivity]]].
    + repeat constructor; try assumption; apply b64_in; Z.to_euclidean_division_equations; lia.
    + rewrite !S by (Z.to_euclidean_division_equations; lia). rewrite I2. unfold zlen. cbn [List.length]. lia.
    + unfold zlen in *. cbn [List.length]. rewrite !Nat2Z.inj_succ.
      replace (4 * Z.succ (Z.succ (Z.succ (Z.of_nat (List.length r)))) + 2) with (4 * Z.of_nat (List.length r) + 2 + 4 * 3) by lia.
      rewrite Z.div_add by lia. lia.
Qed.
Lemma rstrip_eq_app s k : noeq s -> rstrip_eq (s ++ repeat EQ k) = s.
Proof.
  intros H. unfold rstrip_eq. rewrite rev_app_distr.
  assert (E : forall n t, lstrip_eq (rev (repeat EQ n) ++ t) = lstrip_eq t).
  { clear. assert (R : forall n, rev (repeat EQ n) = repeat EQ n).
    { induction n; [reflexivity|]. cbn. rewrite IHn. clear. induction n; cbn; [reflexivity|]. f_equal. exact IHn. }
    intros n t. rewrite R. induction n; [reflexivity|]. cbn [repeat app lstrip_eq]. rewrite Ascii.eqb_refl. exact IHn. }
  rewrite E. assert (F : lstrip_eq (rev s) = rev s).
  { apply Forall_rev in H. destruct (rev s) as [|c t]; [reflexivity|]. inversion H as [|? ? Hc _]; subst. cbn. rewrite Hc. reflexivity. }
  rewrite F. apply rev_involutive.
Qed.
Lemma bytes_of_str s : bytes (map zord s).
Proof. unfold bytes. rewrite Forall_map. apply Forall_forall. intros c _. apply zord_range. Qed.
Lemma encode_nopad s : rstrip_eq (b64encode s) = nopad (map zord s).
Proof.
  unfold b64encode. destruct (nopad_facts _ (bytes_of_str s)) as (A & _ & _ & k & E). rewrite E. apply rstrip_eq_app. exact A.
Qed.
Lemma b64_roundtrip s fuel : (3 <= fuel)%nat ->
  existsb (Ascii.eqb EQ) (rstrip_eq (b64encode s)) = false /\ b64_loop fuel (rstrip_eq (b64encode s)) = Ok s /\
  zlen (rstrip_eq (b64encode s)) = (4 * zlen s + 2) / 3 /\ Forall (fun c => is_b64 c = true) (rstrip_eq (b64encode s)).
Proof.
  intros F. rewrite encode_nopad. destruct (nopad_facts _ (bytes_of_str s)) as (A & B & C & _).
  split; [apply existsb_noeq; exact A|]. assert (ZL : zlen (map zord s) = zlen s) by (unfold zlen; rewrite map_length; reflexivity).
  rewrite ZL in C. split; [|split; [exact C|]].
  - rewrite b64_loop_ok; [|exact A| |exact F].
    + unfold payload. rewrite (payload_nopad _ (bytes_of_str s)). cbn [fst]. rewrite map_map. f_equal. rewrite <- (map_id s) at 2.
      apply map_ext. intros c. unfold zord. rewrite N2Z.id. apply ascii_N_embedding.
    + rewrite B, C. Z.to_euclidean_division_equations; lia.
  - (* all characters significant *)
    unfold significant, zlen in B. apply Nat2Z.inj in B. clear - B. induction (nopad (map zord s)) as [|c l IH]; [constructor|].
    cbn [filter] in B. destruct (is_b64 c) eqn:E.
    + constructor; [exact E|]. apply IH. cbn [List.length] in B. lia.
    + exfalso. assert (forall l, (List.length (filter is_b64 l) <= List.length l)%nat) as G.
      { clear. induction l as [|c l IH]; cbn; [lia|]. destruct (is_b64 c); cbn; lia. }
      specialize (G l). cbn [List.length] in B. lia.
Qed.
