(* Properties C44-C47, C80, C81 and C155: the bear-off databases *)
From Verif Require Import Py BoardSpec BearoffModel BearoffSpec BearoffProofs BearoffCount BearoffParam.

(* C44 *)
Theorem C44_perfect_index : forall p c, (1 <= p)%nat ->
  (forall t rest, side_of p c t -> exists k,
     oneside_index (t ++ rest) (Z.of_nat p) (Z.of_nat c) = Ok k /\ 0 <= k < binomial (p + c) p) /\
  (forall t u rest rest', side_of p c t -> side_of p c u ->
     oneside_index (t ++ rest) (Z.of_nat p) (Z.of_nat c) = oneside_index (u ++ rest') (Z.of_nat p) (Z.of_nat c) -> t = u) /\
  (forall k, 0 <= k < binomial (p + c) p -> exists t, side_of p c t /\
     forall rest, oneside_index (t ++ rest) (Z.of_nat p) (Z.of_nat c) = Ok k) /\
  (forall rest, oneside_index (repeat 0 p ++ rest) (Z.of_nat p) (Z.of_nat c) = Ok 0).
Proof. exact perfect_index. Qed.
Print Assumptions C44_perfect_index.
Example C44_case : side_of 3 4 [1; 0; 2] /\ oneside_index ([1; 0; 2] ++ [9]) 3 4 = Ok 15 /\ binomial (3 + 4) 3 = 35.
Proof. split; [split; [reflexivity|split; [repeat constructor; lia|vm_compute; discriminate]]|]. vm_compute. auto. Qed.

(* C45: full statement: k2t inverts t2k for up to fifteen chequers; holds for up to fourteen only *)
Theorem C45_nori_keys_partial : forall H R, hash_spec H R ->
  (forall t, side_of 6 15 t -> exists k, oneside_upto6_t2k H t = Ok k /\ 0 <= k < 54264) /\
  (forall t u, side_of 6 15 t -> side_of 6 15 u -> oneside_upto6_t2k H t = oneside_upto6_t2k H u -> t = u) /\
  (forall k, 0 <= k < 54264 -> exists t, side_of 6 15 t /\ oneside_upto6_t2k H t = Ok k) /\
  (forall t, side_of 6 15 t -> exists k, oneside_upto6_t2k H t = Ok k /\
     oneside_upto6_k2t R k = if total t <=? 14 then Ok t else Exc AssertionError).
Proof. exact nori_keys. Qed.
Print Assumptions C45_nori_keys_partial.
(* the combinatorial number system is such a pair of functions; with it the keys are those of nori_test.py *)
Example C45_case : hash_spec comb_hash comb_rhash /\ side_of 6 15 [1; 1; 0; 0; 0; 0] /\
  oneside_upto6_t2k comb_hash [1; 1; 0; 0; 0; 0] = Ok 8 /\ oneside_upto6_k2t comb_rhash 8 = Ok [1; 1; 0; 0; 0; 0] /\
  oneside_upto6_t2k comb_hash [0; 0; 0; 0; 0; 15] = Ok 54263.
Proof.
  split; [exact comb_hash_ok|]. split; [split; [reflexivity|split; [repeat constructor; lia|vm_compute; discriminate]]|]. vm_compute. auto.
Qed.

Theorem C45_fifteen_refuted : exists t, side_of 6 15 t /\ forall H R, hash_spec H R ->
  exists k, oneside_upto6_t2k H t = Ok k /\ oneside_upto6_k2t R k = Exc AssertionError.
Proof. exact nori_fifteen. Qed.
Print Assumptions C45_fifteen_refuted.

(* C46 *)
Theorem C46_number_of_positions :
  (exists l : list (list Z * list Z), NoDup l /\ (forall p, In p l <-> legal_position p) /\ Z.of_nat (List.length l) = WTN) /\
  fold_right Z.add 0 (map BackgammonCombination (zrange 0 16)) = WTN /\
  (forall m, 0 <= m <= 15 -> BackgammonCombination m = BackgammonCombination_allC m).
Proof. exact number_of_positions. Qed.
Print Assumptions C46_number_of_positions.
Definition opening : list Z := [0;0;0;0;0;5;0;3;0;0;0;0;5;0;0;0;0;0;0;0;0;0;0;2;0].
Example C46_case : legal_position (opening, opening).
Proof.
  assert (W : wf_side opening) by (split; [reflexivity|repeat constructor; lia]).
  split; [split; [exact W|vm_compute; discriminate]|]. split; [split; [exact W|vm_compute; discriminate]|].
  intros k H. cbn [fst snd]. do 24 (destruct k as [|k]; [vm_compute; auto|]). lia.
Qed.

(* C47 *)
Theorem C47_backward_count : forall t, List.length t = 25%nat ->
  (forall k, nth k t 0 <> 0 -> (forall j, (k < j)%nat -> nth j t 0 = 0) -> backward t = Ok (Z.of_nat k + 1)) /\
  ((forall k, nth k t 0 = 0) -> backward t = Exc IndexError) /\
  count t = total t.
Proof. exact backward_count. Qed.
Print Assumptions C47_backward_count.
Example C47_case : List.length opening = 25%nat /\ backward opening = Ok 24 /\ BearoffModel.count opening = 15.
Proof. vm_compute. auto. Qed.

(* C80 *)
Theorem C80_trice_keys_refuted : exists C_Hash C_RHash us them us' them', hash_spec C_Hash C_RHash /\
  (side_of 6 15 us /\ side_of 6 15 them) /\ (side_of 6 15 us' /\ side_of 6 15 them') /\ (us, them) <> (us', them') /\
  exists k, trice_t2k C_Hash us them = Ok k /\ trice_t2k C_Hash us' them' = Ok k.
Proof. exact trice_collision. Qed.
Print Assumptions C80_trice_keys_refuted.
(* pairs with the same number of chequers do have different keys *)
Theorem C80_same_count_partial : forall C_Hash C_RHash us them us' them', hash_spec C_Hash C_RHash ->
  side_of 6 15 us -> side_of 6 15 them -> side_of 6 15 us' -> side_of 6 15 them' -> total us + total them = total us' + total them' ->
  exists k k', trice_t2k C_Hash us them = Ok k /\ trice_t2k C_Hash us' them' = Ok k' /\ (k = k' -> us = us' /\ them = them').
Proof. exact trice_same_count. Qed.
Print Assumptions C80_same_count_partial.
Example C80_case : total [1;0;2;0;0;0] + total [0;0;0;0;3;0] = total [0;0;0;0;3;0] + total [1;0;2;0;0;0]
  /\ trice_t2k comb_hash [1;0;2;0;0;0] [0;0;0;0;3;0] <> Exc IndexError /\ trice_t2k comb_hash [1;0;2;0;0;0] [0;0;0;0;3;0] <> trice_t2k comb_hash [0;0;0;0;3;0] [1;0;2;0;0;0].
Proof. split; [reflexivity|]. split; vm_compute; discriminate. Qed.

(* C81 *)
Theorem C81_rawread : forall delivered file datalen index, 1 <= datalen -> 0 <= index ->
  rawread delivered file datalen index =
  if (index + 1) * datalen <=? zlen file then Ok (firstn (Z.to_nat datalen) (skipn (Z.to_nat (index * datalen)) file)) else Exc IndexError.
Proof. exact rawread_record. Qed.
Print Assumptions C81_rawread.
Example C81_case : rawread (fun _ _ => 2) (L "abcdefghij") 3 2 = Ok (L "ghi") /\ rawread (fun _ _ => 2) (L "abcdefghij") 3 3 = Exc IndexError.
Proof. vm_compute. auto. Qed.

(* C155 *)
Theorem C155_parameters :
  (forall us them, wf_side us -> wf_side them ->
     (total us = 0 \/ total them = 0 -> bearoff_param us them = Exc IndexError) /\
     (0 < total us -> 0 < total them -> exists p c, bearoff_param us them = Ok (Z.of_nat p, Z.of_nat c) /\
        (forall p' c', enough p' c' us /\ enough p' c' them <-> Z.of_nat p <= p' /\ Z.of_nat c <= c') /\
        exists i j, oneside_index us (Z.of_nat p) (Z.of_nat c) = Ok i /\ oneside_index them (Z.of_nat p) (Z.of_nat c) = Ok j /\
          0 <= i < binomial (p + c) p /\ 0 <= j < binomial (p + c) p)) /\
  (forall us them us' them' p c, wf_side us -> wf_side them -> wf_side us' -> wf_side them' ->
     bearoff_param us them = Ok (p, c) -> bearoff_param us' them' = Ok (p, c) ->
     oneside_index us p c = oneside_index us' p c -> oneside_index them p c = oneside_index them' p c -> us = us' /\ them = them').
Proof. exact bearoff_parameters. Qed.
Print Assumptions C155_parameters.
Definition late : list Z := [2; 0; 1] ++ repeat 0 22.
Definition later : list Z := [0; 5] ++ repeat 0 23.
Example C155_case : wf_side late /\ wf_side later /\ bearoff_param late later = Ok (3, 5) /\ binomial (3 + 5) 3 = 56 /\ bearoff_param late (repeat 0 25) = Exc IndexError.
Proof. split; [split; [reflexivity|repeat constructor; lia]|]. split; [split; [reflexivity|repeat constructor; lia]|]. vm_compute. auto. Qed.
