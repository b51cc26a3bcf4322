From Coq Require Import ZifyBool ZifyNat Permutation.
From Verif Require Import Py PyFacts UtilModel BoardModel BoardSpec MoveModel MoveSpec.

Lemma is_die_spec k : is_die k = true <-> a_die k.
Proof. unfold is_die, a_die, zmem; cbn [existsb]; lia. Qed.
Lemma dget_held p k : In k (map fst p) -> dget p k = Some (held p k).
Proof.
  unfold held; induction p as [|[k' v] p IH]; cbn; [contradiction|]. intros H.
  destruct (k' =? k) eqn:E; auto. apply IH; destruct H; auto; lia.
Qed.
Lemma held_notin p k : ~ In k (map fst p) -> held p k = 0.
Proof.
  unfold held; induction p as [|[k' v] p IH]; cbn; auto. intros H.
  destruct (k' =? k) eqn:E; [exfalso; apply H; left; lia|]. apply IH; tauto.
Qed.
Lemma dset_keys p k v : In k (map fst p) -> map fst (dset p k v) = map fst p.
Proof.
  induction p as [|[k' v'] p IH]; cbn; [contradiction|]. intros H.
  destruct (k' =? k) eqn:E; cbn; [f_equal; lia|]. f_equal; apply IH; destruct H; auto; lia.
Qed.
Lemma held_dset p k v j : held (dset p k v) j = if j =? k then v else held p j.
Proof.
  unfold held; induction p as [|[k' v'] p IH]; cbn.
  - destruct (k =? j) eqn:E; replace (j =? k) with (k =? j) by lia; rewrite E; auto.
  - destruct (k' =? k) eqn:E; cbn.
    + destruct (k =? j) eqn:F; replace (j =? k) with (k =? j) by lia; rewrite F; auto.
      replace (k' =? j) with false by lia. auto.
    + destruct (k' =? j) eqn:F; [replace (j =? k) with false by lia; auto|]. apply IH.
Qed.
Lemma held_nonneg p k : Forall (fun kv => 0 <= snd kv) p -> 0 <= held p k.
Proof.
  intros F; unfold held. destruct (find _ p) eqn:E; [|lia]. apply find_some in E as [E _].
  rewrite Forall_forall in F; apply F; auto.
Qed.
Lemma dset_same p k : In k (map fst p) -> dset p k (held p k) = p.
Proof.
  unfold held; induction p as [|[k' v'] p IH]; cbn; [contradiction|]. intros H.
  destruct (k' =? k) eqn:E; cbn; [do 2 f_equal; lia|]. f_equal; apply IH; destruct H; auto; lia.
Qed.
Lemma dset_dset p k v w : dset (dset p k v) k w = dset p k w.
Proof.
  induction p as [|[k' v'] p IH]; cbn; [rewrite Z.eqb_refl; auto|].
  destruct (k' =? k) eqn:E; cbn; rewrite ?Z.eqb_refl, ?E; auto. f_equal; auto.
Qed.
Lemma pool_len_dset p k v : In k (map fst p) -> pool_len (dset p k v) = pool_len p - held p k + v.
Proof.
  unfold pool_len, held; induction p as [|[k' v'] p IH]; cbn; [contradiction|]. intros H.
  destruct (k' =? k) eqn:E; cbn; [lia|]. fold (zsum (map snd (dset p k v))); fold (zsum (map snd p)).
  rewrite IH by (destruct H; auto; lia). lia.
Qed.
Lemma wf_dset p k v : wf_pool p -> In k (map fst p) -> 0 <= v -> wf_pool (dset p k v).
Proof.
  intros (N & K & F) H Hv; repeat split; rewrite ?dset_keys; auto.
  clear N K H; induction p as [|[k' v'] p IH]; cbn; [repeat constructor; auto|].
  inversion F; subst. destruct (k' =? k); constructor; auto.
Qed.

Lemma pool_get_wf p d : wf_pool p -> a_die d -> pool_get p d = Ok (held p d).
Proof.
  intros (N & K & F) D. unfold pool_get. rewrite (proj2 (is_die_spec d) D), dget_held; auto.
Qed.
Lemma pool_get_bad p d : ~ a_die d -> pool_get p d = Exc AssertionError.
Proof. rewrite <- is_die_spec. unfold pool_get. destruct (is_die d); tauto. Qed.
Lemma pool_in_wf p d : wf_pool p -> a_die d -> pool_in p d = Ok (0 <? held p d).
Proof. intros W D; unfold pool_in; rewrite pool_get_wf by auto; auto. Qed.

Lemma consume_ok p d : wf_pool p -> a_die d -> 0 < held p d ->
  consume p d = Ok (dset p d (held p d - 1)).
Proof.
  intros W D H. unfold consume. rewrite pool_in_wf by auto. cbn [bind].
  replace (0 <? held p d) with true by lia. rewrite pool_get_wf by auto. auto.
Qed.
Lemma consume_none p d : wf_pool p -> a_die d -> held p d <= 0 -> consume p d = Exc TypeError.
Proof.
  intros W D H. unfold consume. rewrite pool_in_wf by auto. cbn [bind].
  replace (0 <? held p d) with false by lia. auto.
Qed.
Lemma consume_bad p d : ~ a_die d -> consume p d = Exc AssertionError.
Proof. intros H; unfold consume, pool_in; rewrite pool_get_bad; auto. Qed.
Lemma add_ok p d : wf_pool p -> a_die d -> pool_add p d = Ok (dset p d (held p d + 1)).
Proof. intros W D; unfold pool_add; rewrite pool_get_wf; auto. Qed.
Lemma add_bad p d : ~ a_die d -> pool_add p d = Exc AssertionError.
Proof. intros H; unfold pool_add; rewrite pool_get_bad; auto. Qed.

Lemma consume_inv p d p' : wf_pool p -> consume p d = Ok p' ->
  a_die d /\ 0 < held p d /\ p' = dset p d (held p d - 1) /\ wf_pool p' /\
  pool_len p' = pool_len p - 1 /\ forall k, held p' k = if k =? d then held p k - 1 else held p k.
Proof.
  intros W H. assert (D : a_die d).
  { destruct (is_die d) eqn:E; [apply is_die_spec; auto|]. rewrite consume_bad in H; [discriminate|].
    rewrite <- is_die_spec; congruence. }
  assert (0 < held p d) as HP.
  { destruct (Z_lt_ge_dec 0 (held p d)); auto. rewrite consume_none in H by (auto; lia). discriminate. }
  rewrite consume_ok in H by auto. injection H as <-.
  assert (In d (map fst p)) as K by (apply W; auto).
  repeat split; auto; try (apply D); try (apply wf_dset; auto; lia).
  - rewrite pool_len_dset by auto. lia.
  - intros k; rewrite held_dset. destruct (k =? d) eqn:E; auto. replace k with d by lia; auto.
Qed.
Lemma add_inv p d p' : wf_pool p -> pool_add p d = Ok p' ->
  a_die d /\ p' = dset p d (held p d + 1) /\ wf_pool p' /\
  pool_len p' = pool_len p + 1 /\ forall k, held p' k = if k =? d then held p k + 1 else held p k.
Proof.
  intros W H. assert (D : a_die d).
  { destruct (is_die d) eqn:E; [apply is_die_spec; auto|]. rewrite add_bad in H; [discriminate|].
    rewrite <- is_die_spec; congruence. }
  rewrite add_ok in H by auto. injection H as <-.
  assert (In d (map fst p)) as K by (apply W; auto).
  assert (0 <= held p d) by (apply held_nonneg; apply W).
  repeat split; auto; try (apply D); try (apply wf_dset; auto; lia).
  - rewrite pool_len_dset by auto. lia.
  - intros k; rewrite held_dset. destruct (k =? d) eqn:E; auto. replace k with d by lia; auto.
Qed.

Lemma wf_empty : wf_pool empty_pool.
Proof.
  unfold wf_pool, empty_pool; cbn. repeat split.
  - repeat constructor; cbn; intuition discriminate.
  - unfold a_die; intros; lia.
  - repeat constructor; cbn; lia.
Qed.
Lemma wf_new_pool r : (fst r = 0 \/ (a_die (fst r) /\ a_die (snd r))) -> wf_pool (new_pool r).
Proof.
  intros H. unfold new_pool. destruct (fst r =? 0) eqn:E; [apply wf_empty|].
  destruct H as [|[H1 H2]]; [lia|].
  assert (K : forall d, a_die d -> In d (map fst empty_pool)) by apply wf_empty.
  destruct (fst r =? snd r); [apply wf_dset; auto using wf_empty; lia|].
  apply wf_dset; [apply wf_dset; auto using wf_empty; lia| |lia]. rewrite dset_keys; auto.
Qed.
Lemma held_empty d : held empty_pool d = 0.
Proof.
  unfold held, empty_pool; cbn [find fst snd].
  repeat match goal with |- context [if ?c then _ else _] => destruct c end; auto.
Qed.

(* ---------- get_max ---------- *)
Lemma max_in_find p l : wf_pool p -> (forall d, In d l -> a_die d) ->
  max_in p l = Ok (find (fun d => 0 <? held p d) l).
Proof.
  intros W; induction l as [|d l IH]; cbn [max_in find]; auto; intros H.
  rewrite pool_in_wf by (auto; apply H; cbn; auto). cbn [bind].
  destruct (0 <? held p d); auto. apply IH; intros; apply H; cbn; auto.
Qed.
Definition is_max (p : pool) (o : option Z) : Prop :=
  match o with
  | None => forall d, a_die d -> held p d = 0
  | Some d => a_die d /\ 0 < held p d /\ forall k, a_die k -> d < k -> held p k = 0
  end.
Lemma get_max_spec p : wf_pool p -> exists o, get_max p = Ok o /\ is_max p o.
Proof.
  intros W. unfold get_max. rewrite max_in_find; auto.
  2:{ intros d H; apply In_zrange_down in H; unfold a_die; lia. }
  eexists; split; [reflexivity|].
  assert (NN : forall d, 0 <= held p d) by (intros; apply held_nonneg; apply W).
  change (zrange_down 6 0) with [6; 5; 4; 3; 2; 1]. cbn [find].
  assert (D6 : forall d, a_die d -> d = 1 \/ d = 2 \/ d = 3 \/ d = 4 \/ d = 5 \/ d = 6) by (unfold a_die; lia).
  pose proof (NN 1); pose proof (NN 2); pose proof (NN 3); pose proof (NN 4); pose proof (NN 5); pose proof (NN 6).
  destruct (0 <? held p 6) eqn:E6; [|destruct (0 <? held p 5) eqn:E5; [|destruct (0 <? held p 4) eqn:E4;
   [|destruct (0 <? held p 3) eqn:E3; [|destruct (0 <? held p 2) eqn:E2; [|destruct (0 <? held p 1) eqn:E1]]]]];
  cbn [is_max]; try (split; [unfold a_die; lia|split; [lia|]]);
  intros k Hk; try (intros Hlt); destruct (D6 k Hk) as [->|[->|[->|[->|[->| ->]]]]]; lia.
Qed.

(* ---------- the measure used as fuel ---------- *)
Lemma fuel_wf p : wf_pool p -> zsum (map (fun kv => Z.max 0 (snd kv)) p) = pool_len p.
Proof.
  intros (_ & _ & F). unfold pool_len. induction p as [|[k v] p IH]; cbn; auto.
  inversion F; subst; cbn in *. fold (zsum (map snd p)). fold (zsum (map (fun kv : Z * Z => Z.max 0 (snd kv)) p)).
  rewrite IH by auto. lia.
Qed.
Lemma pool_len_nonneg p : wf_pool p -> 0 <= pool_len p.
Proof.
  intros (_ & _ & F). unfold pool_len. induction p as [|[k v] p IH]; cbn; [lia|].
  inversion F; subst; cbn in *. fold (zsum (map snd p)). specialize (IH ltac:(auto)). lia.
Qed.
Lemma held_le_len p d : wf_pool p -> held p d <= pool_len p.
Proof.
  intros (_ & _ & F). unfold pool_len, held. induction p as [|[k v] p IH]; cbn; [lia|].
  inversion F as [|? ? Hv HF]; subst; cbn in *. fold (zsum (map snd p)).
  assert (0 <= zsum (map snd p)).
  { clear -HF. induction p as [|[k v] p IH]; cbn; [lia|]. inversion HF; subst. cbn in *.
    fold (zsum (map snd p)). specialize (IH ltac:(auto)). lia. }
  specialize (IH HF). destruct (k =? d); cbn in *; lia.
Qed.
Lemma pool_len_six p : wf_pool p -> (forall kv, In kv p -> a_die (fst kv)) ->
  pool_len p = held p 1 + held p 2 + held p 3 + held p 4 + held p 5 + held p 6.
Proof.
  intros (N & _ & _) H. unfold pool_len.
  assert (G : forall l : pool, NoDup (map fst l) -> (forall kv, In kv l -> a_die (fst kv)) ->
     zsum (map snd l) = held l 1 + held l 2 + held l 3 + held l 4 + held l 5 + held l 6).
  { clear. induction l as [|[k v] l IH]; intros N H; [reflexivity|].
    cbn [map] in N; inversion N as [|? ? NI N']; subst. cbn [map snd zsum fold_right]. fold (zsum (map snd l)).
    rewrite IH by (auto; intros; apply H; cbn; auto).
    pose proof (H (k, v) (or_introl eq_refl)) as D; unfold a_die in D; cbn in D, NI.
    apply held_notin in NI.
    assert (HC : forall j, held ((k, v) :: l) j = if k =? j then v else held l j)
      by (intros j; unfold held; cbn; destruct (k =? j); auto).
    rewrite !HC. assert (k = 1 \/ k = 2 \/ k = 3 \/ k = 4 \/ k = 5 \/ k = 6) as C by lia.
    destruct C as [->|[->|[->|[->|[->| ->]]]]]; cbn; lia. }
  apply G; auto.
Qed.

(* ---------- C19 ---------- *)
Lemma step_held p o : wf_pool p ->
  wf_pool (pool_step p o) /\ forall k, held (pool_step p o) k = held_step (held p) o k.
Proof.
  intros W. unfold pool_step. destruct o as [d|d].
  - destruct (pool_add p d) as [p'|e] eqn:E.
    + apply add_inv in E as (D & -> & W' & _ & H); auto. split; auto. intros k; rewrite H. cbn.
      unfold a_die in D. replace ((1 <=? d) && (d <=? 6)) with true by lia. auto.
    + split; auto. intros k; cbn. destruct ((1 <=? d) && (d <=? 6)) eqn:D; auto.
      rewrite add_ok in E by (auto; unfold a_die; lia). discriminate.
  - destruct (consume p d) as [p'|e] eqn:E.
    + apply consume_inv in E as (D & P & -> & W' & _ & H); auto. split; auto. intros k; rewrite H. cbn.
      unfold a_die in D. replace ((1 <=? d) && (d <=? 6)) with true by lia. cbn [andb].
      destruct (k =? d) eqn:F; auto. replace k with d by lia. replace (0 <? held p d) with true by lia. auto.
    + split; auto. intros k; cbn. destruct ((1 <=? d) && (d <=? 6)) eqn:D; auto. cbn [andb].
      destruct (k =? d) eqn:F; auto. replace k with d by lia. destruct (0 <? held p d) eqn:G; auto.
      rewrite consume_ok in E by (auto; unfold a_die; lia). discriminate.
Qed.
Lemma held_step_ext h h' o : (forall k, h k = h' k) -> forall k, held_step h o k = held_step h' o k.
Proof. intros H k; destruct o; cbn; rewrite H; auto. Qed.
Lemma run_held_ext ops : forall h h', (forall k, h k = h' k) ->
  forall k, fold_left held_step ops h k = fold_left held_step ops h' k.
Proof. induction ops as [|o ops IH]; cbn; auto. intros h h' H. apply IH. apply held_step_ext; auto. Qed.
Lemma run_held ops : forall p, wf_pool p ->
  wf_pool (fold_left pool_step ops p) /\
  forall k, held (fold_left pool_step ops p) k = fold_left held_step ops (held p) k.
Proof.
  induction ops as [|o ops IH]; cbn; auto. intros p W.
  destruct (step_held p o W) as [W' H]. destruct (IH _ W') as [W2 H2]. split; auto.
  intros k; rewrite H2. apply run_held_ext; auto.
Qed.
Lemma keys_step p o : (forall kv, In kv p -> a_die (fst kv)) -> forall kv, In kv (pool_step p o) -> a_die (fst kv).
Proof.
  intros K. assert (KS : forall d v, a_die d -> forall kv, In kv (dset p d v) -> a_die (fst kv)).
  { clear -K. intros d v D. induction p as [|[k' v'] p IH]; cbn.
    - intros kv [<-|[]]; auto.
    - destruct (k' =? d); cbn; intros kv [<-|H]; auto.
      + apply K; cbn; auto.
      + apply (K (k', v')); cbn; auto.
      + apply IH; auto. intros x Hx; apply K; cbn; auto. }
  unfold pool_step. destruct o as [d|d].
  - unfold pool_add. destruct (pool_get p d) eqn:E; cbn; auto. apply KS.
    destruct (is_die d) eqn:F; [apply is_die_spec; auto|]. rewrite pool_get_bad in E; [discriminate|].
    rewrite <- is_die_spec; congruence.
  - unfold consume, pool_in. destruct (pool_get p d) eqn:E; cbn; auto. destruct (0 <? a); cbn; auto.
    apply KS. destruct (is_die d) eqn:F; [apply is_die_spec; auto|]. rewrite pool_get_bad in E; [discriminate|].
    rewrite <- is_die_spec; congruence.
Qed.
Lemma run_keys ops : forall p, (forall kv, In kv p -> a_die (fst kv)) ->
  forall kv, In kv (fold_left pool_step ops p) -> a_die (fst kv).
Proof. induction ops as [|o ops IH]; cbn; auto. intros p K; apply IH. apply keys_step; auto. Qed.

Lemma new_pool_keys r : a_die (fst r) -> a_die (snd r) -> forall kv, In kv (new_pool r) -> a_die (fst kv).
Proof.
  intros D1 D2. unfold new_pool. destruct (fst r =? 0) eqn:E; [unfold a_die in D1; lia|].
  assert (KS : forall p d v, a_die d -> (forall kv, In kv p -> a_die (fst kv)) ->
     forall kv, In kv (dset p d v) -> a_die (fst kv)).
  { clear. intros p d v D K. induction p as [|[k' v'] p IH]; cbn.
    - intros kv [<-|[]]; auto.
    - destruct (k' =? d); cbn; intros kv [<-|H]; auto.
      + apply K; cbn; auto.
      + apply (K (k', v')); cbn; auto.
      + apply IH; auto. intros x Hx; apply K; cbn; auto. }
  assert (K0 : forall kv, In kv empty_pool -> a_die (fst kv)).
  { unfold empty_pool, a_die; cbn. intros kv H; repeat destruct H as [<-|H]; cbn; try lia; contradiction. }
  destruct (fst r =? snd r); repeat apply KS; auto.
Qed.

Lemma is_doubles_iff p : wf_pool p -> (forall kv, In kv p -> a_die (fst kv)) -> (pool_is_doubles p = true <-> exists d, a_die d /\ 1 < held p d).
Proof.
  intros (N & _ & _) K. unfold pool_is_doubles. rewrite existsb_exists. split.
  - intros ((d, v) & I & H). cbn [snd] in H. exists d. split; [exact (K _ I)|]. assert (E : held p d = v); [|lia].
    clear K H. unfold held. induction p as [|[k x] p IH]; [destruct I|]. cbn [map fst] in N. inversion N as [|? ? N1 N2]; subst. cbn. destruct I as [I|I].
    + injection I as -> ->. rewrite Z.eqb_refl. reflexivity.
    + destruct (k =? d) eqn:Q; [|apply IH; assumption]. apply Z.eqb_eq in Q as ->. exfalso. apply N1. apply (in_map fst) in I. exact I.
  - intros (d & _ & H). clear N K. unfold held in H. induction p as [|[k x] p IH]; cbn in H; [discriminate H|]. destruct (k =? d) eqn:Q; [exists (k, x); split; [left; reflexivity|cbn [snd]; apply Z.ltb_lt; exact H]|].
    destruct (IH H) as (kv & I & G). exists kv. split; [right; exact I|exact G].
Qed.

Lemma dice_pool :
  (* a fresh pool holds exactly the dice of the roll *)
  (forall r, a_die (fst r) -> a_die (snd r) ->
     wf_pool (new_pool r) /\ (forall d, held (new_pool r) d = dice_of r d)) /\
  (* after any history of calls: counts, length, doubles and maximum *)
  (forall r ops, a_die (fst r) -> a_die (snd r) ->
     let p := fold_left pool_step ops (new_pool r) in
     wf_pool p /\ (forall k, held p k = fold_left held_step ops (dice_of r) k) /\
     pool_len p = held p 1 + held p 2 + held p 3 + held p 4 + held p 5 + held p 6 /\
     (pool_is_doubles p = true <-> exists d, a_die d /\ 1 < held p d) /\
     exists o, get_max p = Ok o /\
       match o with
       | None => forall d, a_die d -> held p d = 0
       | Some d => a_die d /\ 0 < held p d /\ forall k, a_die k -> d < k -> held p k = 0
       end) /\
  (* consuming fails exactly when there is no such die; adding then consuming is the identity *)
  (forall p d, wf_pool p -> a_die d ->
     (held p d = 0 -> consume p d = Exc TypeError) /\
     (0 < held p d -> exists p', consume p d = Ok p' /\ pool_add p' d = Ok p) /\
     (exists p', pool_add p d = Ok p' /\ consume p' d = Ok p)) /\
  (forall p d, ~ a_die d -> consume p d = Exc AssertionError /\ pool_add p d = Exc AssertionError).
Proof.
  assert (P1 : forall r, a_die (fst r) -> a_die (snd r) ->
     wf_pool (new_pool r) /\ (forall d, held (new_pool r) d = dice_of r d)).
  { intros r D1 D2. split; [apply wf_new_pool; auto|]. intros d. unfold new_pool, dice_of.
    unfold a_die in *. replace (fst r =? 0) with false by lia.
    destruct (fst r =? snd r) eqn:E; rewrite !held_dset, held_empty; [destruct (d =? fst r); auto|].
    destruct (d =? snd r) eqn:F; destruct (d =? fst r) eqn:G; lia. }
  refine (conj P1 (conj _ (conj _ _))).
  - intros r ops D1 D2 p. destruct (P1 r D1 D2) as [W H]. destruct (run_held ops _ W) as [W' H'].
    assert (KS : forall kv, In kv p -> a_die (fst kv)) by (unfold p; apply run_keys, new_pool_keys; auto).
    split; [exact W'|]. split; [|split; [|split]].
    + intros k; unfold p; rewrite H'. apply run_held_ext; auto.
    + apply pool_len_six; auto.
    + apply is_doubles_iff; auto.
    + apply get_max_spec; auto.
  - intros p d W D. assert (K : In d (map fst p)) by (apply W; auto). split; [|split].
    + intros H; apply consume_none; auto; lia.
    + intros H. rewrite consume_ok by auto. eexists; split; [reflexivity|].
      rewrite add_ok; [|apply wf_dset; auto; lia|auto]. rewrite held_dset, Z.eqb_refl, dset_dset.
      replace (held p d - 1 + 1) with (held p d) by lia. rewrite dset_same; auto.
    + rewrite add_ok by auto. eexists; split; [reflexivity|].
      assert (0 <= held p d) by (apply held_nonneg; apply W).
      rewrite consume_ok; [|apply wf_dset; auto; lia|auto|rewrite held_dset, Z.eqb_refl; lia].
      rewrite held_dset, Z.eqb_refl, dset_dset.
      replace (held p d + 1 - 1) with (held p d) by lia. rewrite dset_same; auto.
  - intros p d H; split; [apply consume_bad|apply add_bad]; auto.
Qed.
