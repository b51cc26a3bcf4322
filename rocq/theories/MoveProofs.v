From Coq Require Import ZifyBool ZifyNat Permutation.
From Verif Require Import Py PyFacts UtilModel BoardModel BoardSpec BoardProofs MoveModel MoveSpec PoolProofs.

(* ---------- a list of partial moves acts by addition ---------- *)
Lemma pyix_len {A} (l l' : list A) i : List.length l = List.length l' -> pyix l i = pyix l' i.
Proof. intros H; unfold pyix, zlen; rewrite H; auto. Qed.
Lemma padd_opt_length l o d : List.length (padd_opt l o d) = List.length l.
Proof. destruct o; cbn [padd_opt]; auto using padd_length. Qed.
(* the slots a partial move touches, looked up in lists of the right length *)
Definition slot (cond : bool) (z : list Z) (i : Z) : option nat := if cond then pyix z i else None.
Definition at_slot (o : option nat) (k : nat) : Z :=
  match o with Some j => if Nat.eqb k j then 1 else 0 | None => 0 end.
Definition okm (m : list Z) (pm : pmove) : Prop :=
  (-1 < src pm -> pyix m (src pm) <> None) /\ (-1 < dest pm -> pyix m (dest pm) <> None).
Definition hitpt (pm : pmove) : Z := flip_point (if is_undo pm then src pm else dest pm).
Definition okh (h : list Z) (pm : pmove) : Prop :=
  is_hitting pm = true -> pyix h (hitpt pm) <> None /\ pyix h BAR <> None.
Definition dm (m : list Z) (pm : pmove) (k : nat) : Z :=
  at_slot (slot (-1 <? dest pm) m (dest pm)) k - at_slot (slot (-1 <? src pm) m (src pm)) k.
Definition dh (h : list Z) (pm : pmove) (k : nat) : Z :=
  if is_hitting pm then
    (if is_undo pm then 1 else -1) * (at_slot (pyix h (hitpt pm)) k - at_slot (pyix h BAR) k)
  else 0.
Lemma nth_padd_opt l o d k : (forall j, o = Some j -> (j < List.length l)%nat) ->
  nth k (padd_opt l o d) 0 = nth k l 0 + d * at_slot o k.
Proof.
  destruct o as [j|]; cbn [padd_opt at_slot]; intros H; [|lia].
  rewrite nth_padd by auto. destruct (Nat.eqb k j); lia.
Qed.
Lemma move_sides_add pm m h m' h' : move_sides pm m h = Ok (m', h') <->
  okm m pm /\ okh h pm /\ List.length m' = List.length m /\ List.length h' = List.length h /\
  (forall k, nth k m' 0 = nth k m 0 + dm m pm k) /\ (forall k, nth k h' 0 = nth k h 0 + dh h pm k).
Proof.
  assert (F : forall mm hh, move_sides pm m h = Ok (mm, hh) ->
    okm m pm /\ okh h pm /\ List.length mm = List.length m /\ List.length hh = List.length h /\
    (forall k, nth k mm 0 = nth k m 0 + dm m pm k) /\ (forall k, nth k hh 0 = nth k h 0 + dh h pm k)).
  { intros mm hh H. pose proof (move_sides_sum _ _ _ _ _ H) as (_ & _ & L1 & L2).
    rewrite move_sides_eq in H.
    apply bind_ok in H as (m1 & H1 & H). apply bind_ok in H as (m2 & H2 & H).
    apply add_on_ok in H1 as (o1 & -> & C1). apply add_on_ok in H2 as (o2 & -> & C2).
    rewrite pyix_padd_opt in C2. unfold OFF in *.
    assert (O1 : o1 = slot (-1 <? src pm) m (src pm)).
    { unfold slot; destruct (-1 <? src pm); [destruct C1; auto|auto]. }
    assert (O2 : o2 = slot (-1 <? dest pm) m (dest pm)).
    { unfold slot; destruct (-1 <? dest pm); [destruct C2; auto|auto]. }
    assert (OM : okm m pm).
    { split; intros Q.
      - replace (-1 <? src pm) with true in C1 by lia. destruct C1; congruence.
      - replace (-1 <? dest pm) with true in C2 by lia. destruct C2; congruence. }
    assert (B1 : forall j, o1 = Some j -> (j < List.length m)%nat).
    { intros j ->. destruct (-1 <? src pm); [destruct C1 as [C1 _]|discriminate]. eapply pyix_lt; eauto. }
    assert (B2 : forall j, o2 = Some j -> (j < List.length m)%nat).
    { intros j ->. destruct (-1 <? dest pm); [destruct C2 as [C2 _]|discriminate]. eapply pyix_lt; eauto. }
    assert (M : forall k, nth k (padd_opt (padd_opt m o1 (-1)) o2 1) 0 = nth k m 0 + dm m pm k).
    { intros k. rewrite nth_padd_opt by (rewrite padd_opt_length; auto). rewrite nth_padd_opt by auto.
      unfold dm. rewrite <- O1, <- O2. lia. }
    split; [exact OM|]. unfold okh, dh, hitpt. destruct (is_hitting pm).
    - cbv zeta in H. apply bind_ok in H as (h1 & G1 & H). apply bind_ok in H as (h2 & G2 & H). injection H as <- <-.
      rewrite pyadd_pyix in G1, G2.
      destruct (pyix h (flip_point _)) as [k1|] eqn:K1; [|discriminate]. injection G1 as <-.
      rewrite pyix_padd in G2. destruct (pyix h BAR) as [k2|] eqn:K2; [|discriminate]. injection G2 as <-.
      split; [intros _; split; discriminate|]. repeat split; auto.
      intros k. rewrite nth_padd by (rewrite padd_length; eapply pyix_lt; eauto).
      rewrite nth_padd by (eapply pyix_lt; eauto). cbn [at_slot].
      destruct (is_undo pm), (Nat.eqb k k1), (Nat.eqb k k2); lia.
    - injection H as <- <-. repeat split; auto; try discriminate. intros; lia. }
  split; [apply F|].
  intros (OM & OH & L1 & L2 & M & H).
  assert (E : exists mm hh, move_sides pm m h = Ok (mm, hh)).
  { rewrite move_sides_eq. destruct OM as [A B].
    assert (C1 : exists o, if OFF <? src pm then pyix m (src pm) = o /\ o <> None else o = None).
    { unfold OFF. destruct (-1 <? src pm) eqn:Q; [|eauto]. eexists; split; [reflexivity|]. apply A; lia. }
    destruct C1 as [o1 C1]. rewrite (add_on_intro _ _ _ _ o1) by auto. cbn [bind].
    assert (C2 : exists o, if OFF <? dest pm then pyix (padd_opt m o1 (-1)) (dest pm) = o /\ o <> None else o = None).
    { unfold OFF. rewrite pyix_padd_opt. destruct (-1 <? dest pm) eqn:Q; [|eauto]. eexists; split; [reflexivity|]. apply B; lia. }
    destruct C2 as [o2 C2]. rewrite (add_on_intro _ _ _ _ o2) by auto. cbn [bind].
    unfold okh, hitpt in OH. destruct (is_hitting pm); [|eauto]. destruct (OH eq_refl) as [P Q].
    cbv zeta. rewrite pyadd_pyix. destruct (pyix h (flip_point _)) as [k1|] eqn:K1; [|congruence]. cbn [bind].
    rewrite pyadd_pyix, pyix_padd. destruct (pyix h BAR) as [k2|] eqn:K2; [|congruence]. cbn [bind]. eauto. }
  destruct E as (mm & hh & E). destruct (F _ _ E) as (_ & _ & L1' & L2' & M' & H').
  rewrite E. do 2 f_equal.
  - apply nth_ext with (d := 0) (d' := 0); [congruence|]. intros; rewrite M, M'; auto.
  - apply nth_ext with (d := 0) (d' := 0); [congruence|]. intros; rewrite H, H'; auto.
Qed.

(* two lists of partial moves applied to the sides *)
Fixpoint all_sides (l : list pmove) (m h : list Z) : res (list Z * list Z) :=
  match l with
  | [] => Ok (m, h)
  | pm :: l' => let! r := move_sides pm m h in all_sides l' (fst r) (snd r)
  end.
Lemma dm_len m m' pm k : List.length m = List.length m' -> dm m pm k = dm m' pm k.
Proof. intros H; unfold dm, slot. rewrite !(pyix_len m m' _ H). auto. Qed.
Lemma dh_len m m' pm k : List.length m = List.length m' -> dh m pm k = dh m' pm k.
Proof. intros H; unfold dh. rewrite !(pyix_len m m' _ H). auto. Qed.
Lemma okm_len m m' pm : List.length m = List.length m' -> okm m pm <-> okm m' pm.
Proof. intros H; unfold okm. rewrite !(pyix_len m m' _ H). tauto. Qed.
Lemma okh_len m m' pm : List.length m = List.length m' -> okh m pm <-> okh m' pm.
Proof. intros H; unfold okh. rewrite !(pyix_len m m' _ H). tauto. Qed.
Definition sum_over {A} (f : A -> Z) (l : list A) : Z := fold_right (fun x n => f x + n) 0 l.
Lemma sum_over_perm {A} (f : A -> Z) l l' : Permutation l l' -> sum_over f l = sum_over f l'.
Proof. unfold sum_over; induction 1; cbn in *; lia. Qed.
Lemma sum_over_cons {A} (f : A -> Z) x l : sum_over f (x :: l) = f x + sum_over f l.
Proof. auto. Qed.
Lemma sum_over_app {A} (f : A -> Z) l l' : sum_over f (l ++ l') = sum_over f l + sum_over f l'.
Proof. unfold sum_over; induction l; cbn in *; lia. Qed.
Lemma sum_over_ext {A} (f g : A -> Z) l : (forall x, f x = g x) -> sum_over f l = sum_over g l.
Proof. unfold sum_over; intros H; induction l as [|x l IH]; cbn; rewrite ?IH, ?H; auto. Qed.

Lemma all_sides_add l : forall m h m' h', all_sides l m h = Ok (m', h') <->
  (forall pm, In pm l -> okm m pm /\ okh h pm) /\ List.length m' = List.length m /\ List.length h' = List.length h /\
  (forall k, nth k m' 0 = nth k m 0 + sum_over (fun pm => dm m pm k) l) /\
  (forall k, nth k h' 0 = nth k h 0 + sum_over (fun pm => dh h pm k) l).
Proof.
  induction l as [|pm l IH]; intros m h m' h'; cbn [all_sides sum_over fold_right].
  - split.
    + intros [= <- <-]; repeat split; auto; try contradiction; intros; lia.
    + intros (_ & L1 & L2 & M & H). do 2 f_equal.
      * apply nth_ext with (d := 0) (d' := 0); auto. intros k _; rewrite M; lia.
      * apply nth_ext with (d := 0) (d' := 0); auto. intros k _; rewrite H; lia.
  - split.
    + intros E. apply bind_ok in E as ([m1 h1] & E1 & E2). cbn [fst snd] in E2.
      apply move_sides_add in E1 as (A & B & L1 & L2 & M & H).
      apply IH in E2 as (C & L3 & L4 & M2 & H2).
      refine (conj _ (conj _ (conj _ (conj _ _)))); try congruence.
      * intros q [<-|Q]; auto. destruct (C q Q) as [C1 C2].
        rewrite (okm_len m m1), (okh_len h h1) by auto. auto.
      * intros k. rewrite M2, M. unfold sum_over. rewrite <- Z.add_assoc. do 2 f_equal. cbn.
        apply sum_over_ext; intros; apply dm_len; auto.
      * intros k. rewrite H2, H. unfold sum_over. rewrite <- Z.add_assoc. do 2 f_equal. cbn.
        apply sum_over_ext; intros; apply dh_len; auto.
    + intros (A & L1 & L2 & M & H).
      destruct (move_sides pm m h) as [[m1 h1]|e] eqn:E.
      2:{ exfalso. destruct (A pm (or_introl eq_refl)) as [OM OH].
          set (mm := map (fun k => nth k m 0 + dm m pm k) (seq 0 (List.length m))).
          set (hh := map (fun k => nth k h 0 + dh h pm k) (seq 0 (List.length h))).
          assert (NO : forall (z : list Z) i j, pyix z i = Some j -> (j < List.length z)%nat) by (intros; eapply pyix_lt; eauto).
          assert (AS : forall o k (n : nat), (forall j, o = Some j -> (j < n)%nat) -> (n <= k)%nat -> at_slot o k = 0).
          { intros [j|] k n Hj Hk; cbn; auto. specialize (Hj j eq_refl). destruct (Nat.eqb_spec k j); lia. }
          assert (NM : forall (f : nat -> Z) n k, (forall k, (n <= k)%nat -> f k = 0) -> nth k (map f (seq 0 n)) 0 = f k).
          { intros f n k Z0. destruct (Nat.lt_ge_cases k n).
            - rewrite nth_indep with (d' := f O) by (rewrite map_length, seq_length; auto).
              rewrite map_nth, seq_nth by auto. auto.
            - rewrite nth_overflow by (rewrite map_length, seq_length; auto). symmetry; auto. }
          enough (Q : move_sides pm m h = Ok (mm, hh)) by congruence.
          apply move_sides_add. refine (conj OM (conj OH (conj _ (conj _ (conj _ _))))).
          - unfold mm; rewrite map_length, seq_length; auto.
          - unfold hh; rewrite map_length, seq_length; auto.
          - intros k; unfold mm. apply (NM (fun k => nth k m 0 + dm m pm k)). intros j Hj.
            rewrite nth_overflow by auto. unfold dm, slot.
            rewrite !(AS _ j (List.length m)); auto; destruct (-1 <? _); eauto; discriminate.
          - intros k; unfold hh. apply (NM (fun k => nth k h 0 + dh h pm k)). intros j Hj.
            rewrite nth_overflow by auto. unfold dh.
            rewrite !(AS _ j (List.length h)); eauto. destruct (is_hitting pm); lia. }
      cbn [bind fst snd]. apply move_sides_add in E as (OM & OH & L3 & L4 & M2 & H2).
      apply IH. refine (conj _ (conj _ (conj _ (conj _ _)))); try congruence.
      * intros q Q. destruct (A q (or_intror Q)) as [C1 C2].
        rewrite <- (okm_len m m1), <- (okh_len h h1) by auto. auto.
      * intros k. rewrite M, M2. unfold sum_over. rewrite <- Z.add_assoc. do 2 f_equal.
        apply sum_over_ext; intros; apply dm_len; auto.
      * intros k. rewrite H, H2. unfold sum_over. rewrite <- Z.add_assoc. do 2 f_equal.
        apply sum_over_ext; intros; apply dh_len; auto.
Qed.

Definition place (b : board) (m h : list Z) : board :=
  set_position (if on_action b =? 0 then (m, h) else (h, m)) b.
Lemma place_sides b m h : player (on_action b) ->
  side (place b m h) (on_action b) = m /\ side (place b m h) (other (on_action b)) = h /\
  on_action (place b m h) = on_action b.
Proof. unfold place, side, other. intros [P|P]; rewrite P; cbn; rewrite ?P; auto. Qed.
Lemma place_self b : player (on_action b) -> place b (mover b) (side b (other (on_action b))) = b.
Proof.
  unfold place, mover, side, other. intros [P|P]; rewrite P; cbn; destruct b as [[? ?] ? ? ? ? ? ? ? ? ? ? ?]; cbn in *; auto.
Qed.
Lemma place_place b m h m' h' : place (place b m h) m' h' = place b m' h'.
Proof. unfold place; cbn. auto. Qed.
Lemma place_inj b m h m' h' : place b m h = place b m' h' -> m = m' /\ h = h'.
Proof. unfold place; destruct (on_action b =? 0); intros E; injection E; auto. Qed.
Lemma make_place pm b b' : make_partial_move pm b = (b', Ok tt) <->
  player (on_action b) /\ exists m h, move_sides pm (mover b) (side b (other (on_action b))) = Ok (m, h) /\ b' = place b m h.
Proof. apply partial_move_sides. Qed.
Lemma make_all_sides l : forall b b', player (on_action b) -> make_all l b = (b', Ok tt) <->
  exists m h, all_sides l (mover b) (side b (other (on_action b))) = Ok (m, h) /\ b' = place b m h.
Proof.
  induction l as [|pm l IH]; cbn [make_all all_sides]; intros b b' P.
  - split.
    + intros [= <-]. eexists _, _; split; [reflexivity|]. rewrite place_self; auto.
    + intros (m & h & [= <- <-] & ->). rewrite place_self; auto.
  - split.
    + destruct (make_partial_move pm b) as [b1 [[]|e]] eqn:E; [|discriminate].
      intros H. apply make_place in E as (_ & m1 & h1 & E & ->). rewrite E; cbn [bind fst snd].
      destruct (place_sides b m1 h1 P) as (S1 & S2 & S3).
      apply IH in H; [|rewrite S3; auto]. destruct H as (m & h & H & ->).
      unfold mover in H. rewrite S3, S1, S2 in H. exists m, h; rewrite place_place; auto.
    + intros (m & h & H & ->). apply bind_ok in H as ([m1 h1] & E & H). cbn [fst snd] in H.
      assert (E' : make_partial_move pm b = (place b m1 h1, Ok tt)) by (apply make_place; eauto).
      rewrite E'. destruct (place_sides b m1 h1 P) as (S1 & S2 & S3).
      apply IH; [rewrite S3; auto|]. exists m, h. unfold mover. rewrite S3, S1, S2, place_place; auto.
Qed.
Lemma make_all_not_player l b b' : make_all l b = (b', Ok tt) -> l = [] \/ player (on_action b).
Proof.
  destruct l as [|pm l]; auto. cbn. destruct (make_partial_move pm b) as [b1 [[]|e]] eqn:E; [|discriminate].
  apply partial_move_sides in E as [P _]; auto.
Qed.

(* ---------- C20 ---------- *)
Lemma invertible_spec p q : are_invertible p q = true <->
  die p = die q /\ src p = dest q /\ dest p = src q /\ is_hitting p = is_hitting q.
Proof.
  unfold are_invertible. rewrite !Bool.andb_true_iff, !Z.eqb_eq, Bool.eqb_true_iff. tauto.
Qed.
Lemma invertible_sym p q : are_invertible p q = are_invertible q p.
Proof. apply Bool.eq_iff_eq_true. rewrite !invertible_spec. intuition. Qed.
Lemma inv_cancel_m p q m k : are_invertible p q = true -> dm m p k + dm m q k = 0.
Proof. rewrite invertible_spec. intros (_ & S & D & _). unfold dm. rewrite S, D. lia. Qed.
Lemma inv_cancel_h p q h k : are_invertible p q = true -> sane p -> dh h p k + dh h q k = 0.
Proof.
  rewrite invertible_spec. unfold sane, dh, hitpt, is_undo. intros (_ & S & D & H) SN. rewrite <- H, S, D.
  destruct (is_hitting p) eqn:HH; [|lia].
  destruct (Z.lt_trichotomy (src q) (dest q)) as [L|[L|L]].
  - replace (dest q <? src q) with false by lia. replace (src q <? dest q) with true by lia. lia.
  - exfalso. assert (true = false) by (apply SN; lia). discriminate.
  - replace (dest q <? src q) with true by lia. replace (src q <? dest q) with false by lia. lia.
Qed.
Lemma remove_obj_in p l x : In x (remove_obj p l) -> In x l.
Proof. induction l as [|q l IH]; cbn; auto. destruct (Nat.eqb (fst q) (fst p)); cbn; tauto. Qed.
Lemma remove_obj_perm p l : ids_ok l -> In p l -> Permutation l (p :: remove_obj p l).
Proof.
  induction l as [|q l IH]; cbn; [contradiction|]. intros I H.
  destruct (Nat.eqb_spec (fst q) (fst p)) as [E|E].
  - assert (q = p) as -> by (apply I; cbn; auto). auto.
  - destruct H as [->|H]; [congruence|].
    rewrite perm_swap. constructor. apply IH; auto. intros x y Hx Hy; apply I; cbn; auto.
Qed.
(* Move.append either adds, or drops one object that cancels the new one *)
Lemma mv_append_cases l r : ids_ok l ->
  (mv_append l r = l ++ [r] /\ forall p, In p l -> are_invertible (snd p) (snd r) = false) \/
  (exists p, In p l /\ are_invertible (snd p) (snd r) = true /\ mv_append l r = remove_obj p l /\
     Permutation l (p :: mv_append l r)).
Proof.
  intros I. unfold mv_append. destruct (find (fun p => are_invertible (snd p) (snd r)) (rev l)) as [p|] eqn:E.
  - right. apply find_some in E as [E1 E2]. rewrite <- in_rev in E1. exists p; repeat split; auto.
    apply remove_obj_perm; auto.
  - left. split; auto. intros p Hp. apply (find_none _ _ E). rewrite <- in_rev; auto.
Qed.
Lemma mv_append_in l r x : In x (mv_append l r) -> In x l \/ x = r.
Proof.
  unfold mv_append. destruct (find _ _).
  - intros H; left; eapply remove_obj_in; eauto.
  - rewrite in_app_iff; cbn; intuition.
Qed.
Lemma mv_add_in r : forall l x, In x (mv_add l r) -> In x l \/ In x r.
Proof.
  unfold mv_add; induction r as [|q r IH]; cbn; auto. intros l x H. apply IH in H as [H|H]; auto.
  apply mv_append_in in H as [H| ->]; auto.
Qed.
Lemma ids_incl l l' : (forall x, In x l -> In x l') -> ids_ok l' -> ids_ok l.
Proof. intros S I x y Hx Hy; apply I; auto. Qed.
Lemma mv_add_sum (g : pmove -> Z) r : forall l, ids_ok (l ++ r) -> Forall (fun x => sane (snd x)) (l ++ r) ->
  (forall p q, are_invertible p q = true -> sane p -> g p + g q = 0) ->
  sum_over g (map snd (mv_add l r)) = sum_over g (map snd (l ++ r)).
Proof.
  unfold mv_add. induction r as [|q r IH]; intros l I S G; cbn [fold_left].
  - rewrite app_nil_r; auto.
  - assert (IN : forall x, In x (mv_append l q ++ r) -> In x (l ++ q :: r)).
    { intros x Hx; apply in_app_iff in Hx as [Hx|Hx]; [apply mv_append_in in Hx as [Hx| ->]|];
        apply in_app_iff; cbn; auto. }
    rewrite IH; auto.
    2:{ eapply ids_incl; eauto. }
    2:{ apply Forall_forall; intros x Hx. rewrite Forall_forall in S; apply S, IN; auto. }
    destruct (mv_append_cases l q) as [[-> _]|(p & Hp & V & _ & P)].
    { eapply ids_incl; [|exact I]. intros; apply in_app_iff; auto. }
    + rewrite <- app_assoc; auto.
    + rewrite !map_app, !sum_over_app. cbn [map]. rewrite sum_over_cons.
      assert (E : sum_over g (map snd l) = g (snd p) + sum_over g (map snd (mv_append l q))).
      { rewrite (sum_over_perm _ _ _ (Permutation_map snd P)). auto. }
      unfold pobj in *. rewrite E. specialize (G _ _ V).
      assert (sane (snd p)) by (rewrite Forall_forall in S; apply S, in_app_iff; auto). lia.
Qed.

Lemma normal_same_effect : forall l, ids_ok l -> Forall (fun x => sane (snd x)) l ->
  forall b b', make_all (map snd l) b = (b', Ok tt) -> make_all (map snd (mv_add [] l)) b = (b', Ok tt).
Proof.
  intros l I S b b' H. destruct (make_all_not_player _ _ _ H) as [E|P].
  { apply map_eq_nil in E; subst l; auto. }
  apply make_all_sides in H as (m & h & H & ->); auto. apply make_all_sides; auto.
  exists m, h; split; auto. apply all_sides_add in H as (A & L1 & L2 & M & Hh).
  apply all_sides_add. refine (conj _ (conj L1 (conj L2 (conj _ _)))).
  - intros pm Hpm. apply in_map_iff in Hpm as (x & <- & Hx). apply mv_add_in in Hx as [[]|Hx].
    apply A, in_map; auto.
  - intros k; rewrite M. f_equal. symmetry.
    apply (mv_add_sum (fun pm => dm (mover b) pm k) l []); auto. intros; apply inv_cancel_m; auto.
  - intros k; rewrite Hh. f_equal. symmetry.
    apply (mv_add_sum (fun pm => dh (side b (other (on_action b))) pm k) l []); auto. intros; apply inv_cancel_h; auto.
Qed.

(* ---------- C21 ---------- *)
Lemma FOP_app {A} (R : A -> A -> Prop) l l' : ForallOrdPairs R l -> ForallOrdPairs R l' ->
  (forall x y, In x l -> In y l' -> R x y) -> ForallOrdPairs R (l ++ l').
Proof.
  induction 1 as [|x l F H IH]; cbn; auto. intros H' C. constructor.
  - apply Forall_app; split; auto. apply Forall_forall; intros; apply C; cbn; auto.
  - apply IH; auto.
Qed.
Lemma FOP_remove p l R : ForallOrdPairs R l -> ForallOrdPairs R (remove_obj p l).
Proof.
  induction 1 as [|x l F H IH]; cbn; [constructor|]. destruct (Nat.eqb (fst x) (fst p)); auto.
  constructor; auto. apply Forall_forall; intros y Hy. rewrite Forall_forall in F. apply F.
  eapply remove_obj_in; eauto.
Qed.
Lemma no_pair l r : ForallOrdPairs (fun x y => are_invertible (snd x) (snd y) = false) l ->
  ForallOrdPairs (fun x y => are_invertible (snd x) (snd y) = false) (mv_add l r).
Proof.
  unfold mv_add; revert l; induction r as [|q r IH]; cbn; auto. intros l H. apply IH.
  unfold mv_append. match goal with |- context [find ?f ?z] => destruct (find f z) eqn:E end; [apply FOP_remove; auto|].
  apply FOP_app; auto. { repeat constructor. }
  intros x y Hx [<-|[]]. apply (find_none _ _ E). rewrite <- in_rev; auto.
Qed.
Lemma no_cancelling_pair : forall l i j x y,
  nth_error (mv_add [] l) i = Some x -> nth_error (mv_add [] l) j = Some y -> i <> j ->
  snd y <> inverse (snd x).
Proof.
  intros l i j x y Hi Hj N E.
  assert (F := no_pair [] l (FOP_nil _)).
  assert (G : forall (l : list pobj), ForallOrdPairs (fun x y => are_invertible (snd x) (snd y) = false) l ->
    forall i j x y, (i < j)%nat -> nth_error l i = Some x -> nth_error l j = Some y -> are_invertible (snd x) (snd y) = false).
  { clear. induction 1 as [|a l F H IH]; intros i j x y L Hi Hj.
    - destruct i; discriminate.
    - destruct j as [|j]; [lia|]. cbn in Hj. destruct i as [|i]; cbn in Hi.
      + injection Hi as <-. rewrite Forall_forall in F. apply F. eapply nth_error_In; eauto.
      + eapply (IH i j); eauto; lia. }
  assert (V : are_invertible (snd x) (snd y) = true) by (apply invertible_spec; rewrite E; cbn; auto).
  destruct (Nat.lt_trichotomy i j) as [L|[L|L]]; [|congruence|].
  - rewrite (G _ F i j x y) in V; auto; discriminate.
  - rewrite invertible_sym in V. rewrite (G _ F j i y x) in V; auto; discriminate.
Qed.

(* ---------- C22 ---------- *)
Lemma used_sum l d : used l d =
  sum_over (fun pm => if die pm =? d then (if src pm <? dest pm then -1 else 1) else 0) l.
Proof. reflexivity. Qed.
Lemma fac_append_ok f pm f' : wf_pool (favail f) -> fac_append f pm = (f', Ok tt) ->
  wf_pool (favail f') /\ fmove f' = mv_append (fmove f) pm /\
  make_partial_move (snd pm) (fboard f) = (fboard f', Ok tt) /\
  forall d, held (favail f') d = held (favail f) d - used [snd pm] d.
Proof.
  intros W. unfold fac_append, is_undo.
  destruct (if src (snd pm) <? dest (snd pm) then pool_add (favail f) (die (snd pm))
            else consume (favail f) (die (snd pm))) as [p|e] eqn:E; [|discriminate].
  destruct (make_partial_move (snd pm) (fboard f)) as [b' r] eqn:M. intros [= <- ->]. cbn [favail fmove fboard used fold_right].
  destruct (src (snd pm) <? dest (snd pm)) eqn:U.
  - apply add_inv in E as (D & _ & W' & _ & H); auto. repeat split; auto; try apply W'.
    intros d; rewrite H. rewrite (Z.eqb_sym d). destruct (die (snd pm) =? d); lia.
  - apply consume_inv in E as (D & _ & _ & W' & _ & H); auto. repeat split; auto; try apply W'.
    intros d; rewrite H. rewrite (Z.eqb_sym d). destruct (die (snd pm) =? d); lia.
Qed.
Lemma fac_add_ok l : forall f f', wf_pool (favail f) -> fac_add f l = (f', Ok tt) ->
  wf_pool (favail f') /\ fmove f' = mv_add (fmove f) l /\
  make_all (map snd l) (fboard f) = (fboard f', Ok tt) /\
  forall d, held (favail f') d = held (favail f) d - used (map snd l) d.
Proof.
  induction l as [|pm l IH]; cbn [fac_add]; intros f f' W H.
  - injection H as <-. repeat split; auto; try apply W. intros; cbn; lia.
  - destruct (fac_append f pm) as [f1 [[]|e]] eqn:E; [|discriminate].
    apply fac_append_ok in E as (W1 & M1 & B1 & H1); auto.
    apply IH in H as (W2 & M2 & B2 & H2); auto. rewrite M1 in M2.
    refine (conj W2 (conj M2 (conj _ _))).
    + cbn [map make_all]. rewrite B1. auto.
    + intros d. rewrite H2, H1. cbn. fold (used (map snd l) d). lia.
Qed.
Lemma dice_conserved : forall b l f, a_die (fst (rolled b)) -> a_die (snd (rolled b)) ->
  ids_ok l -> Forall (fun x => src (snd x) <> dest (snd x)) l ->
  fac_add (new_factory b None None) l = (f, Ok tt) ->
  (forall d, held (favail f) d + used (map snd (fmove f)) d = dice_of (rolled b) d) /\
  make_all (map snd (fmove f)) b = (fboard f, Ok tt).
Proof.
  intros b l f D1 D2 I S H.
  assert (SN : Forall (fun x : pobj => sane (snd x)) l).
  { eapply Forall_impl; [|exact S]. cbn; unfold sane; intros; congruence. }
  destruct (proj1 dice_pool (rolled b) D1 D2) as [W HD].
  apply fac_add_ok in H as (W' & M & B & H); auto. cbn [new_factory fmove favail fboard] in *.
  split.
  - intros d. rewrite M. rewrite H, HD, !used_sum.
    assert (E : forall g, (forall p q, are_invertible p q = true -> src p <> dest p -> g p + g q = 0) ->
       sum_over g (map snd (mv_add [] l)) = sum_over g (map snd l)).
    { intros g G.
      assert (Q : forall r l, ids_ok (l ++ r) -> Forall (fun x : pobj => src (snd x) <> dest (snd x)) (l ++ r) ->
        sum_over g (map snd (mv_add l r)) = sum_over g (map snd (l ++ r))).
      { clear -G. unfold mv_add. induction r as [|q r IH]; intros l I S; cbn [fold_left].
        - rewrite app_nil_r; auto.
        - assert (IN : forall x, In x (mv_append l q ++ r) -> In x (l ++ q :: r)).
          { intros x Hx; apply in_app_iff in Hx as [Hx|Hx]; [apply mv_append_in in Hx as [Hx| ->]|];
              apply in_app_iff; cbn; auto. }
          rewrite IH; auto.
          2:{ eapply ids_incl; eauto. }
          2:{ apply Forall_forall; intros x Hx. rewrite Forall_forall in S; apply S, IN; auto. }
          destruct (mv_append_cases l q) as [[-> _]|(p & Hp & V & _ & P)].
          { eapply ids_incl; [|exact I]. intros; apply in_app_iff; auto. }
          + rewrite <- app_assoc; auto.
          + rewrite !map_app, !sum_over_app. cbn [map]. rewrite sum_over_cons.
            assert (E : sum_over g (map snd l) = g (snd p) + sum_over g (map snd (mv_append l q))).
            { rewrite (sum_over_perm _ _ _ (Permutation_map snd P)). auto. }
            unfold pobj in *. rewrite E. specialize (G _ _ V).
            assert (src (snd p) <> dest (snd p)) by (rewrite Forall_forall in S; apply S, in_app_iff; auto). lia. }
      apply (Q l []); auto. }
    rewrite E; [lia|]. intros p q V N. apply invertible_spec in V as (A & B' & C & _). rewrite A.
    destruct (die q =? d); [|lia]. rewrite B', C in *.
    destruct (dest q <? src q) eqn:Q1, (src q <? dest q) eqn:Q2; lia.
  - rewrite M. apply normal_same_effect; auto.
Qed.
Definition dance_demo : board := set_rolled (3, 3) ongoing.
Lemma dice_dance_refuted : exists b l f, a_die (fst (rolled b)) /\ a_die (snd (rolled b)) /\ ids_ok l /\
  Forall (fun x => src (snd x) = dest (snd x)) l /\
  fac_add (new_factory b None None) l = (f, Ok tt) /\
  held (favail f) 3 + used (map snd (fmove f)) 3 <> dice_of (rolled b) 3.
Proof.
  exists dance_demo, [(1%nat, mkPM 3 23 23 false); (2%nat, mkPM 3 23 23 false)].
  eexists. split; [unfold a_die; cbn; lia|]. split; [unfold a_die; cbn; lia|].
  split. { intros x y [<-|[<-|[]]] [<-|[<-|[]]]; cbn; auto; discriminate. }
  split. { repeat constructor. }
  split; [vm_compute; reflexivity|]. vm_compute. discriminate.
Qed.

(* ---------- C23 ---------- *)
Lemma append_failure : forall f pm f' e, fac_append f pm = (f', Exc e) ->
  fboard f' = fboard f /\ fmove f' = mv_append (fmove f) pm /\
  (favail f' = favail f \/
   (exists e', make_partial_move (snd pm) (fboard f) = (fboard f, Exc e')) ).
Proof.
  intros f pm f' e. unfold fac_append.
  destruct (if is_undo (snd pm) then pool_add (favail f) (die (snd pm))
            else consume (favail f) (die (snd pm))) as [p|e0].
  - destruct (make_partial_move (snd pm) (fboard f)) as [b' r] eqn:M. intros [= <- ->]. cbn.
    apply (proj2 (proj2 move_conserves)) in M as M'. subst b'. repeat split; auto. right; eauto.
  - intros [= <- _]. cbn. auto.
Qed.
Lemma append_exact : forall f pm, wf_board (fboard f) -> wf_pool (favail f) -> pm_ok (snd pm) ->
  let d := die (snd pm) in
  (forall f' e, fac_append f pm = (f', Exc e) ->
     (~ a_die d \/ (dest (snd pm) <= src (snd pm) /\ held (favail f) d = 0)) /\
     fboard f' = fboard f /\ favail f' = favail f /\ fmove f' = mv_append (fmove f) pm) /\
  (a_die d -> src (snd pm) < dest (snd pm) \/ 0 < held (favail f) d ->
     exists f', fac_append f pm = (f', Ok tt)).
Proof.
  intros f pm (P & W1 & W2) WP OK d. 
  destruct (proj1 (proj2 move_conserves) (fboard f) (snd pm) P) as (b' & MB & _); auto; [apply W1|apply W2|].
  unfold fac_append. fold d. rewrite MB. unfold is_undo. split.
  - intros f' e. destruct (src (snd pm) <? dest (snd pm)) eqn:U.
    + destruct (is_die d) eqn:D.
      * rewrite add_ok by (auto; apply is_die_spec; auto). discriminate.
      * rewrite add_bad by (rewrite <- is_die_spec; congruence). intros [= <- _]. cbn.
        split; auto. left. rewrite <- is_die_spec; congruence.
    + destruct (is_die d) eqn:D.
      * apply is_die_spec in D. assert (0 <= held (favail f) d) by (apply held_nonneg; apply WP).
        destruct (Z_lt_ge_dec 0 (held (favail f) d)).
        -- rewrite consume_ok by auto. discriminate.
        -- rewrite consume_none by (auto; lia). intros [= <- _]. cbn. split; auto. right; lia.
      * rewrite consume_bad by (rewrite <- is_die_spec; congruence). intros [= <- _]. cbn.
        split; auto. left. rewrite <- is_die_spec; congruence.
  - intros D [U|U].
    + replace (src (snd pm) <? dest (snd pm)) with true by lia. rewrite add_ok by auto. eauto.
    + destruct (src (snd pm) <? dest (snd pm)).
      * rewrite add_ok by auto. eauto.
      * rewrite consume_ok by auto. eauto.
Qed.
Lemma append_atomic_refuted : exists f pm f' e, wf_board (fboard f) /\ wf_pool (favail f) /\ pm_ok (snd pm) /\
  fac_append f pm = (f', Exc e) /\ fmove f' <> fmove f.
Proof.
  exists (new_factory (set_rolled (3, 1) ongoing) None None), (1%nat, mkPM 6 23 17 false).
  eexists _, _. split.
  { cbn. split; [left; reflexivity|]. split; split; cbn; auto; repeat constructor; lia. }
  split. { apply wf_new_pool. right; unfold a_die; cbn; lia. }
  split. { unfold pm_ok; cbn. repeat split; try lia. }
  split; [vm_compute; reflexivity|]. vm_compute. discriminate.
Qed.
