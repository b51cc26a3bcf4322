From Coq Require Import ZifyBool ZifyNat Permutation.
From Verif Require Import Py PyFacts UtilModel BoardModel BoardSpec BoardProofs MoveModel MoveSpec PoolProofs MoveProofs.

Lemma wf_mover b : wf_board b -> wf_side (mover b) /\ wf_side (side b (other (on_action b))).
Proof.
  intros (P & W1 & W2). unfold mover, side, other. destruct P as [P|P]; rewrite P; cbn; auto.
Qed.
Lemma zmem_POINTS t : zmem t POINTS = (0 <=? t) && (t <? 24).
Proof. unfold POINTS. apply Bool.eq_iff_eq_true. rewrite zmem_In, In_zrange. lia. Qed.
Lemma open_spec b t : wf_board b -> 0 <= t <= 23 -> is_open_to_land b t = Ok (opposing b t <? 2).
Proof.
  intros W Ht. unfold is_open_to_land. rewrite zmem_POINTS. replace ((0 <=? t) && (t <? 24)) with true by lia.
  rewrite sides_player by apply W. destruct (wf_mover b W) as [_ [L _]].
  rewrite (pyget_in _ (flip_point t) 0) by (unfold zlen, flip_point; lia). auto.
Qed.
Lemma hitting_spec b t : wf_board b -> 0 <= t <= 23 -> is_hitting_to_land b t = Ok (opposing b t =? 1).
Proof.
  intros W Ht. unfold is_hitting_to_land. rewrite zmem_POINTS. replace ((0 <=? t) && (t <? 24)) with true by lia.
  rewrite sides_player by apply W. destruct (wf_mover b W) as [_ [L _]].
  rewrite (pyget_in _ (flip_point t) 0) by (unfold zlen, flip_point; lia). auto.
Qed.
Lemma has_spec b s : wf_board b -> 0 <= s <= 24 -> has_chequer_to_move b s = Ok (eff (mover b) s).
Proof. intros W Hs. apply has_chequer_eff; auto; [apply W|]. apply wf_mover; auto. Qed.
Lemma eff_nonzero b s : wf_board b -> 0 <= s <= 24 ->
  eff (mover b) s <> 0 <-> count (mover b) s > 0 /\ (count (mover b) 24 > 0 -> s = 24).
Proof.
  intros W Hs. destruct (wf_mover b W) as [WM _].
  pose proof (count_nonneg (mover b) s WM). pose proof (count_nonneg (mover b) 24 WM).
  unfold eff. destruct (count (mover b) 24 =? 0) eqn:E; [lia|]. destruct (s =? 24) eqn:F; [|lia].
  replace s with 24 by lia. lia.
Qed.
Lemma bear_spec b s d : wf_board b -> 0 <= s <= 24 -> a_die d -> count (mover b) s > 0 ->
  exists r, is_ok_to_bearoff_from b s d = Ok r /\ (r = true <-> may_bear_off (mover b) s d).
Proof.
  intros W Hs D C. destruct (bearoff_from_exact b s d) as (r & E & H); auto; [apply W|apply wf_mover; auto|].
  exists r; split; auto. rewrite H. split; [intros [|(? & ? & _)]; auto; lia|auto].
Qed.
Lemma may_bear_off_die l s d : may_bear_off l s d -> s - d < 0.
Proof. intros (_ & _ & _ & [?|[? _]]); lia. Qed.

Lemma legal_pool b p p' s pm : (held p (die pm) > 0 -> held p' (die pm) > 0) -> legal b p s pm -> legal b p' s pm.
Proof. unfold legal; tauto. Qed.

(* dropping a die that has no legal step changes nothing *)
Lemma legal_drop b p p' s d : wf_pool p -> consume p d = Ok p' -> (forall pm, legal b p s pm -> die pm <> d) ->
  forall pm, legal b p s pm <-> legal b p' s pm.
Proof.
  intros W C N pm. apply consume_inv in C as (D & _ & _ & _ & _ & H); auto. split; intros L.
  - pose proof (N pm L). eapply legal_pool; [|exact L]. rewrite H. replace (die pm =? d) with false by lia. auto.
  - eapply legal_pool; [|exact L]. rewrite H. destruct (die pm =? d); lia.
Qed.

Definition best (b : board) (p : pool) (s : Z) (o : option pmove) : Prop :=
  match o with
  | Some pm => legal b p s pm /\ forall q, legal b p s q -> die q <= die pm
  | None => forall q, ~ legal b p s q
  end.
Lemma single_spec fuel : forall b p s, wf_board b -> wf_pool p -> 0 <= s <= 24 -> pool_len p < Z.of_nat fuel ->
  exists o, single_from_source fuel b p s = Ok o /\ best b p s o.
Proof.
  induction fuel as [|fuel IH]; intros b p s WB WP Hs HF.
  { pose proof (pool_len_nonneg p WP). lia. }
  cbn [single_from_source]. destruct (get_max_spec p WP) as (o & E & MX). rewrite E. cbn [bind].
  destruct o as [d|]; cbn [is_max] in MX.
  2:{ exists None; split; auto. intros q (D & H & _). rewrite MX in H by auto. lia. }
  destruct MX as (D & HD & TOP). rewrite has_spec by auto. cbn [bind].
  destruct (eff (mover b) s =? 0) eqn:EF.
  { exists None; split; auto. intros q (_ & _ & _ & _ & A & B & _).
    assert (eff (mover b) s <> 0) by (apply eff_nonzero; auto). lia. }
  assert (HC : eff (mover b) s <> 0) by lia. apply eff_nonzero in HC as [C1 C2]; auto.
  assert (MAXQ : forall q, legal b p s q -> die q <= d).
  { intros q (Dq & Hq & _). destruct (Z_lt_ge_dec d (die q)); [|lia]. rewrite TOP in Hq by auto. lia. }
  assert (RETRY : (forall q, legal b p s q -> die q <> d) -> exists p', consume p d = Ok p' /\
     exists o, single_from_source fuel b p' s = Ok o /\ best b p s o).
  { intros N. pose proof (consume_ok p d WP D HD) as C. eexists; split; [exact C|].
    pose proof C as C'. apply consume_inv in C' as (_ & _ & _ & W' & L' & _); auto.
    destruct (IH b _ s WB W' Hs ltac:(lia)) as (o & Eo & Bo). exists o; split; auto.
    pose proof (legal_drop b p _ s d WP C N) as LD. destruct o as [pm|]; cbn [best] in *.
    - destruct Bo as [B1 B2]. split; [apply LD; auto|]. intros q Hq; apply B2, LD; auto.
    - intros q Hq; apply (Bo q), LD; auto. }
  destruct (s - d <? 0) eqn:T.
  - destruct (bear_spec b s d WB Hs D C1) as (r & Er & Hr). rewrite Er; cbn [bind]. destruct r.
    + eexists; split; [reflexivity|]. cbn [best]. split; auto.
      unfold legal; cbn. unfold OFF. refine (conj D (conj _ (conj _ (conj Hs (conj C1 (conj C2 _)))))); try lia.
      all: right; repeat split; try lia; apply Hr; auto.
    + destruct RETRY as (p' & C & R).
      { intros q (_ & _ & _ & _ & _ & _ & [(A & _)|(_ & _ & _ & A)]) Eq; [lia|].
        rewrite Eq in A. apply Hr in A. discriminate. }
      rewrite C; cbn [bind]. pose proof (held_le_len p d WP). replace (pool_len p =? 0) with false by lia. auto.
  - rewrite zmem_POINTS. unfold a_die in D. replace ((0 <=? s - d) && (s - d <? 24)) with true by lia.
    rewrite open_spec by (auto; lia). cbn [bind]. destruct (opposing b (s - d) <? 2) eqn:O.
    + rewrite hitting_spec by (auto; lia). cbn [bind]. eexists; split; [reflexivity|]. cbn [best]. split; auto.
      unfold legal; cbn. refine (conj D (conj _ (conj _ (conj Hs (conj C1 (conj C2 _)))))); try lia.
      all: left; repeat split; lia.
    + destruct RETRY as (p' & C & R).
      { intros q (_ & _ & _ & _ & _ & _ & [(_ & A & B & _)|(A & _)]) Eq; [|lia].
        rewrite A, Eq in B. lia. }
      rewrite C; cbn [bind]. auto.
Qed.
Lemma single_from_source_best : forall b p s, wf_board b -> wf_pool p -> 0 <= s <= 24 ->
  exists o, guess_single_from_source b p s = Ok o /\
    match o with
    | Some pm => legal b p s pm /\ forall q, legal b p s q -> die q <= die pm
    | None => forall q, ~ legal b p s q
    end.
Proof.
  intros b p s WB WP Hs. apply single_spec; auto. unfold pool_fuel. rewrite fuel_wf by auto.
  pose proof (pool_len_nonneg p WP). lia.
Qed.
Lemma legal_unique b p s q r : legal b p s q -> legal b p s r -> die q = die r -> q = r.
Proof.
  intros (_ & _ & S1 & _ & _ & _ & A) (_ & _ & S2 & _ & _ & _ & B) E.
  destruct q as [d1 s1 t1 h1], r as [d2 s2 t2 h2]; cbn in *. subst.
  destruct A as [(A1 & -> & A3 & A4)|(A1 & -> & -> & A4)], B as [(B1 & -> & B3 & B4)|(B1 & -> & -> & B4)]; try lia; auto.
  f_equal. apply Bool.eq_iff_eq_true. rewrite A4, B4; tauto.
Qed.

(* ---------- C25 ---------- *)
(* some chequer may step to point t with this die *)
Lemma single_dest_spec fuel : forall b p t, wf_board b -> wf_pool p -> 0 <= t <= 23 -> pool_len p < Z.of_nat fuel ->
  (forall d, a_die d -> held p d > 0 -> t + d <= 24) ->
  exists o, single_from_dest fuel b p t = (p, Ok o) /\
    match o with
    | Some pm => dest pm = t /\ legal b p (src pm) pm /\ forall q s, legal b p s q -> dest q = t -> die q <= die pm
    | None => forall q s, legal b p s q -> dest q <> t
    end.
Proof.
  induction fuel as [|fuel IH]; intros b p t WB WP Ht HF HB.
  { pose proof (pool_len_nonneg p WP). lia. }
  cbn [single_from_dest]. destruct (get_max_spec p WP) as (o & E & MX). rewrite E.
  destruct o as [d|]; cbn [is_max] in MX.
  2:{ exists None; split; auto. intros q s (D & H & _). rewrite MX in H by auto. lia. }
  destruct MX as (D & HD & TOP). replace (t =? -1) with false by lia.
  rewrite zmem_POINTS. replace ((0 <=? t) && (t <? 24)) with true by lia.
  rewrite open_spec by auto.
  destruct (opposing b t <? 2) eqn:O.
  2:{ exists None; split; auto. intros q s (_ & _ & _ & _ & _ & _ & [(_ & A & B & _)|(_ & A & _)]) T; [|lia].
      rewrite T in *. lia. }
  pose proof (HB d D ltac:(lia)) as TD. unfold a_die in D.
  rewrite has_spec by (auto; lia).
  assert (MAXQ : forall q s, legal b p s q -> die q <= d).
  { intros q s (Dq & Hq & _). destruct (Z_lt_ge_dec d (die q)); [|lia]. rewrite TOP in Hq by auto. lia. }
  destruct (eff (mover b) (t + d) =? 0) eqn:EF.
  - pose proof (consume_ok p d WP D HD) as C. rewrite C.
    pose proof C as C'. apply consume_inv in C' as (_ & _ & _ & W' & L' & H'); auto.
    destruct (IH b _ t WB W' Ht ltac:(lia)) as (o & Eo & Bo).
    { intros k Dk Hk. apply HB; auto. rewrite H' in Hk. destruct (k =? d); lia. }
    exists o. rewrite Eo. split; auto.
    assert (LD : forall q s, dest q = t -> legal b p s q -> legal b (dset p d (held p d - 1)) s q).
    { intros q s T L. eapply legal_pool; [|exact L]. rewrite H'. destruct (die q =? d) eqn:Q; auto. exfalso.
      destruct L as (_ & _ & S & Hs & A & B & [(_ & T' & _)|(_ & T' & _)]); [|lia].
      assert (s = t + d) as Es by lia. rewrite <- Es in EF. assert (eff (mover b) s <> 0) by (apply eff_nonzero; auto). lia. }
    destruct o as [pm|].
    + destruct Bo as (T & L & M). split; auto. split.
      * eapply legal_pool; [|exact L]. rewrite H'. destruct (die pm =? d); lia.
      * intros q s Lq Tq. eapply M; eauto.
    + intros q s Lq Tq. apply (Bo q s); auto.
  - rewrite hitting_spec by auto. eexists; split; [reflexivity|]. cbn. split; auto.
    assert (HC : eff (mover b) (t + d) <> 0) by lia. apply eff_nonzero in HC as [C1 C2]; auto; [|lia].
    split.
    + unfold legal; cbn. refine (conj D (conj _ (conj _ (conj _ (conj C1 (conj C2 _)))))); try lia.
      all: left; repeat split; lia.
    + intros q s L _. eapply MAXQ; eauto.
Qed.
(* bearing off: sound in general; complete but for point 0 with a larger die *)
Lemma single_off_spec fuel : forall b p, wf_board b -> wf_pool p -> pool_len p < Z.of_nat fuel ->
  exists p' o, single_from_dest fuel b p (-1) = (p', Ok o) /\
    match o with
    | Some pm => dest pm = -1 /\ legal b p (src pm) pm
    | None => forall q s, legal b p s q -> dest q = -1 -> s = 0 /\ die q <> 1
    end.
Proof.
  induction fuel as [|fuel IH]; intros b p WB WP HF.
  { pose proof (pool_len_nonneg p WP). lia. }
  cbn [single_from_dest]. destruct (get_max_spec p WP) as (o & E & MX). rewrite E.
  destruct o as [d|]; cbn [is_max] in MX.
  2:{ exists p, None; split; auto. intros q s (D & H & _). rewrite MX in H by auto. lia. }
  destruct MX as (D & HD & TOP). cbn [Z.eqb Pos.eqb].
  assert (D16 : 1 <= d <= 6) by exact D.
  destruct (find_src_exact b d (proj1 WB) (proj1 (wf_mover b WB)) D16) as (r & Er & Hr). rewrite Er.
  destruct r as [s|].
  - eexists _, _; split; [reflexivity|]. cbn. split; auto. destruct (proj1 (Hr s) eq_refl) as [M _].
    pose proof M as (Hs & C & HM & _). pose proof (may_bear_off_die _ _ _ M).
    unfold legal; cbn. refine (conj D (conj _ (conj _ (conj Hs (conj C (conj _ _)))))); try lia; [|right; auto].
    rewrite (HM 24) by lia. lia.
  - pose proof (consume_ok p d WP D HD) as C. rewrite C.
    pose proof C as C'. apply consume_inv in C' as (_ & _ & _ & W' & L' & H'); auto.
    destruct (IH b _ WB W' ltac:(lia)) as (p' & o & Eo & Bo). exists p', o; split; auto.
    destruct o as [pm|].
    + destruct Bo as (T & L). split; auto. eapply legal_pool; [|exact L]. rewrite H'. destruct (die pm =? d); lia.
    + intros q s L T. destruct (Z.eq_dec (die q) d) as [Eq|N].
      * destruct L as (_ & _ & S & Hs & A & B & [(X & Y & _)|(_ & _ & _ & M)]); [lia|].
        rewrite Eq in M. destruct (Z.eq_dec s 0), (Z.eq_dec d 1); try lia;
          (assert (@None Z = Some s) by (apply Hr; split; auto; lia); discriminate).
      * eapply Bo; eauto. eapply legal_pool; [|exact L]. rewrite H'. replace (die q =? d) with false by lia. auto.
Qed.

(* ---------- playing a legal step ---------- *)
Lemma legal_pm_ok b p s pm : legal b p s pm -> pm_ok pm /\ dest pm < src pm /\ src pm = s.
Proof.
  intros (D & _ & S & Hs & _ & _ & [(A & T & _ & _)|(A & T & H & _)]); unfold pm_ok, a_die in *; rewrite S, T.
  - repeat split; try lia. intros _. replace (s <? s - die pm) with false by lia. lia.
  - rewrite H. repeat split; try lia; discriminate.
Qed.
Lemma legal_play b p s pm : wf_board b -> legal b p s pm ->
  exists b1, make_partial_move pm b = (b1, Ok tt) /\ wf_board b1 /\ on_action b1 = on_action b /\
    (forall k, 0 <= k <= 24 -> count (mover b1) k = count (mover b) k + mover_delta pm k) /\
    (forall k, 0 <= k <= 24 -> count (side b1 (other (on_action b1))) k =
                               count (side b (other (on_action b))) k + opp_delta pm k).
Proof.
  intros WB L. destruct (legal_pm_ok _ _ _ _ L) as (OK & LT & S). pose proof WB as (P & W1 & W2).
  destruct (proj1 (proj2 move_conserves) b pm P (proj1 W1) (proj1 W2) OK) as (b1 & M & LL & CT).
  exists b1. split; auto.
  assert (OA : on_action b1 = on_action b).
  { destruct (proj1 move_conserves b pm b1 M) as (_ & _ & CH). symmetry. apply (CH FOnAction). cbn. intuition discriminate. }
  assert (NN : forall w, (w = on_action b \/ w = other (on_action b)) -> Forall (fun x => 0 <= x) (side b1 w)).
  { destruct (wf_mover b WB) as [WM WO]. intros w Hw. apply Forall_forall. intros x Hx.
    apply In_nth with (d := 0) in Hx as (k & Hk & <-). rewrite LL in Hk.
    replace (nth k (side b1 w) 0) with (count (side b1 w) (Z.of_nat k)) by (unfold count; rewrite Nat2Z.id; auto).
    destruct (CT (Z.of_nat k) ltac:(lia)) as [C1 C2].
    destruct L as (D & _ & S' & Hs & A & _ & B). unfold a_die in D.
    destruct Hw as [-> | ->].
    - rewrite C1. pose proof (count_nonneg (mover b) (Z.of_nat k) WM) as Q. unfold mover in *.
      unfold mover_delta, here. rewrite S. destruct (s =? Z.of_nat k) eqn:E; [|destruct (dest pm =? Z.of_nat k); lia].
      replace (Z.of_nat k) with s in * by lia. destruct (dest pm =? s); lia.
    - rewrite C2. pose proof (count_nonneg _ (Z.of_nat k) WO) as Q.
      unfold opp_delta, here. replace (src pm <? dest pm) with false by lia.
      destruct (is_hitting pm) eqn:H; [|lia].
      destruct B as [(_ & _ & _ & B)|(_ & _ & B & _)]; [|discriminate].
      assert (opposing b (dest pm) = 1) as O by (apply B; auto). unfold opposing in O.
      destruct (23 - dest pm =? Z.of_nat k) eqn:E; [|destruct (24 =? Z.of_nat k); lia].
      replace (23 - dest pm) with (Z.of_nat k) in O by lia. destruct (24 =? Z.of_nat k); lia. }
  assert (WB1 : wf_board b1).
  { split; [rewrite OA; auto|]. pose proof (NN (on_action b) (or_introl eq_refl)) as N1.
    pose proof (NN (other (on_action b)) (or_intror eq_refl)) as N2.
    pose proof (LL (on_action b)) as L1. pose proof (LL (other (on_action b))) as L2.
    unfold side, other in *. destruct P as [P|P]; rewrite P in *; cbn in *; repeat split; auto. }
  split; auto. split; auto. unfold mover. rewrite OA. split; intros k Hk; apply CT; auto.
Qed.

Lemma chain_mono b p s t l : chain b p s t l -> forall p', wf_pool p -> wf_pool p' ->
  (forall d, held p d <= held p' d) -> chain b p' s t l.
Proof.
  induction 1 as [b p s t pm L T|b p s t pm b1 p1 l L M C CH IH]; intros p' W W' HH.
  - apply chain_one; auto. eapply legal_pool; [|exact L]. specialize (HH (die pm)); lia.
  - pose proof C as C'. apply consume_inv in C' as (D & HP & _ & W1 & _ & H1); auto.
    pose proof (HH (die pm)). assert (0 < held p' (die pm)) as HP' by lia.
    pose proof (consume_ok p' _ W' D HP') as C2. pose proof C2 as C2'.
    apply consume_inv in C2' as (_ & _ & _ & W2 & _ & H2); auto.
    eapply chain_more; eauto.
    + eapply legal_pool; [|exact L]. lia.
    + apply IH; auto. intros d. rewrite H1, H2. specialize (HH d). destruct (d =? die pm); lia.
Qed.

(* the guess only gathers moves of the one chequer, all downwards, so nothing
   in the list cancels *)
Definition down_to (l : list pobj) (s : Z) : Prop := Forall (fun x => s <= dest (snd x) < src (snd x)) l.
Lemma append_down l n pm s : down_to l s -> src pm = s -> dest pm < s ->
  mv_append l (n, pm) = l ++ [(n, pm)].
Proof.
  intros D S T. unfold mv_append. cbn [snd].
  match goal with |- context [find ?f ?z] => destruct (find f z) as [p|] eqn:E end; auto.
  apply find_some in E as [E1 E2]. rewrite <- in_rev in E1. apply invertible_spec in E2 as (_ & A & B & _).
  unfold down_to in D; rewrite Forall_forall in D. apply D in E1. lia.
Qed.
Lemma multi_sound fuel : forall b p mv s t, wf_board b -> wf_pool p -> -1 <= t < s -> s <= 24 ->
  pool_len p < Z.of_nat fuel -> down_to mv s ->
  exists p' o, multiple_pms fuel b p mv s t = (b, p', Ok o) /\
    match o with
    | Some r => exists l, map snd r = map snd mv ++ l /\ chain b p s t l
    | None => True
    end.
Proof.
  induction fuel as [|fuel IH]; intros b p mv s t WB WP Ht Hs HF DT.
  { pose proof (pool_len_nonneg p WP). lia. }
  cbn [multiple_pms]. replace (negb (t <? s)) with false by lia.
  destruct (single_from_source_best b p s WB WP ltac:(lia)) as (o & E & B). rewrite E.
  destruct o as [pm|]; [|eexists _, _; split; [reflexivity|exact I]].
  destruct B as [L MX]. destruct (legal_pm_ok _ _ _ _ L) as (OK & LT & S).
  replace (negb (src pm =? s)) with false by lia.
  destruct (dest pm =? t) eqn:T.
  { rewrite (append_down mv _ pm s) by (auto; lia). eexists _, _; split; [reflexivity|].
    exists [pm]. split; [rewrite map_app; auto|]. apply chain_one; auto; lia. }
  assert (CS : exists p1, consume p (die pm) = Ok p1).
  { destruct L as (D & H & _). rewrite consume_ok by (auto; lia). eauto. }
  destruct CS as [p1 C]. rewrite C. pose proof C as C'. apply consume_inv in C' as (D & HP & _ & W1 & L1 & H1); auto.
  destruct (t <? dest pm) eqn:T2.
  - destruct (legal_play _ _ _ _ WB L) as (b1 & M & WB1 & OA & _). rewrite M.
    rewrite (append_down mv _ pm s) by (auto; lia).
    destruct (IH b1 p1 (mv ++ [(fresh mv, pm)]) (dest pm) t WB1 W1 ltac:(lia) ltac:(lia) ltac:(lia)) as (p' & o & E2 & R).
    { unfold down_to in *. apply Forall_app; split; [|repeat constructor; cbn; lia].
      eapply Forall_impl; [|exact DT]. cbn; intros; lia. }
    rewrite E2. change (inv_pm pm) with (inverse pm).
    assert (src pm <> dest pm) as NE by lia. rewrite (undo_restores b b1 pm NE M).
    eexists _, _; split; [reflexivity|]. destruct o as [r|]; auto. destruct R as (l & EM & CH).
    exists (pm :: l). split; [rewrite EM, map_app, <- app_assoc; auto|]. eapply chain_more; eauto.
  - destruct (IH b p1 mv s t WB W1 Ht Hs ltac:(lia) DT) as (p' & o & E2 & R). rewrite E2.
    eexists _, _; split; [reflexivity|]. destruct o as [r|]; auto. destruct R as (l & EM & CH).
    exists l; split; auto. eapply chain_mono; eauto. intros d; rewrite H1. destruct (d =? die pm); lia.
Qed.
Lemma multiple_sound : forall b p s t, wf_board b -> wf_pool p -> -1 <= t < s -> s <= 24 ->
  exists p' o, guess_multiple_pms b p s t = (b, p', Ok o) /\
    forall r, o = Some r -> chain b p s t (map snd r).
Proof.
  intros b p s t WB WP Ht Hs.
  destruct (multi_sound (pool_fuel p) b p [] s t WB WP Ht Hs) as (p' & o & E & R).
  { unfold pool_fuel. rewrite fuel_wf by auto. pose proof (pool_len_nonneg p WP). lia. }
  { constructor. }
  exists p', o; split; auto. intros r ->. destruct R as (l & EM & CH). cbn in EM. rewrite EM; auto.
Qed.

(* completeness for points of the board and the dice of one roll *)
Lemma chain_legal b p s t l : chain b p s t l -> exists pm l', l = pm :: l' /\ legal b p s pm /\ t <= dest pm.
Proof.
  induction 1 as [b p s t pm L T|b p s t pm b1 p1 l L M C CH IH]; [exists pm, []; split; [auto|split; [auto|lia]]|].
  exists pm, l; split; [auto|split; [auto|]]. destruct IH as (q & l' & _ & Lq & Tq).
  apply legal_pm_ok in Lq as (_ & ? & ?). lia.
Qed.
Lemma chain_inv b p s t pm l : chain b p s t (pm :: l) -> legal b p s pm /\
  ((l = [] /\ dest pm = t) \/
   exists b1 p1, make_partial_move pm b = (b1, Ok tt) /\ consume p (die pm) = Ok p1 /\ chain b1 p1 (dest pm) t l).
Proof. intros H; inversion H; subst; split; auto. right; eauto. Qed.
Lemma chain_dice b p s t l : wf_pool p -> 0 <= t -> chain b p s t l -> s - t = zsum (map die l) /\
  Forall (fun pm => a_die (die pm)) l /\
  (forall d, Z.of_nat (List.length (filter (fun pm => die pm =? d) l)) <= held p d).
Proof.
  intros WP Ht CH; revert WP Ht. induction CH as [b p s t pm L T|b p s t pm b1 p1 l L M C CH IH]; intros WP Ht.
  - pose proof L as (D & H & S & Hs & _ & _ & X). cbn. split; [|split].
    + destruct X as [(A & B & _)|(A & B & _)]; lia.
    + repeat constructor; apply D.
    + intros d. destruct (die pm =? d) eqn:E; cbn; [replace d with (die pm) by lia; lia|apply held_nonneg; apply WP].
  - pose proof L as (D & H & S & Hs & _ & _ & X). cbn [map filter].
    pose proof C as C'. apply consume_inv in C' as (_ & HP & _ & W1 & L1 & H1); auto.
    destruct (IH W1 Ht) as (E & F & G). pose proof (chain_legal _ _ _ _ _ CH) as (q & l' & _ & Lq & Tq).
    apply legal_pm_ok in Lq as (_ & ? & ?). split; [|split].
    + cbn. fold (zsum (map die l)). rewrite <- E. destruct X as [(A & B & _)|(A & B & _)]; lia.
    + constructor; auto.
    + intros d. specialize (G d). rewrite H1 in G. destruct (die pm =? d) eqn:Q; cbn [List.length].
      * replace (d =? die pm) with true in G by lia. lia.
      * replace (d =? die pm) with false in G by lia. auto.
Qed.
Definition finds (fuel : nat) (b : board) (p : pool) (mv : list pobj) (s t : Z) : Prop :=
  exists p' r, multiple_pms fuel b p mv s t = (b, p', Ok (Some r)).
(* what one turn of the search does with its best step *)
Lemma finds_hit fuel b p mv s t pm : t < s -> guess_single_from_source b p s = Ok (Some pm) ->
  src pm = s -> dest pm = t -> finds (S fuel) b p mv s t.
Proof.
  intros Ht E S T. unfold finds; cbn [multiple_pms]. replace (negb (t <? s)) with false by lia. rewrite E.
  replace (negb (src pm =? s)) with false by lia. replace (dest pm =? t) with true by lia. eauto.
Qed.
Lemma finds_further fuel b p mv s t pm b1 p1 : t < s -> guess_single_from_source b p s = Ok (Some pm) ->
  src pm = s -> t < dest pm < s -> consume p (die pm) = Ok p1 -> make_partial_move pm b = (b1, Ok tt) ->
  finds fuel b1 p1 (mv_append mv (fresh mv, pm)) (dest pm) t -> finds (S fuel) b p mv s t.
Proof.
  intros Ht E S T C M (p' & r & F). unfold finds; cbn [multiple_pms]. replace (negb (t <? s)) with false by lia. rewrite E.
  replace (negb (src pm =? s)) with false by lia. replace (dest pm =? t) with false by lia.
  replace (t <? dest pm) with true by lia. rewrite C, M, F. change (inv_pm pm) with (inverse pm).
  assert (src pm <> dest pm) as NE by lia. rewrite (undo_restores b b1 pm NE M). eauto.
Qed.
Lemma finds_over fuel b p mv s t pm p1 : t < s -> guess_single_from_source b p s = Ok (Some pm) ->
  src pm = s -> dest pm < t -> consume p (die pm) = Ok p1 ->
  finds fuel b p1 mv s t -> finds (S fuel) b p mv s t.
Proof.
  intros Ht E S T C (p' & r & F). unfold finds; cbn [multiple_pms]. replace (negb (t <? s)) with false by lia. rewrite E.
  replace (negb (src pm =? s)) with false by lia. replace (dest pm =? t) with false by lia.
  replace (t <? dest pm) with false by lia. rewrite C, F. eauto.
Qed.

Definition one_value (p : pool) (x : Z) : Prop := forall d, a_die d -> d <> x -> held p d = 0.
Lemma finds_one_value b p s t l : chain b p s t l -> forall fuel mv x, wf_board b -> wf_pool p -> -1 <= t ->
  one_value p x -> pool_len p < Z.of_nat fuel -> finds fuel b p mv s t.
Proof.
  induction 1 as [b p s t pm L T|b p s t pm b1 p1 l L M C CH IH]; intros fuel mv x WB WP Ht OV HF;
    (destruct fuel as [|fuel]; [pose proof (pool_len_nonneg p WP); lia|]);
    destruct (legal_pm_ok _ _ _ _ L) as (_ & LT & S);
    (assert (Hs : 0 <= s <= 24) by apply L);
    destruct (single_from_source_best b p s WB WP Hs) as (o & E & B);
    (destruct o as [q|]; [|exfalso; eapply B; eauto]); destruct B as [Lq MX];
    (assert (die q = die pm) as Eq by
      (destruct L as (D1 & H1 & _), Lq as (D2 & H2 & _);
       destruct (Z.eq_dec (die q) x) as [->|N]; [|rewrite OV in H2 by auto; lia];
       destruct (Z.eq_dec (die pm) x) as [->|N]; [auto|rewrite OV in H1 by auto; lia]));
    pose proof (legal_unique _ _ _ _ _ Lq L Eq) as ->.
  - eapply finds_hit; eauto; lia.
  - destruct (legal_play _ _ _ _ WB L) as (b1' & M' & WB1 & _). assert (b1' = b1) as -> by congruence.
    pose proof C as C'. apply consume_inv in C' as (D & HP & _ & W1 & L1 & H1); auto.
    pose proof (chain_legal _ _ _ _ _ CH) as (q & l' & _ & L2 & T2). apply legal_pm_ok in L2 as (_ & ? & ?).
    eapply finds_further; eauto; try lia. apply (IH _ _ x); auto; try lia.
    intros d Dd Nd. rewrite H1. destruct (d =? die pm) eqn:Q; [|apply OV; auto].
    exfalso. assert (held p d = 0) by (apply OV; auto). replace d with (die pm) in * by lia. lia.
Qed.
Lemma finds_two_values b p s t l x y fuel mv : wf_board b -> wf_pool p -> 0 <= t ->
  (forall d, a_die d -> d <> x -> d <> y -> held p d = 0) -> x <> y -> held p x <= 1 -> held p y <= 1 ->
  chain b p s t l -> pool_len p < Z.of_nat fuel -> finds fuel b p mv s t.
Proof.
  intros WB WP Ht OV XY HX HY CH HF.
  assert (HP1 : forall d, a_die d -> held p d <= 1).
  { intros d Dd. destruct (Z.eq_dec d x) as [->|]; auto. destruct (Z.eq_dec d y) as [->|]; auto. rewrite OV by auto. lia. }
  assert (AFTER : forall d p1, consume p d = Ok p1 -> exists z, one_value p1 z /\ (z = x \/ z = y)).
  { intros d p1 C. apply consume_inv in C as (D & HP & _ & W1 & _ & H1); auto.
    assert (d = x \/ d = y) as [->| ->].
    { destruct (Z.eq_dec d x); auto. destruct (Z.eq_dec d y); auto. rewrite OV in HP by auto. lia. }
    - exists y; split; auto. intros k Dk Nk. rewrite H1. destruct (k =? x) eqn:Q; [replace k with x by lia; lia|]. apply OV; auto; lia.
    - exists x; split; auto. intros k Dk Nk. rewrite H1. destruct (k =? y) eqn:Q; [replace k with y by lia; lia|]. apply OV; auto; lia. }
  destruct fuel as [|fuel]; [pose proof (pool_len_nonneg p WP); lia|].
  destruct (chain_legal _ _ _ _ _ CH) as (pm & l' & El & L & T0).
  destruct (legal_pm_ok _ _ _ _ L) as (_ & LT & S). assert (Hs : 0 <= s <= 24) by apply L.
  destruct (single_from_source_best b p s WB WP Hs) as (o & E & B).
  destruct o as [q|]; [|exfalso; eapply B; eauto]. destruct B as [Lq MX].
  destruct (legal_pm_ok _ _ _ _ Lq) as (_ & LTq & Sq).
  pose proof (MX pm L) as GE.
  assert (CQ : exists p1, consume p (die q) = Ok p1).
  { destruct Lq as (D & H & _). rewrite consume_ok by (auto; lia). eauto. }
  destruct CQ as [p1 C]. pose proof C as C'. apply consume_inv in C' as (D & HP & _ & W1 & L1 & H1); auto.
  destruct (AFTER _ _ C) as (z & OV1 & _).
  subst l. apply chain_inv in CH as [_ [[-> T1]|(b1 & p1' & M0 & C0 & CH0)]].
  - subst t. destruct (Z.eq_dec (die q) (die pm)) as [Eq|Nq].
    + pose proof (legal_unique _ _ _ _ _ Lq L Eq) as ->. eapply finds_hit; eauto; lia.
    + assert (dest q < dest pm) as OVR.
      { destruct L as (_ & _ & _ & _ & _ & _ & [(A1 & A2 & _)|(A1 & A2 & _)]); [|lia].
        destruct Lq as (_ & _ & _ & _ & _ & _ & [(B1 & B2 & _)|(B1 & B2 & _)]); lia. }
      eapply finds_over; eauto; try lia. eapply finds_one_value; eauto; try lia.
      apply chain_one; auto. eapply legal_pool; [|exact L]. rewrite H1. replace (die pm =? die q) with false by lia. auto.
  - destruct (legal_play _ _ _ _ WB L) as (b1' & M' & WB1 & OA1 & CM1 & CO1). assert (b1' = b1) as -> by congruence.
    destruct (Z.eq_dec (die q) (die pm)) as [Eq|Nq].
    + pose proof (legal_unique _ _ _ _ _ Lq L Eq) as ->. assert (p1' = p1) as -> by congruence.
      pose proof (chain_legal _ _ _ _ _ CH0) as (q2 & l2 & _ & L2 & T2). apply legal_pm_ok in L2 as (_ & ? & ?).
      eapply finds_further; eauto; try lia. eapply finds_one_value; eauto; lia.
    + pose proof C0 as C0'. apply consume_inv in C0' as (D0 & HP0 & _ & W0 & L00 & H0); auto.
      destruct (AFTER _ _ C0) as (z0 & OV0 & _).
      destruct (chain_legal _ _ _ _ _ CH0) as (r & l'' & -> & Lr & Tr).
      assert (die r = die q) as Er.
      { destruct Lr as (Dr & Hr & _). destruct (Z.eq_dec (die r) (die q)); auto. exfalso.
        destruct (Z.eq_dec (die r) (die pm)) as [Q|Q].
        - rewrite Q, H0, Z.eqb_refl in Hr. pose proof (HP1 _ D0). lia.
        - rewrite H0 in Hr. replace (die r =? die pm) with false in Hr by lia.
          assert (0 < held p (die pm)) by lia. assert (0 < held p (die q)) by lia.
          assert (die q = x \/ die q = y) by (destruct (Z.eq_dec (die q) x); auto; destruct (Z.eq_dec (die q) y); auto; rewrite OV in * by auto; lia).
          assert (die pm = x \/ die pm = y) by (destruct (Z.eq_dec (die pm) x); auto; destruct (Z.eq_dec (die pm) y); auto; rewrite (OV (die pm)) in * by auto; lia).
          assert (die r = x \/ die r = y) by (destruct (Z.eq_dec (die r) x); auto; destruct (Z.eq_dec (die r) y); auto; rewrite OV in Hr by auto; lia).
          lia. }
      assert (dest r = t /\ l'' = []) as [Tr' ->].
      { apply chain_inv in CH0 as [_ [[-> A]|(b2 & p2 & A & C2 & CH2)]]; auto. exfalso.
        apply consume_inv in C2 as (_ & HP2 & _ & W2 & _ & H2); auto.
        destruct (chain_legal _ _ _ _ _ CH2) as (u & ? & _ & (Du & Hu & _) & _).
        rewrite H2, H0 in Hu. pose proof (HP1 _ D0). pose proof (HP1 _ D). pose proof (HP1 _ Du).
        destruct (Z.eq_dec (die u) (die pm)) as [U|U]; [|destruct (Z.eq_dec (die u) (die r)) as [V|V]].
        - rewrite U, Z.eqb_refl in Hu. destruct (die pm =? die r); lia.
        - rewrite V, Z.eqb_refl, Er in Hu. replace (die q =? die pm) with false in Hu by lia. lia.
        - replace (die u =? die r) with false in Hu by lia. replace (die u =? die pm) with false in Hu by lia.
          assert (0 < held p (die pm)) by lia. assert (0 < held p (die q)) by lia.
          assert (die q = x \/ die q = y) by (destruct (Z.eq_dec (die q) x); auto; destruct (Z.eq_dec (die q) y); auto; rewrite (OV (die q)) in * by auto; lia).
          assert (die pm = x \/ die pm = y) by (destruct (Z.eq_dec (die pm) x); auto; destruct (Z.eq_dec (die pm) y); auto; rewrite (OV (die pm)) in * by auto; lia).
          assert (die u = x \/ die u = y) by (destruct (Z.eq_dec (die u) x); auto; destruct (Z.eq_dec (die u) y); auto; rewrite (OV (die u)) in * by auto; lia).
          lia. }
      destruct (legal_pm_ok _ _ _ _ Lr) as (_ & LTr & Sr).
      assert (DP : dest pm = s - die pm).
      { destruct L as (_ & _ & _ & _ & _ & _ & [(A1 & A2 & _)|(A1 & A2 & _)]); auto; lia. }
      assert (DR : dest r = dest pm - die r).
      { destruct Lr as (_ & _ & _ & _ & _ & _ & [(A1 & A2 & _)|(A1 & A2 & _)]); auto; lia. }
      unfold a_die in *.
      assert (DQ : dest q = s - die q).
      { destruct Lq as (_ & _ & _ & _ & _ & _ & [(A1 & A2 & _)|(A1 & A2 & _)]); auto; lia. }
      destruct (legal_play _ _ _ _ WB Lq) as (b2 & M2 & WB2 & OA2 & CM2 & CO2).
      eapply finds_further; eauto; try lia.
      eapply (finds_one_value b2 p1 (dest q) t [mkPM (die pm) (dest q) t (opposing b2 t =? 1)]); eauto; try lia.
      apply chain_one; auto. unfold legal; cbn.
      assert (OO : opposing b2 t = opposing b1 t).
      { unfold opposing. rewrite CO1, CO2 by lia. f_equal. unfold opp_delta, here.
        replace (src q <? dest q) with false by lia. replace (src pm <? dest pm) with false by lia.
        replace (24 =? 23 - t) with false by lia.
        replace (23 - dest q =? 23 - t) with false by lia. replace (23 - dest pm =? 23 - t) with false by lia.
        destruct (is_hitting q), (is_hitting pm); lia. }
      assert (OB : count (mover b2) 24 = count (mover b1) 24).
      { rewrite CM1, CM2 by lia. f_equal. unfold mover_delta, here.
        replace (dest q =? 24) with false by lia. replace (dest pm =? 24) with false by lia. rewrite S, Sq. lia. }
      refine (conj D0 (conj _ (conj eq_refl (conj _ (conj _ (conj _ _)))))); try lia.
      * rewrite H1. replace (die pm =? die q) with false by lia. lia.
      * rewrite CM2 by lia. unfold mover_delta, here. rewrite Z.eqb_refl. replace (src q =? dest q) with false by lia.
        pose proof (count_nonneg (mover b) (dest q) (proj1 (wf_mover b WB))). lia.
      * intros Q. rewrite OB in Q. destruct Lr as (_ & _ & _ & _ & _ & A & _). specialize (A Q). lia.
      * left. rewrite OO. split; [lia|]. split; [lia|]. split; [|lia].
        destruct Lr as (_ & _ & _ & _ & _ & _ & [(_ & _ & A & _)|(A & _)]); [|lia]. rewrite Tr' in A. auto.
Qed.
Lemma multiple_complete : forall b p s t l, wf_board b -> wf_pool p -> roll_pool p -> 0 <= t ->
  chain b p s t l -> exists p' r, guess_multiple_pms b p s t = (b, p', Ok (Some r)).
Proof.
  intros b p s t l WB WP (x & y & OV & H) Ht CH.
  assert (HF : pool_len p < Z.of_nat (pool_fuel p)).
  { unfold pool_fuel. rewrite fuel_wf by auto. pose proof (pool_len_nonneg p WP). lia. }
  change (finds (pool_fuel p) b p [] s t).
  destruct (Z.eq_dec x y) as [->|N].
  - eapply (finds_one_value _ _ _ _ _ CH _ _ y); eauto; try lia. intros d Dd Nd. apply OV; auto.
  - destruct H as [|[H1 H2]]; [contradiction|]. eapply finds_two_values; eauto.
Qed.

(* ---------- C27 ---------- *)
Lemma move_ntop_ok n : -1 <= n <= 24 -> exists s, move_ntop n = Ok s.
Proof.
  intros H; unfold move_ntop. destruct (n <? 0) eqn:A; eauto. destruct ((0 <=? n) && (n <? 24)) eqn:B; eauto.
  replace (n =? 24) with true by lia. eauto.
Qed.
Definition up_to (l : list pobj) (s : Z) : Prop := Forall (fun x => src (snd x) < dest (snd x) <= s) l.
Lemma append_up l n pm s : up_to l s -> src pm = s -> s < dest pm -> mv_append l (n, pm) = l ++ [(n, pm)].
Proof.
  intros D S T. unfold mv_append. cbn [snd].
  match goal with |- context [find ?f ?z] => destruct (find f z) as [p|] eqn:E end; auto.
  apply find_some in E as [E1 E2]. rewrite <- in_rev in E1. apply invertible_spec in E2 as (_ & A & B & _).
  unfold up_to in D; rewrite Forall_forall in D. apply D in E1. lia.
Qed.
Lemma inverse_ok pm : forward pm -> pm_ok pm -> pm_ok (inverse pm).
Proof.
  unfold forward, pm_ok, inverse; cbn. intros F (A & B & C). split; [lia|]. split; [lia|].
  intros H. specialize (C H). replace (src pm <? dest pm) with false in C by lia.
  replace (dest pm <? src pm) with true by lia. auto.
Qed.
Definition len25 (b : board) : Prop :=
  player (on_action b) /\ List.length (fst (position b)) = 25%nat /\ List.length (snd (position b)) = 25%nat.
Lemma play_len25 b pm : len25 b -> pm_ok pm -> exists b1, make_partial_move pm b = (b1, Ok tt) /\ len25 b1.
Proof.
  intros (P & L1 & L2) OK. destruct (proj1 (proj2 move_conserves) b pm P L1 L2 OK) as (b1 & M & LL & _).
  exists b1; split; auto. destruct (proj1 move_conserves b pm b1 M) as (_ & _ & CH).
  split; [rewrite <- (CH FOnAction); auto; cbn; intuition discriminate|].
  split; [apply (LL 0)|apply (LL 1)].
Qed.
Lemma undoes_spec fuel : forall played b mv s t, Forall (fun x : pobj => stepping (snd x)) played -> len25 b ->
  -1 <= s < t -> t <= 24 -> t - s < Z.of_nat fuel -> up_to mv s ->
  exists b' o, partial_undoes fuel played b mv s t = (b', Ok o) /\
    match o with
    | Some r => exists l, map snd r = map snd mv ++ l /\ undo_chain (map snd played) s t l /\
                  make_all (removelast l) b = (b', Ok tt)
    | None => exists l, Forall (fun q => exists pm, In pm (map snd played) /\ q = inverse pm) l /\
                  make_all l b = (b', Ok tt)
    end.
Proof.
  induction fuel as [|fuel IH]; intros played b mv s t FP LB Hs Ht HF UT; [lia|].
  cbn [partial_undoes]. replace (negb (s <? t)) with false by lia.
  assert (NT : (let! _ := move_ntop s in let! _ := move_ntop t in Ok (@None (list pobj))) = Ok None).
  { destruct (move_ntop_ok s ltac:(lia)) as [x ->]. destruct (move_ntop_ok t ltac:(lia)) as [y ->]. auto. }
  unfold mv_find_first. match goal with |- context [find ?f ?z] => destruct (find f z) as [[i pm]|] eqn:E end.
  2:{ exists b, None. split; [f_equal; exact NT|]. exists []; split; [constructor|reflexivity]. }
  apply find_some in E as [E1 E2]. rewrite <- in_rev in E1. cbn [snd] in E2.
  rewrite Forall_forall in FP. pose proof (FP _ E1) as (D & F & OK). cbn [snd] in D, F, OK.
  assert (IM : In pm (map snd played)) by (apply in_map_iff; exists (i, pm); auto).
  rewrite <- Forall_forall in FP. unfold forward in F. cbn [inv_pm dest].
  rewrite (append_up mv _ (inv_pm pm) s) by (auto; cbn; lia).
  destruct (src pm =? t) eqn:T.
  { eexists _, _; split; [reflexivity|]. exists [inverse pm]. split; [rewrite map_app; auto|].
    split; [apply undo_one; auto; lia|reflexivity]. }
  destruct (src pm <? t) eqn:T2.
  2:{ exists b, None. split; [f_equal; exact NT|]. exists []; split; [constructor|reflexivity]. }
  change (inv_pm pm) with (inverse pm).
  destruct (play_len25 b (inverse pm) LB (inverse_ok _ F OK)) as (b1 & M & LB1). rewrite M.
  cbn [inverse die]. rewrite (proj2 (is_die_spec _) D). fold (inverse pm).
  destruct (IH played b1 (mv ++ [(fresh mv, inverse pm)]) (src pm) t FP LB1) as (b' & o & E & R); try lia.
  { unfold up_to in *. apply Forall_app; split; [|repeat constructor; cbn; lia].
    eapply Forall_impl; [|exact UT]. cbn; intros; lia. }
  exists b', o. split; [exact E|]. destruct o as [r|].
  - destruct R as (l & EM & U & MA). exists (inverse pm :: l). split; [rewrite EM, map_app, <- app_assoc; auto|].
    split; [eapply undo_more; eauto; lia|].
    assert (l <> []) by (inversion U; discriminate). destruct l as [|q l]; [congruence|].
    change (removelast (inverse pm :: q :: l)) with (inverse pm :: removelast (q :: l)).
    cbn [make_all]. rewrite M. auto.
  - destruct R as (l & FL & MA). exists (inverse pm :: l). split; [constructor; eauto|].
    cbn [make_all]. rewrite M. auto.
Qed.
Lemma partial_undoes_exact : forall f s t, Forall (fun x => stepping (snd x)) (fmove f) -> wf_board (fboard f) ->
  -1 <= s < t -> t <= 24 ->
  exists b' o, guess_partial_undoes f s t = (b', Ok o) /\
    match o with
    | Some r => undo_chain (map snd (fmove f)) s t (map snd r) /\
                make_all (removelast (map snd r)) (fboard f) = (b', Ok tt)
    | None => exists l, Forall (fun q => exists pm, In pm (map snd (fmove f)) /\ q = inverse pm) l /\
                make_all l (fboard f) = (b', Ok tt)
    end.
Proof.
  intros f s t FP WB Hs Ht.
  destruct (undoes_spec (S (Z.to_nat (t - s))) (fmove f) (fboard f) [] s t) as (b' & o & E & R); auto; try lia.
  { destruct WB as (P & W1 & W2). repeat split; auto; [apply W1|apply W2]. }
  { constructor. }
  exists b', o; split; auto. destruct o as [r|]; auto. destruct R as (l & EM & U & MA). cbn in EM. rewrite EM; auto.
Qed.
Lemma partial_undoes_refuted : exists f s t b' r, wf_board (fboard f) /\ Forall (fun x => stepping (snd x)) (fmove f) /\
  guess_partial_undoes f s t = (b', Ok (Some r)) /\ b' <> fboard f.
Proof.
  pose (f := fst (fac_add (new_factory opening61 None None)
     [(1%nat, mkPM 6 23 17 false); (2%nat, mkPM 1 17 16 false)])).
  exists f, 16, 23. eexists _, _. split.
  { split; [left; reflexivity|]. split; split; try reflexivity; vm_compute; repeat constructor; discriminate. }
  split.
  { vm_compute. repeat constructor; try discriminate. }
  split; [vm_compute; reflexivity|]. vm_compute. discriminate.
Qed.

Ltac num := first [vm_compute; congruence | vm_compute; split; congruence].
(* ---------- C25 ---------- *)
Lemma from_dest_exact : forall b p, wf_board b -> wf_pool p ->
  (forall t, 0 <= t <= 23 -> (forall d, a_die d -> held p d > 0 -> t + d <= 24) ->
     exists o, guess_single_from_dest b p t = (p, Ok o) /\
       match o with
       | Some pm => dest pm = t /\ legal b p (src pm) pm /\ forall q s, legal b p s q -> dest q = t -> die q <= die pm
       | None => forall q s, legal b p s q -> dest q <> t
       end) /\
  (exists p' o, guess_single_from_dest b p (-1) = (p', Ok o) /\
       match o with
       | Some pm => dest pm = -1 /\ legal b p (src pm) pm
       | None => forall q s, legal b p s q -> dest q = -1 -> s = 0 /\ die q <> 1
       end).
Proof.
  intros b p WB WP.
  assert (HF : pool_len p < Z.of_nat (pool_fuel p)).
  { unfold pool_fuel. rewrite fuel_wf by auto. pose proof (pool_len_nonneg p WP). lia. }
  split; [intros t Ht HB; apply single_dest_spec; auto|apply single_off_spec; auto].
Qed.
Lemma wf_sample mine his r : forallb (fun kv => 0 <=? snd kv) (mine ++ his) = true -> wf_board (sample mine his r).
Proof.
  intros F. rewrite forallb_app in F. apply andb_prop in F as [F1 F2]. rewrite forallb_forall in F1, F2.
  assert (G : forall l, (forall x, In x l -> (0 <=? snd x) = true) -> wf_side (one_side l)).
  { clear. intros l H. split; [unfold one_side; rewrite map_length; reflexivity|].
    apply Forall_forall. intros x Hx. unfold one_side in Hx. apply in_map_iff in Hx as (n & <- & _).
    clear -H. induction l as [|[k v] l IH]; cbn; [lia|].
    fold (zsum (map (fun kv : Z * Z => if fst kv =? n then snd kv else 0) l)).
    pose proof (H (k, v) (or_introl eq_refl)) as V; cbn in V.
    assert (0 <= zsum (map (fun kv : Z * Z => if fst kv =? n then snd kv else 0) l)) by (apply IH; intros; apply H; cbn; auto).
    destruct (k =? n); lia. }
  split; [left; reflexivity|]. split; cbn; apply G; auto.
Qed.
Lemma from_dest_raises_refuted : exists b t, wf_board b /\ a_die (fst (rolled b)) /\ a_die (snd (rolled b)) /\
  0 <= t <= 23 /\ snd (guess_single_from_dest b (new_pool (rolled b)) t) = Exc IndexError.
Proof.
  exists opening61, 20. split.
  { split; [left; reflexivity|]. split; split; try reflexivity; vm_compute; repeat constructor; discriminate. }
  split; [unfold a_die; cbn; lia|]. split; [unfold a_die; cbn; lia|]. split; [lia|]. vm_compute; auto.
Qed.
Lemma from_dest_missed_refuted : exists b p q, wf_board b /\ wf_pool p /\ legal b p 0 q /\ dest q = -1 /\
  snd (guess_single_from_dest b p (-1)) = Ok None.
Proof.
  exists (sample [(0, 1)] [(0, 2)] (6, 5)), (new_pool (6, 5)), (mkPM 6 0 (-1) false).
  split; [apply wf_sample; auto|]. split; [apply wf_new_pool; right; unfold a_die; cbn; lia|].
  split; [|split; vm_compute; auto].
  unfold legal, may_bear_off. repeat match goal with |- _ /\ _ => split end; try num.
  right. repeat match goal with |- _ /\ _ => split end; try num.
  - intros k Hk. assert (In k (zrange 6 25)) as I by (apply In_zrange; lia).
    assert (A : forallb (fun k => count (mover (sample [(0, 1)] [(0, 2)] (6, 5))) k =? 0) (zrange 6 25) = true) by (vm_compute; auto).
    rewrite forallb_forall in A. apply A in I. lia.
  - right. split; [cbn; lia|]. intros k Hk. assert (In k (zrange 1 25)) as I by (apply In_zrange; lia).
    assert (A : forallb (fun k => count (mover (sample [(0, 1)] [(0, 2)] (6, 5))) k =? 0) (zrange 1 25) = true) by (vm_compute; auto).
    rewrite forallb_forall in A. apply A in I. lia.
Qed.
Lemma from_dest_pool_refuted : exists b p, wf_board b /\ wf_pool p /\ fst (guess_single_from_dest b p (-1)) <> p.
Proof.
  exists opening61, (new_pool (6, 1)). split.
  { split; [left; reflexivity|]. split; split; try reflexivity; vm_compute; repeat constructor; discriminate. }
  split; [apply wf_new_pool; right; unfold a_die; cbn; lia|]. vm_compute. discriminate.
Qed.

(* ---------- C26: bearing off with two dice ---------- *)
Lemma zeros b n m : forallb (fun k => count (mover b) k =? 0) (zrange n m) = true ->
  forall k, n <= k < m -> count (mover b) k = 0.
Proof. rewrite forallb_forall. intros H k Hk. assert (In k (zrange n m)) as I by (apply In_zrange; lia). apply H in I. lia. Qed.
Lemma multiple_off_refuted : exists b s l, wf_board b /\ chain b (new_pool (rolled b)) s (-1) l /\
  snd (guess_multiple_pms b (new_pool (rolled b)) s (-1)) = Ok None.
Proof.
  pose (b0 := sample [(5, 1); (2, 1)] [(0, 2)] (4, 3)).
  exists b0, 5, [mkPM 3 5 2 false; mkPM 4 2 (-1) false].
  split; [apply wf_sample; auto|]. split; [|vm_compute; auto].
  eapply chain_more.
  - unfold legal. repeat match goal with |- _ /\ _ => split end; try num.
    left. repeat match goal with |- _ /\ _ => split end; num.
  - vm_compute; reflexivity.
  - vm_compute; reflexivity.
  - apply chain_one; [|reflexivity].
    unfold legal, may_bear_off. repeat match goal with |- _ /\ _ => split end; try num.
    right. repeat match goal with |- _ /\ _ => split end; try num.
    + intros k Hk. apply (zeros _ 6 25); [vm_compute; auto|lia].
    + right. split; [cbn; lia|]. intros k Hk. apply (zeros _ 3 25); [vm_compute; auto|cbn in Hk; lia].
Qed.

(* ---------- C28 ---------- *)
Lemma making_point_exact : forall f t, wf_board (fboard f) -> wf_pool (favail f) ->
  a_die (fst (rolled (fboard f))) -> a_die (snd (rolled (fboard f))) ->
  (forall d, held (favail f) d <= dice_of (rolled (fboard f)) d) ->
  0 <= t <= 23 -> (forall d, a_die d -> held (favail f) d > 0 -> t + d <= 24) ->
  exists b' o, making_point f t = (b', Ok o) /\
    forall r, o = Some r -> exists pm pm2, r = [pm; pm2] /\ dest pm = t /\ dest pm2 = t /\
      legal (fboard f) (favail f) (src pm) pm /\ make_partial_move pm (fboard f) = (b', Ok tt) /\
      legal b' (favail f) (src pm2) pm2.
Proof.
  intros f t WB WP D1 D2 SUB Ht HB. unfold making_point.
  destruct (proj1 (from_dest_exact _ _ WB WP) t Ht HB) as (o & E & R). rewrite E. cbn [snd].
  destruct o as [pm|]; [|eexists _, _; split; [reflexivity|discriminate]].
  destruct R as (T & L & _). destruct (proj1 dice_pool _ D1 D2) as [W HD].
  rewrite consume_ok; auto; [|apply L|].
  2:{ destruct L as (_ & H & _). rewrite HD. specialize (SUB (die pm)). lia. }
  destruct (legal_play _ _ _ _ WB L) as (b1 & M & WB1 & _). rewrite M.
  destruct (proj1 (from_dest_exact _ _ WB1 WP) t Ht HB) as (o & E2 & R2). rewrite E2. cbn [snd].
  destruct o as [pm2|]; [|eexists _, _; split; [reflexivity|discriminate]].
  destruct R2 as (T2 & L2 & _). eexists _, _; split; [reflexivity|]. intros r [= <-].
  exists pm, pm2. auto 10.
Qed.
Lemma making_point_refuted : exists f t b' pm pm2, wf_board (fboard f) /\
  f = new_factory (fboard f) None None /\ a_die (fst (rolled (fboard f))) /\ a_die (snd (rolled (fboard f))) /\
  making_point f t = (b', Ok (Some [pm; pm2])) /\
  (* both moves use the same die, of which there is one; and the board has been changed *)
  die pm = die pm2 /\ held (favail f) (die pm) = 1 /\ b' <> fboard f.
Proof.
  exists (new_factory opening31 None None), 4. eexists _, _, _. split.
  { split; [left; reflexivity|]. split; split; try reflexivity; vm_compute; repeat constructor; discriminate. }
  split; [reflexivity|]. split; [unfold a_die; cbn; lia|]. split; [unfold a_die; cbn; lia|].
  split; [vm_compute; reflexivity|]. split; [reflexivity|]. split; [reflexivity|]. vm_compute; discriminate.
Qed.
