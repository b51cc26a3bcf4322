From Coq Require Import ZifyBool ZifyNat.
From Verif Require Import Py PyFacts UtilModel BoardModel BoardSpec BoardProofs MoveModel MoveSpec PoolProofs MoveProofs GuessProofs PickupProofs.
From Verif Require Import GameModel GameSpec.

(* ---------- positions ---------- *)
Section Limits.
Variable lim : Z -> Z.
Notation proper := (within lim).
Lemma proper_sides b : player (on_action b) ->
  (proper b <-> wf_side (mover b) /\ wf_side (waiter b) /\ total (mover b) <= lim (on_action b) /\
     total (waiter b) <= lim (other (on_action b)) /\
     forall k, 0 <= k <= 23 -> count (mover b) k = 0 \/ opposing b k = 0).
Proof.
  intros P. unfold within, mover, waiter, opposing, side, other. destruct P as [-> | ->];
    [change (0 =? 0) with true; change (1 - 0) with 1|change (1 - 1) with 0; change (0 =? 0) with true];
    change (1 =? 0) with false; cbv iota; [tauto|].
  split; [intros (A & B & (C & D) & E)|intros (A & B & C & D & E)];
    (refine (conj _ (conj _ _)); [assumption..|]; try split; auto; try split; auto;
     intros k Hk; specialize (E (23 - k) ltac:(lia)); replace (23 - (23 - k)) with k in E by lia; tauto).
Qed.
Lemma proper_wf b : player (on_action b) -> proper b -> wf_board b.
Proof. intros P (A & B & _). split; auto. Qed.
Lemma step_proper b p s pm b1 : player (on_action b) -> proper b -> legal b p s pm ->
  make_partial_move pm b = (b1, Ok tt) -> proper b1 /\ on_action b1 = on_action b.
Proof.
  intros P PR Lg M. pose proof (proper_wf b P PR) as WB.
  destruct (legal_play b p s pm WB Lg) as (b1' & M' & WB1 & OA & CM & CO).
  rewrite M in M'. injection M' as <-. split; auto.
  pose proof PR as PR0. apply proper_sides in PR0 as (W1 & W2 & T1 & T2 & NS); auto.
  apply proper_sides; [rewrite OA; auto|].
  destruct (wf_mover b1 WB1) as [X1 X2]. split; auto. split; auto.
  destruct (proj1 move_conserves b pm b1 M) as (Q1 & Q2 & _).
  destruct (legal_pm_ok _ _ _ _ Lg) as (OK & LT & Sr).
  unfold mover, waiter. rewrite OA. split.
  { rewrite Q1. unfold mover in T1. destruct (-1 <? dest pm) eqn:E1, (-1 <? src pm) eqn:E; lia. }
  split; [rewrite Q2; apply T2|].
  intros k Hk. specialize (NS k Hk). pose proof (CM k ltac:(lia)) as C1.
  pose proof (CO (23 - k) ltac:(lia)) as C2. unfold opposing in *. rewrite OA in *. unfold mover in C1; rewrite OA in C1. rewrite C1, C2.
  pose proof (count_nonneg (side b1 (on_action b)) k) as N1.
  pose proof (count_nonneg (side b1 (other (on_action b))) (23 - k)) as N2.
  unfold mover in X1; unfold waiter in X2; try rewrite OA in X1; try rewrite OA in X2. specialize (N1 X1). specialize (N2 X2). rewrite C1 in N1. rewrite C2 in N2.
  pose proof (count_nonneg _ k W1) as N3. pose proof (count_nonneg _ (23 - k) W2) as N4.
  unfold mover, waiter in N3, N4. fold (mover b) in NS, N1, N3 |- *.
  destruct Lg as (D & _ & S & Hs & HC & _ & [(A1 & A2 & A3 & A4)|(A1 & A2 & A3 & A4)]); unfold a_die in D; unfold opposing in *.
  - unfold mover_delta, opp_delta, here in *. rewrite S in *. rewrite A2 in *.
    replace (s <? s - die pm) with false in * by lia.
    destruct (s - die pm =? k) eqn:E1.
    + replace (s - die pm) with k in * by lia. rewrite Z.eqb_refl in *.
      replace (24 =? 23 - k) with false in * by lia. destruct (is_hitting pm) eqn:H; [right|right].
      * assert (count (side b (other (on_action b))) (23 - k) = 1) as -> by (apply A4; auto). lia.
      * destruct (Z.eq_dec (count (side b (other (on_action b))) (23 - k)) 1) as [E|E]; [|lia].
        apply A4 in E. discriminate.
    + replace (23 - (s - die pm) =? 23 - k) with false in * by lia.
      replace (24 =? 23 - k) with false in * by lia.
      destruct (is_hitting pm), (s =? k) eqn:E2; lia.
  - unfold mover_delta, opp_delta, here in *. rewrite S, A2, A3 in *.
    replace (-1 =? k) with false in * by lia. destruct (s =? k) eqn:E2; lia.
Qed.

(* ---------- suggestions from a destination are sound on every point ---------- *)
Lemma dest_sound fuel : forall b p t pm, wf_board b -> wf_pool p -> 0 <= t <= 23 ->
  snd (single_from_dest fuel b p t) = Ok (Some pm) -> legal b p (src pm) pm.
Proof.
  induction fuel as [|fuel IH]; intros b p t pm WB WP Ht; [discriminate|].
  cbn [single_from_dest]. destruct (get_max_spec p WP) as (o & E & MX). rewrite E.
  destruct o as [d|]; [|discriminate]. cbn [is_max] in MX. destruct MX as (D & HD & TOP).
  replace (t =? -1) with false by lia.
  rewrite zmem_POINTS. replace ((0 <=? t) && (t <? 24)) with true by lia.
  rewrite open_spec by auto. destruct (opposing b t <? 2) eqn:O; [|discriminate].
  destruct (has_chequer_to_move b (t + d)) as [c|e] eqn:HC; [|discriminate].
  destruct (c =? 0) eqn:C0.
  - pose proof (consume_ok p d WP D HD) as C. rewrite C.
    pose proof C as C'. apply consume_inv in C' as (_ & _ & _ & W' & L' & H'); auto.
    cbn [snd]. intros G. apply IH in G; auto. eapply legal_pool; [|exact G]. rewrite H'. destruct (die pm =? d); lia.
  - rewrite hitting_spec by auto. cbn. intros [= <-]. cbn.
    unfold a_die in D.
    assert (R : t + d <= 24).
    { destruct (Z_le_gt_dec (t + d) 24); auto. exfalso. unfold has_chequer_to_move in HC.
      destruct (sides b) as [[m h]|] eqn:SD; [|discriminate].
      assert (List.length m = 25%nat).
      { unfold sides in SD. destruct WB as (P & (L1 & _) & (L2 & _)).
        destruct P as [P|P]; rewrite P in SD; cbn in SD; injection SD as <- <-; auto. }
      destruct (pyget m BAR) as [bar|] eqn:B; [|discriminate]. cbn [bind] in HC.
      assert (PG : exists e, pyget m (t + d) = Exc e).
      { unfold pyget, pyix, zlen. rewrite H.
        replace ((0 <=? t + d) && (t + d <? Z.of_nat 25)) with false by lia.
        replace ((- Z.of_nat 25 <=? t + d) && (t + d <? 0)) with false by lia. eauto. }
      destruct PG as [e PG]. destruct (bar =? 0); [congruence|].
      unfold BAR in HC. replace (t + d =? 24) with false in HC by lia. injection HC as <-. discriminate. }
    rewrite has_spec in HC by (auto; lia). injection HC as <-.
    assert (HX : eff (mover b) (t + d) <> 0) by lia. apply eff_nonzero in HX as [C1 C2]; auto; [|lia].
    unfold legal; cbn. refine (conj D (conj _ (conj _ (conj _ (conj C1 (conj C2 _)))))); try lia.
    all: left; repeat split; lia.
Qed.

(* ---------- runs of legal steps ---------- *)
Lemma run_app b p l1 b1 p1 l2 b2 p2 : legal_run b p l1 b1 p1 -> legal_run b1 p1 l2 b2 p2 ->
  legal_run b p (l1 ++ l2) b2 p2.
Proof. induction 1; cbn; intros; auto. econstructor; eauto. Qed.
Lemma chain_run b p s t l : wf_board b -> wf_pool p -> chain b p s t l -> exists b' p', legal_run b p l b' p'.
Proof.
  intros WB WP C. induction C as [b p s t pm Lg T|b p s t pm b1 p1 l Lg M C CH IH].
  - destruct (legal_play _ _ _ _ WB Lg) as (b1 & M & _). destruct Lg as (D & H & Lg').
    eexists _, _. eapply run_step; [exact (conj D (conj H Lg'))|exact M|apply consume_ok; auto; lia|constructor].
  - destruct (legal_play _ _ _ _ WB Lg) as (b1' & M' & W1 & _). rewrite M in M'. injection M' as <-.
    pose proof C as C'. apply consume_inv in C' as (_ & _ & _ & W2 & _); auto.
    destruct (IH W1 W2) as (b' & p' & R). eexists _, _. eapply run_step; eauto.
Qed.
Lemma run_proper b p l b' p' : legal_run b p l b' p' -> player (on_action b) -> proper b -> proper b'.
Proof.
  induction 1 as [|b p s pm b1 p1 l b2 p2 Lg M C R IH]; intros P PR; auto.
  destruct (step_proper _ _ _ _ _ P PR Lg M) as [PR1 OA]. apply IH; auto. rewrite OA; auto.
Qed.
Lemma run_pool b p l b' p' : legal_run b p l b' p' -> wf_pool p -> wf_pool p'.
Proof.
  induction 1 as [|b p s pm b1 p1 l b2 p2 Lg M C R IH]; intros W; auto.
  apply consume_inv in C as (_ & _ & _ & W2 & _); auto.
Qed.
Lemma run_all b p l b' p' : legal_run b p l b' p' -> make_all l b = (b', Ok tt).
Proof. induction 1; cbn; auto. rewrite H0. auto. Qed.
Lemma run_frame b p l b' p' x : legal_run b p l b' p' -> x <> FPosition -> agree x b b'.
Proof. intros R. apply run_all in R. apply make_all_frame with (l := l); auto. Qed.
Lemma run_stepping b p l b' p' : legal_run b p l b' p' -> Forall stepping l.
Proof.
  induction 1 as [|b p s pm b1 p1 l b2 p2 Lg M C R IH]; constructor; auto.
  destruct (legal_pm_ok _ _ _ _ Lg) as (OK & LT & _). split; [apply Lg|split; auto].
Qed.

(* ---------- giving the steps to the factory ---------- *)
Lemma fresh_above l x : In x l -> (fst x < fresh l)%nat.
Proof.
  unfold fresh. induction l as [|y l IH]; cbn; [tauto|]. intros [->|H]; [lia|]. apply IH in H. lia.
Qed.
Lemma give_run b p l b' p' : legal_run b p l b' p' -> forall f, fboard f = b -> favail f = p ->
  Forall (fun x : pobj => forward (snd x)) (fmove f) ->
  exists r, map snd r = l /\ give f l = (mkFac b' (fmove f ++ r) p', Ok tt) /\
    fac_add f r = (mkFac b' (fmove f ++ r) p', Ok tt) /\ (ids_ok (fmove f) -> ids_ok (fmove f ++ r)).
Proof.
  induction 1 as [b p|b p s pm b1 p1 l b2 p2 Lg M C R IH]; intros [fb fm fa] EB EP FW; cbn [fboard fmove favail] in *; subst fb fa.
  - exists []. rewrite app_nil_r. auto.
  - destruct (legal_pm_ok _ _ _ _ Lg) as (OK & LT & _).
    set (q := (fresh fm, pm) : pobj).
    assert (AP : fac_append (mkFac b fm p) q = (mkFac b1 (fm ++ [q]) p1, Ok tt)).
    { unfold fac_append. cbn [fmove favail fboard snd q].
      assert (is_undo pm = false) as -> by (unfold is_undo; lia). rewrite C, M.
      pose proof (mv_add_forward [q] fm) as MV. cbn in MV. rewrite MV; auto.
      apply Forall_app; split; auto. }
    destruct (IH (mkFac b1 (fm ++ [q]) p1) eq_refl eq_refl) as (r & E1 & E2 & E3 & E4).
    { cbn. apply Forall_app; split; auto. }
    cbn [fmove] in *. exists (q :: r). rewrite <- app_assoc in *. cbn [app] in *.
    split; [cbn; rewrite E1; auto|]. split; [cbn [give fmove]; fold q; rewrite AP; auto|].
    split; [cbn [fac_add]; rewrite AP; auto|].
    intros I. apply E4. intros x y Hx Hy Exy.
    apply in_app_iff in Hx as [Hx|[<-|[]]]; apply in_app_iff in Hy as [Hy|[<-|[]]]; auto.
    + apply fresh_above in Hx. cbn in Exy. lia.
    + apply fresh_above in Hy. cbn in Exy. lia.
Qed.

(* every forward question plays a run of legal steps, perhaps none *)
Definition one (pm : pmove) : list pmove := [pm].
Lemma answer_run q f : forward_ask q -> wf_board (fboard f) -> wf_pool (favail f) ->
  Forall (fun x : pobj => forward (snd x)) (fmove f) ->
  exists r b' p', fst (answer q f) = mkFac b' (fmove f ++ r) p' /\
    legal_run (fboard f) (favail f) (map snd r) b' p' /\
    fac_add f r = (mkFac b' (fmove f ++ r) p', Ok tt) /\ (ids_ok (fmove f) -> ids_ok (fmove f ++ r)).
Proof.
  intros FA WB WP FW.
  assert (NO : forall e, exists r b' p', fst (f, e : res unit) = mkFac b' (fmove f ++ r) p' /\
    legal_run (fboard f) (favail f) (map snd r) b' p' /\
    fac_add f r = (mkFac b' (fmove f ++ r) p', Ok tt) /\ (ids_ok (fmove f) -> ids_ok (fmove f ++ r))).
  { intros e. exists [], (fboard f), (favail f). rewrite app_nil_r. destruct f; cbn. repeat split; auto. constructor. }
  assert (YES : forall l b' p', legal_run (fboard f) (favail f) l b' p' ->
     exists r b' p', fst (give f l) = mkFac b' (fmove f ++ r) p' /\
    legal_run (fboard f) (favail f) (map snd r) b' p' /\
    fac_add f r = (mkFac b' (fmove f ++ r) p', Ok tt) /\ (ids_ok (fmove f) -> ids_ok (fmove f ++ r))).
  { intros l b' p' R. destruct (give_run _ _ _ _ _ R f eq_refl eq_refl FW) as (r & E1 & E2 & E3 & E4).
    exists r, b', p'. rewrite E1, E2. auto. }
  assert (STEP : forall s pm, legal (fboard f) (favail f) s pm ->
     exists b' p', legal_run (fboard f) (favail f) [pm] b' p').
  { intros s pm Lg. apply chain_run with (s := s) (t := dest pm); auto. apply chain_one; auto. }
  destruct q as [s|t|s t|t|s t]; cbn [forward_ask] in FA; try contradiction; cbn [answer].
  - destruct (single_from_source_best _ _ s WB WP FA) as (o & E & B). rewrite E. cbn [bind].
    destruct o as [pm|]; cbn [option_map play_on]; [|apply NO].
    destruct (STEP _ _ (proj1 B)) as (b' & p' & R). eapply YES; eauto.
  - destruct (snd (guess_single_from_dest (fboard f) (favail f) t)) as [[pm|]|e] eqn:E; cbn [bind option_map play_on]; try apply NO.
    assert (Lg : legal (fboard f) (favail f) (src pm) pm).
    { destruct (Z.eq_dec t (-1)) as [->|N].
      - destruct (proj2 (from_dest_exact _ _ WB WP)) as (p' & o & E' & B). rewrite E' in E. cbn in E. injection E as ->. apply B.
      - eapply dest_sound; eauto. lia. }
    destruct (STEP _ _ Lg) as (b' & p' & R). eapply YES; eauto.
  - destruct (Z_lt_ge_dec t s) as [LT|GE].
    + destruct (multiple_sound _ _ s t WB WP ltac:(lia) (proj2 FA)) as (p' & o & E & B). rewrite E.
      assert (on_board (fboard f) f = f) as -> by (destruct f; auto).
      cbn [bind]. destruct o as [r|]; cbn [option_map play_on]; [|apply NO].
      destruct (chain_run _ _ _ _ _ WB WP (B r eq_refl)) as (b' & p2 & R). eapply YES; eauto.
    + unfold guess_multiple_pms, pool_fuel. cbn [multiple_pms]. replace (negb (t <? s)) with true by lia.
      assert (on_board (fboard f) f = f) as -> by (destruct f; auto). cbn [bind play_on]. apply NO.
Qed.

(* ---------- calls that leave dice and chequers alone ---------- *)
Lemma talk_frame a b : talk a = true -> position (fst (act a b)) = position b /\
  on_action (fst (act a b)) = on_action b /\ rolled (fst (act a b)) = rolled b /\
  (player (on_action b) -> player (on_inner_action b) -> player (on_inner_action (fst (act a b)))) /\
  cube_owner (fst (act a b)) = cube_owner b /\ match_length (fst (act a b)) = match_length b /\ crawford (fst (act a b)) = crawford b.
Proof.
  assert (G : forall w o, get_opp w = Ok o -> player o).
  { intros w o. unfold get_opp, player, YOU, HIM. repeat match goal with |- context [if ?x then _ else _] => destruct x end;
      [intros [= <-]; auto..|discriminate]. }
  destruct a; cbn [talk]; try discriminate; intros _; cbn [act].
  - unfold double. destruct (is_leagal_to_double b who) as [[|]|]; cbn; auto 10.
    destruct (get_opp who) eqn:E; cbn; auto 10. apply G in E. auto 10.
  - cbn; auto 10.
  - unfold take. destruct (is_cube_take_or_pass b who); cbn; auto 10.
  - unfold drop. destruct (negb (is_cube_take_or_pass b who)); [cbn; auto 10|].
    cbv zeta. match goal with |- context [match ?x with Ok _ => _ | Exc _ => _ end] => destruct x end; cbn; auto 10.
  - unfold offer_resign. destruct (negb (is_leagal_to_resign b who)); [cbn; auto 10|].
    destruct (negb (zmem k RESIGN_TYPES)); [cbn; auto 10|]. cbv zeta.
    destruct (get_opp who) eqn:E; cbn; auto 10. apply G in E. auto 10.
  - unfold accept_resign. destruct (negb (is_to_accept_resign b who)); [cbn; auto 10|].
    cbv zeta. match goal with |- context [match ?x with Ok _ => _ | Exc _ => _ end] => destruct x end; cbn; auto 10.
  - unfold reject_resign. destruct (negb (is_to_accept_resign b who)); [cbn; auto 10|].
    destruct (get_opp who) eqn:E; cbn; auto 10. apply G in E. auto 10.
Qed.

(* appending depends on position and turn only *)
Lemma make_pm_reads pm b b1 b2 : make_partial_move pm b = (b1, Ok tt) -> position b2 = position b -> on_action b2 = on_action b ->
  make_partial_move pm b2 = (set_position (position b1) b2, Ok tt) /\ on_action b1 = on_action b.
Proof.
  intros M E1 E2. split.
  2:{ destruct (proj1 move_conserves b pm b1 M) as (_ & _ & CH). symmetry. apply (CH FOnAction). cbn. intuition discriminate. }
  revert M. unfold make_partial_move, sides. rewrite E1, E2.
  repeat match goal with
  | |- context [match ?x with _ => _ end] => destruct x; try discriminate
  | |- context [let! _ := ?x in _] => destruct x; cbn [bind]; try discriminate
  end; intros [= <-]; cbn; auto.
Qed.
Lemma fac_add_reads l : forall f f' b2, fac_add f l = (f', Ok tt) ->
  position b2 = position (fboard f) -> on_action b2 = on_action (fboard f) ->
  fac_add (mkFac b2 (fmove f) (favail f)) l =
    (mkFac (set_position (position (fboard f')) b2) (fmove f') (favail f'), Ok tt).
Proof.
  induction l as [|pm l IH]; cbn [fac_add]; intros f f' b2 H E1 E2.
  - injection H as <-. rewrite <- E1. destruct b2; cbn; auto.
  - destruct (fac_append f pm) as [f1 [[]|]] eqn:A; [|discriminate].
    unfold fac_append in A |- *. cbn [favail fmove fboard].
    destruct (if is_undo (snd pm) then pool_add (favail f) (die (snd pm)) else consume (favail f) (die (snd pm))) as [p|]; [|discriminate].
    destruct (make_partial_move (snd pm) (fboard f)) as [b1 r] eqn:M. injection A as <- ->.
    destruct (make_pm_reads _ _ _ _ M E1 E2) as [M2 OA]. rewrite M2.
    specialize (IH _ _ (set_position (position b1) b2) H). cbn [fboard fmove favail] in IH.
    rewrite IH; auto. cbn. congruence.
Qed.

(* ---------- the invariant ---------- *)
Definition sound_turn (f : factory) : Prop :=
  proper (fboard f) /\ seated (fboard f) /\ a_die (fst (rolled (fboard f))) /\ a_die (snd (rolled (fboard f))) /\
  wf_pool (favail f) /\ Forall (fun x : pobj => forward (snd x)) (fmove f).
Definition replays (f : factory) : Prop :=
  exists pos, proper (set_position pos (fboard f)) /\ ids_ok (fmove f) /\
    Forall (fun x : pobj => stepping (snd x)) (fmove f) /\
    fac_add (new_factory (set_position pos (fboard f)) None None) (fmove f) = (f, Ok tt).
Definition sound_table (spoiled : bool) (t : table) : Prop :=
  match t with
  | Waiting b => proper b /\ seated b
  | Playing f => sound_turn f /\ (spoiled = false -> replays f)
  end.

Lemma proper_position b b' : position b' = position b -> proper b -> proper b'.
Proof. unfold within. intros ->; auto. Qed.
Lemma fac_add_app r1 : forall f f1 r2, fac_add f r1 = (f1, Ok tt) -> fac_add f (r1 ++ r2) = fac_add f1 r2.
Proof.
  induction r1 as [|x r1 IH]; cbn; intros f f1 r2 H; [congruence|].
  destruct (fac_append f x) as [f2 [[]|]]; [|discriminate]. eauto.
Qed.
Lemma set_position_id b : set_position (position b) b = b.
Proof. destruct b; auto. Qed.
Lemma set_position_twice p q b : set_position p (set_position q b) = set_position p b.
Proof. reflexivity. Qed.
(* all fields but the position *)
Lemma same_but_position b b' : (forall x, x <> FPosition -> agree x b b') -> b' = set_position (position b') b.
Proof.
  intros H. destruct b, b'. unfold set_position; cbn.
  pose proof (H FCube ltac:(discriminate)). pose proof (H FOwner ltac:(discriminate)). pose proof (H FOnAction ltac:(discriminate)).
  pose proof (H FCrawford ltac:(discriminate)). pose proof (H FState ltac:(discriminate)). pose proof (H FInner ltac:(discriminate)).
  pose proof (H FDoubled ltac:(discriminate)). pose proof (H FResign ltac:(discriminate)). pose proof (H FRolled ltac:(discriminate)).
  pose proof (H FLength ltac:(discriminate)). pose proof (H FScore ltac:(discriminate)). cbn in *. congruence.
Qed.

Lemma ask_sound q f : forward_ask q -> sound_turn f -> sound_turn (fst (answer q f)) /\ (replays f -> replays (fst (answer q f))).
Proof.
  intros FA (PR & (P1 & P2) & D1 & D2 & WP & FW).
  destruct (answer_run q f FA (proper_wf _ P1 PR) WP FW) as (r & b' & p' & E & R & AD & ID).
  rewrite E. pose proof (fun x N => run_frame _ _ _ _ _ x R N) as FR.
  pose proof (FR FOnAction ltac:(discriminate)) as F1. pose proof (FR FInner ltac:(discriminate)) as F2.
  pose proof (FR FRolled ltac:(discriminate)) as F3. cbn in F1, F2, F3.
  assert (STP : Forall (fun x : pobj => stepping (snd x)) r) by (apply run_stepping in R; apply (proj1 (Forall_map snd stepping r)); exact R).
  split.
  - unfold sound_turn, seated. cbn [fboard fmove favail]. rewrite <- F1, <- F2, <- F3.
    split; [eapply run_proper; eauto|]. split; [split; auto|]. split; auto. split; auto.
    split; [eapply run_pool; eauto|]. apply Forall_app; split; auto.
    eapply Forall_impl; [|exact STP]. intros x HX; apply HX.
  - intros (pos & PP & I & ST & A). exists pos. cbn [fboard fmove].
    assert (EB : set_position pos b' = set_position pos (fboard f)).
    { rewrite (same_but_position _ _ FR). apply set_position_twice. }
    rewrite EB. split; auto. split; auto. split; [apply Forall_app; split; auto|].
    rewrite (fac_add_app _ _ _ r A). auto.
Qed.

Lemma talk_sound a f : talk a = true -> sound_turn f ->
  sound_turn (on_board (fst (act a (fboard f))) f) /\ (replays f -> replays (on_board (fst (act a (fboard f))) f)).
Proof.
  intros T (PR & (P1 & P2) & D1 & D2 & WP & FW).
  destruct (talk_frame a (fboard f) T) as (E1 & E2 & E3 & E4 & _). split.
  - unfold sound_turn, on_board, seated. cbn [fboard fmove favail]. rewrite E2, E3.
    split; [eapply proper_position; eauto|]. auto 10.
  - intros (pos & PP & I & ST & A). exists pos. unfold on_board; cbn [fboard fmove favail].
    split; [exact PP|]. split; auto. split; auto.
    pose proof (fac_add_reads _ _ _ (set_position pos (fst (act a (fboard f)))) A eq_refl) as G.
    cbn [new_factory fboard fmove favail set_position on_action rolled] in G.
    specialize (G E2). unfold new_factory. cbn [rolled set_position].
    rewrite E3. rewrite G. rewrite <- E1. f_equal. f_equal. rewrite set_position_twice. apply set_position_id.
Qed.

Lemma same_position_eq x y : same_position x y = true <-> position x = position y.
Proof.
  unfold same_position. rewrite andb_true_iff, !zlist_eqb_eq.
  destruct (position x), (position y); cbn. split; [intros [-> ->]; auto|intros [= -> ->]; auto].
Qed.
Lemma pickup_sound f : sound_turn f -> replays f ->
  match fac_pickupdice f with
  | (b, Ok _) => proper b /\ seated b
  | (b, Exc _) => sound_turn (on_board b f) /\ (position b = position (fboard f) -> replays (on_board b f))
  end.
Proof.
  intros (PR & (P1 & P2) & D1 & D2 & WP & FW) RP. pose proof RP as (pos & PP & I & ST & A).
  set (b0 := set_position pos (fboard f)) in *.
  assert (WB0 : wf_board b0) by (apply proper_wf; auto).
  destruct (pickup_query b0 (fmove f) f WB0 D1 D2 I ST A (proper_wf _ P1 PR)) as (b' & r & E & B & _).
  assert (B' : exists q, b' = set_position q (fboard f) /\ proper b').
  { destruct B as [->|[-> _]]; [exists (position (fboard f)); rewrite set_position_id; auto|exists pos; auto]. }
  destruct B' as (q & EB & PB). unfold fac_pickupdice. rewrite E. destruct r.
  - assert (OA : on_action b' = on_action (fboard f)) by (rewrite EB; auto).
    assert (OI : on_inner_action b' = on_inner_action (fboard f)) by (rewrite EB; auto).
    assert (G : forall w, player w -> get_opp w = Ok (other w)) by (intros w [-> | ->]; reflexivity).
    unfold pickupdice. cbn [on_action set_rolled]. rewrite OA, G by auto.
    cbn [on_inner_action set_on_action set_rolled]. rewrite OI, G by auto.
    split; [eapply proper_position; [|exact PB]; reflexivity|].
    split; [change (player (other (on_action (fboard f))))|change (player (other (on_inner_action (fboard f))))];
      unfold player, other in *; lia.
  - split.
    + unfold sound_turn, on_board, seated. cbn [fboard fmove favail]. rewrite EB in *. cbn [on_action on_inner_action rolled set_position].
      split; auto 10.
    + intros EP. assert (b' = fboard f) as ->.
      { rewrite EB in EP |- *. cbn in EP. rewrite EP. apply set_position_id. }
      destruct f; exact RP.
Qed.

Lemma roll_sound r b : a_die (fst r) -> a_die (snd r) -> proper b -> seated b ->
  sound_turn (new_factory (set_rolled r b) None None) /\ replays (new_factory (set_rolled r b) None None).
Proof.
  intros D1 D2 PR (P1 & P2). split.
  - unfold sound_turn, seated, new_factory. cbn [fboard fmove favail on_action on_inner_action rolled set_rolled].
    split; [exact PR|]. split; [split; auto|]. split; auto. split; auto. split; [apply wf_new_pool; auto|constructor].
  - exists (position b). unfold new_factory; cbn.
    split; [exact PR|]. split; [intros x y []|]. split; [constructor|reflexivity].
Qed.

Lemma deal_sound d t sp : fair d -> (d = DPickup -> sp = false) -> sound_table sp t ->
  sound_table (match deal d t with
             | Waiting _ => false
             | Playing f => sp || match d with DPickup => negb (same_position (fboard f) (board_of t)) | _ => false end
             end) (deal d t).
Proof.
  intros F Q ST. destruct d as [r|q| |a], t as [b|f]; cbn [deal fair] in *; try exact ST.
  - destruct (is_leagal_to_roll b (on_action b)); [|exact ST]. cbn [sound_table board_of].
    destruct (roll_sound r b (proj1 F) (proj2 F) (proj1 ST) (proj2 ST)). split; auto.
  - cbn. rewrite orb_false_r. exact ST.
  - destruct ST as [S1 S2]. destruct (ask_sound q f F S1) as [A1 A2]. cbn [sound_table]. rewrite orb_false_r. auto.
  - destruct ST as [S1 S2]. rewrite (Q eq_refl) in *. pose proof (pickup_sound f S1 (S2 eq_refl)) as G.
    destruct (fac_pickupdice f) as [b [u|e]]; cbn [sound_table]; auto. destruct G as [G1 G2]. split; auto.
    cbn [orb board_of on_board fboard]. intros N. apply G2. apply same_position_eq. destruct (same_position b (fboard f)); auto.
  - cbn [sound_table] in *. destruct (talk_frame a b F) as (E1 & E2 & _ & E4 & _). destruct ST as (PR & P1 & P2).
    split; [eapply proper_position; eauto|]. split; [rewrite E2; auto|auto].
  - destruct ST as [S1 S2]. destruct (talk_sound a f F S1) as [A1 A2]. cbn [sound_table]. rewrite orb_false_r. auto.
Qed.
Lemma game_sound ds : forall t sp, Forall fair ds -> quiet sp ds t -> sound_table sp t ->
  exists sp', sound_table sp' (game ds t).
Proof.
  induction ds as [|d ds IH]; cbn [game quiet]; intros t sp F Q ST; [eauto|].
  inversion F; subst. destruct Q as [Q1 Q2]. eapply IH; eauto. apply deal_sound; auto.
Qed.
Lemma quiet_prefix ds1 : forall t sp ds2, quiet sp (ds1 ++ ds2) t -> quiet sp ds1 t.
Proof. induction ds1 as [|d ds1 IH]; cbn; intros t sp ds2; auto. intros [A B]; eauto. Qed.
Lemma game_within : forall b ds, proper b -> seated b -> Forall fair ds -> quiet false ds (Waiting b) ->
  proper (board_of (game ds (Waiting b))).
Proof.
  intros b ds PR ST F Q. destruct (game_sound ds (Waiting b) false F Q (conj PR ST)) as (sp & G).
  destruct (game ds (Waiting b)); [apply G|apply (proj1 (proj1 G))].
Qed.
End Limits.
Lemma proper_dec b : proper_b b = true <-> proper b.
Proof.
  unfold proper_b, proper, within, wf_side. cbv zeta. rewrite !andb_true_iff, !Nat.eqb_eq, !forallb_forall, !Forall_forall.
  split.
  - intros ((((((A & B) & C) & D) & E) & F) & G).
    split; [split; [auto|intros x Hx; apply C in Hx; lia]|].
    split; [split; [auto|intros x Hx; apply D in Hx; lia]|].
    split; [lia|].
    intros k Hk. specialize (G k ltac:(apply In_zrange; lia)). apply orb_prop in G. lia.
  - intros ((A & C) & (B & D) & (E & F) & G).
    split; [split; [split; [split; [split; [split|]|]|]|]|]; auto; try lia.
    intros k Hk. apply In_zrange in Hk. destruct (G k ltac:(lia)) as [-> | ->]; cbn; auto. apply orb_true_r.
Qed.


(* ---------- pips ---------- *)
Definition weigh (w : Z -> Z) (l : list Z) : Z := zsum (map (fun k => w k * count l k) (zrange 0 25)).
Lemma zsum_add {A} (f g : A -> Z) l : zsum (map (fun x => f x + g x) l) = zsum (map f l) + zsum (map g l).
Proof. unfold zsum. induction l; cbn; lia. Qed.
Lemma weigh_delta w l l' dl : (forall k, 0 <= k <= 24 -> count l' k = count l k + dl k) ->
  weigh w l' = weigh w l + zsum (map (fun k => w k * dl k) (zrange 0 25)).
Proof.
  intros H. unfold weigh. rewrite <- zsum_add. f_equal. apply map_ext_in. intros k Hk. apply In_zrange in Hk.
  rewrite H by lia. ring.
Qed.
Lemma here_sum w x : zsum (map (fun k => w k * here x k) (zrange 0 25)) = if (0 <=? x) && (x <=? 24) then w x else 0.
Proof.
  assert (G : forall l, NoDup l -> zsum (map (fun k => w k * here x k) l) = if zmem x l then w x else 0).
  { induction 1 as [|k l N D IH]; cbn; auto. fold (zsum (map (fun k => w k * here x k) l)). rewrite IH. unfold here.
    destruct (x =? k) eqn:E; cbn [orb].
    - assert (x = k) as -> by lia. destruct (zmem k l) eqn:M; [|lia].
      unfold zmem in M. apply existsb_exists in M as (y & Hy & Ey). exfalso; apply N. replace k with y by lia; auto.
    - unfold zmem in *. lia. }
  rewrite G.
  - assert (zmem x (zrange 0 25) = (0 <=? x) && (x <=? 24)) as ->; auto.
    unfold zmem. apply Bool.eq_iff_eq_true. rewrite existsb_exists. split.
    + intros (y & Hy & Ey). apply In_zrange in Hy. lia.
    + intros H. exists x. rewrite In_zrange. lia.
  - unfold zrange. apply FinFun.Injective_map_NoDup; [intros a b; lia|apply seq_NoDup].
Qed.
Lemma weigh_mover w l l' pm : (forall k, 0 <= k <= 24 -> count l' k = count l k + mover_delta pm k) ->
  0 <= src pm <= 24 -> -1 <= dest pm <= 24 ->
  weigh w l' = weigh w l + (if dest pm =? -1 then 0 else w (dest pm)) - w (src pm).
Proof.
  intros H Hs Hd. rewrite (weigh_delta w l l' _ H).
  assert (E : zsum (map (fun k => w k * mover_delta pm k) (zrange 0 25)) =
              zsum (map (fun k => w k * here (dest pm) k) (zrange 0 25)) - zsum (map (fun k => w k * here (src pm) k) (zrange 0 25))).
  { unfold mover_delta. generalize (zrange 0 25). unfold zsum. induction l0; cbn in *; lia. }
  rewrite E, !here_sum. replace ((0 <=? src pm) && (src pm <=? 24)) with true by lia.
  destruct (dest pm =? -1) eqn:D; [replace ((0 <=? dest pm) && (dest pm <=? 24)) with false by lia|replace ((0 <=? dest pm) && (dest pm <=? 24)) with true by lia]; lia.
Qed.
Lemma weigh_waiter w l l' pm : (forall k, 0 <= k <= 24 -> count l' k = count l k + opp_delta pm k) ->
  dest pm < src pm -> (is_hitting pm = true -> 0 <= dest pm <= 23) ->
  weigh w l' = weigh w l + if is_hitting pm then w 24 - w (23 - dest pm) else 0.
Proof.
  intros H LT Hh. rewrite (weigh_delta w l l' _ H).
  unfold opp_delta. replace (src pm <? dest pm) with false by lia. destruct (is_hitting pm).
  - specialize (Hh eq_refl).
    assert (E : zsum (map (fun k => w k * (here 24 k - here (23 - dest pm) k)) (zrange 0 25)) =
              zsum (map (fun k => w k * here 24 k) (zrange 0 25)) - zsum (map (fun k => w k * here (23 - dest pm) k) (zrange 0 25))).
    { generalize (zrange 0 25). unfold zsum. induction l0; cbn in *; lia. }
    rewrite E, !here_sum. cbn [Z.leb Z.compare Pos.compare Pos.compare_cont andb].
    replace ((0 <=? 23 - dest pm) && (23 - dest pm <=? 24)) with true by lia. lia.
  - assert (E : zsum (map (fun k => w k * 0) (zrange 0 25)) = 0).
    { generalize (zrange 0 25). unfold zsum. induction l0; cbn in *; lia. }
    lia.
Qed.
Lemma run_pips b p l b' p' : legal_run b p l b' p' -> wf_board b -> wf_pool p ->
  wf_board b' /\ on_action b' = on_action b /\
  pips (mover b') = pips (mover b) - zsum (map gained l) /\
  pips (waiter b') = pips (waiter b) + zsum (map sent_back l) /\
  count (waiter b') 24 = count (waiter b) 24 + hits l /\
  Forall (fun pm => 1 <= gained pm <= die pm /\ (dest pm <> -1 -> gained pm = die pm)) l /\
  forall d, held p' d + used l d = held p d.
Proof.
  induction 1 as [b p|b p s pm b1 p1 l b2 p2 Lg M C R IH]; intros WB WP.
  - unfold hits; cbn. repeat split; try apply WB; try lia. constructor.
  - destruct (legal_play _ _ _ _ WB Lg) as (b1' & M' & W1 & OA & CM & CO). rewrite M in M'. injection M' as <-.
    pose proof C as C'. apply consume_inv in C' as (_ & _ & _ & W2 & _ & HP); auto.
    destruct (IH W1 W2) as (I1 & I2 & I3 & I4 & I5 & I6 & I7).
    destruct (legal_pm_ok _ _ _ _ Lg) as (OK & LT & Sr).
    assert (HD : 0 <= src pm <= 24 /\ -1 <= dest pm <= 24 /\ (is_hitting pm = true -> 0 <= dest pm <= 23) /\
                 (1 <= gained pm <= die pm /\ (dest pm <> -1 -> gained pm = die pm))).
    { unfold gained. destruct Lg as (D & _ & S & Hs & _ & _ & [(A1 & A2 & _ & _)|(A1 & A2 & A3 & _)]); unfold a_die in D.
      - repeat split; try lia.
      - rewrite A3. repeat split; try lia; try discriminate. }
    destruct HD as (H1 & H2 & H3 & H4).
    assert (E1 : pips (mover b1) = pips (mover b) - gained pm).
    { unfold gained. change (pips (mover b1)) with (weigh (fun k => k + 1) (mover b1)).
      change (pips (mover b)) with (weigh (fun k => k + 1) (mover b)). rewrite (weigh_mover (fun k => k + 1) (mover b) (mover b1) pm CM H1 H2).
      destruct (dest pm =? -1) eqn:E; lia. }
    assert (E2 : pips (waiter b1) = pips (waiter b) + sent_back pm).
    { unfold sent_back. change (pips (waiter b1)) with (weigh (fun k => k + 1) (waiter b1)).
      change (pips (waiter b)) with (weigh (fun k => k + 1) (waiter b)). rewrite (weigh_waiter (fun k => k + 1) (waiter b) (waiter b1) pm CO LT H3).
      destruct (is_hitting pm); lia. }
    assert (E3 : count (waiter b1) 24 = count (waiter b) 24 + if is_hitting pm then 1 else 0).
    { unfold waiter. rewrite (CO 24 ltac:(lia)). unfold opp_delta, here. replace (src pm <? dest pm) with false by lia.
      destruct (is_hitting pm); [|lia]. specialize (H3 eq_refl). replace (23 - dest pm =? 24) with false by lia. reflexivity. }
    split; auto. split; [congruence|].
    split; [rewrite I3, E1; unfold zsum; cbn; lia|]. split; [rewrite I4, E2; unfold zsum; cbn; lia|].
    split; [rewrite I5, E3; unfold hits, zsum; cbn; lia|]. split; [constructor; auto|].
    intros d. specialize (I7 d). rewrite HP in I7. cbn. fold (used l d). replace (src pm <? dest pm) with false by lia.
    rewrite (Z.eqb_sym (die pm) d). destruct (d =? die pm); lia.
Qed.

Lemma answers_run qs : forall f, Forall forward_ask qs -> wf_board (fboard f) -> wf_pool (favail f) ->
  Forall (fun x : pobj => forward (snd x)) (fmove f) ->
  exists r b' p', answers qs f = mkFac b' (fmove f ++ r) p' /\ legal_run (fboard f) (favail f) (map snd r) b' p'.
Proof.
  induction qs as [|q qs IH]; cbn [answers]; intros f F WB WP FW.
  - exists [], (fboard f), (favail f). rewrite app_nil_r. destruct f; cbn. split; auto. constructor.
  - inversion F; subst. destruct (answer_run (fun _ => 0) q f H1 WB WP FW) as (r & b' & p' & E & R & _). rewrite E.
    destruct (run_pips _ _ _ _ _ R WB WP) as (W1 & _). pose proof (run_pool _ _ _ _ _ R WP) as W2.
    destruct (IH (mkFac b' (fmove f ++ r) p') H2 W1 W2) as (r2 & b2 & p2 & E2 & R2).
    { cbn. apply Forall_app; split; auto. apply run_stepping in R. apply (proj1 (Forall_map snd stepping r)) in R.
      eapply Forall_impl; [|exact R]. intros x HX; apply HX. }
    cbn [fboard favail fmove] in *. exists (r ++ r2), b2, p2. rewrite E2, app_assoc. split; auto.
    rewrite map_app. eapply run_app; eauto.
Qed.
Lemma die_sum l : Forall (fun pm => a_die (die pm) /\ dest pm < src pm) l ->
  zsum (map die l) = zsum (map (fun d => d * used l d) (zrange 1 7)).
Proof.
  induction 1 as [|pm l [D F] _ IH]; [reflexivity|].
  assert (E : zsum (map (fun d => d * used (pm :: l) d) (zrange 1 7)) = die pm + zsum (map (fun d => d * used l d) (zrange 1 7))).
  { change (zrange 1 7) with [1;2;3;4;5;6]. unfold zsum. cbn [map fold_right used]. fold (used l).
    replace (src pm <? dest pm) with false by lia. unfold a_die in D.
    assert (die pm = 1 \/ die pm = 2 \/ die pm = 3 \/ die pm = 4 \/ die pm = 5 \/ die pm = 6) as C by lia.
    destruct C as [->|[->|[->|[->|[->| ->]]]]]; cbn [Z.eqb Pos.eqb]; unfold used; lia. }
  rewrite E, <- IH. unfold zsum. cbn. lia.
Qed.
Lemma turn_pips : forall b qs, wf_board b -> a_die (fst (rolled b)) -> a_die (snd (rolled b)) -> Forall forward_ask qs ->
  let f := answers qs (new_factory b None None) in
  let l := map snd (fmove f) in
  legal_run b (new_pool (rolled b)) l (fboard f) (favail f) /\
  changes_only [FPosition] b (fboard f) /\
  (pips (mover (fboard f)) = pips (mover b) - zsum (map gained l) /\
   pips (waiter (fboard f)) = pips (waiter b) + zsum (map sent_back l) /\
   count (waiter (fboard f)) 24 = count (waiter b) 24 + hits l) /\
  Forall (fun pm => 1 <= gained pm <= die pm /\ (dest pm <> -1 -> gained pm = die pm)) l /\
  (forall d, a_die d -> held (favail f) d + used l d = dice_of (rolled b) d) /\
  pips (mover b) - pips (mover (fboard f)) <= worth (rolled b) /\
  ((forall d, a_die d -> held (favail f) d = 0) -> Forall (fun pm => dest pm <> -1) l ->
   pips (mover b) - pips (mover (fboard f)) = worth (rolled b)).
Proof.
  intros b qs WB D1 D2 F. cbv zeta.
  destruct (answers_run qs (new_factory b None None) F WB) as (r & b' & p' & E & R).
  { apply wf_new_pool; auto. } { constructor. }
  rewrite E. cbn [new_factory fboard fmove favail app] in *.
  pose proof (wf_new_pool (rolled b) (or_intror (conj D1 D2))) as WP.
  destruct (run_pips _ _ _ _ _ R WB WP) as (W1 & OA & I3 & I4 & I5 & I6 & I7).
  assert (HO : forall d, a_die d -> held p' d + used (map snd r) d = dice_of (rolled b) d).
  { intros d Hd. rewrite I7. apply (proj1 dice_pool (rolled b)); auto. }
  split; auto. split.
  { intros x Hx. apply run_frame with (x := x) in R; auto. intros ->. apply Hx; cbn; auto. }
  split; [auto|]. split; [auto|]. split; [auto|].
  assert (DS : zsum (map die (map snd r)) = zsum (map (fun d => d * used (map snd r) d) (zrange 1 7))).
  { apply die_sum. apply run_stepping in R. eapply Forall_impl; [|exact R]. intros pm (A & B & _). split; auto. }
  assert (WR : zsum (map (fun d => d * dice_of (rolled b) d) (zrange 1 7)) = worth (rolled b)).
  { unfold a_die in D1, D2. destruct (rolled b) as [x y]; cbn [fst snd] in *.
    assert (x = 1 \/ x = 2 \/ x = 3 \/ x = 4 \/ x = 5 \/ x = 6) as Cx by lia.
    assert (y = 1 \/ y = 2 \/ y = 3 \/ y = 4 \/ y = 5 \/ y = 6) as Cy by lia.
    destruct Cx as [->|[->|[->|[->|[->| ->]]]]], Cy as [->|[->|[->|[->|[->| ->]]]]]; vm_compute; reflexivity. }
  assert (UL : forall d, In d (zrange 1 7) -> d * used (map snd r) d <= d * dice_of (rolled b) d).
  { intros d Hd. apply In_zrange in Hd. specialize (HO d ltac:(unfold a_die; lia)).
    pose proof (held_nonneg p' d (proj2 (proj2 (run_pool _ _ _ _ _ R WP)))). nia. }
  assert (GL : zsum (map gained (map snd r)) <= zsum (map die (map snd r))).
  { clear -I6. induction I6 as [|pm l [H _] _ IH]; unfold zsum in *; cbn; lia. }
  rewrite I3. split.
  - assert (zsum (map (fun d => d * used (map snd r) d) (zrange 1 7)) <= zsum (map (fun d => d * dice_of (rolled b) d) (zrange 1 7))).
    { clear -UL. induction (zrange 1 7) as [|d l IH]; unfold zsum in *; cbn in *; [lia|].
      pose proof (UL d (or_introl eq_refl)). specialize (IH (fun x H => UL x (or_intror H))). lia. }
    lia.
  - intros H0 NB.
    assert (zsum (map gained (map snd r)) = zsum (map die (map snd r))) as ->.
    { clear -I6 NB. induction I6 as [|pm l [_ H] _ IH]; auto. inversion NB; subst. unfold zsum in *; cbn. rewrite IH, H; auto. }
    rewrite DS, <- WR.
    assert (zsum (map (fun d => d * used (map snd r) d) (zrange 1 7)) = zsum (map (fun d => d * dice_of (rolled b) d) (zrange 1 7))).
    { f_equal. apply map_ext_in. intros d Hd. apply In_zrange in Hd. specialize (HO d ltac:(unfold a_die; lia)).
      rewrite H0 in HO by (unfold a_die; lia). nia. }
    lia.
Qed.

(* ---------- deciding the conditions on examples ---------- *)
Fixpoint quiet_b (spoiled : bool) (ds : list deed) (t : table) : bool :=
  match ds with
  | [] => true
  | d :: ds' =>
      let t' := deal d t in
      match d with DPickup => negb spoiled | _ => true end &&
      quiet_b (match t' with
             | Waiting _ => false
             | Playing f => spoiled || match d with DPickup => negb (same_position (fboard f) (board_of t)) | _ => false end
             end) ds' t'
  end.
Lemma quiet_dec ds : forall sp t, quiet_b sp ds t = true -> quiet sp ds t.
Proof.
  induction ds as [|d ds IH]; cbn [quiet quiet_b]; intros sp t; auto. cbv zeta. intros H. apply andb_prop in H as [H1 H2].
  split; [intros ->; destruct sp; auto|auto].
Qed.
Lemma starts_at b : proper_b b = true -> on_action b = 0 -> on_inner_action b = 0 -> rolled b = (0, 0) ->
  cube_owner b = 3 -> match_length b = 0 -> crawford b = false -> starts b.
Proof.
  intros P A B C D E F. unfold starts, seated, player, seat. rewrite A, B, D, E, F.
  split; [apply proper_dec; auto|]. split; auto. split; auto. split; auto. split; [lia|discriminate].
Qed.
Definition eight_six : board := sample [(7, 1); (5, 1)] [] (0, 0).
Definition blocked : board := sample [(23, 1); (12, 1)] [(6, 2); (17, 2); (18, 2)] (0, 0).
Lemma play_refuted :
  (exists b r x y s t, let ds := [DRoll r; DAsk (TFrom x); DAsk (TFrom y); DAsk (TBack s t)] in
     starts b /\ Forall any_play ds /\ ~ proper (board_of (game ds (Waiting b)))) /\
  (exists b r t, let ds := [DRoll r; DAsk (TPoint t)] in
     starts b /\ Forall any_play ds /\ ~ proper (board_of (game ds (Waiting b)))) /\
  (exists b r x, let ds := [DRoll r; DAsk (TFrom x); DPickup; DPickup] in
     starts b /\ Forall any_play ds /\ ~ proper (board_of (game ds (Waiting b)))).
Proof.
  split; [exists ongoing, (3, 1), 7, 4, 4, 7|split; [exists eight_six, (3, 1), 4|exists blocked, (6, 1), 12]];
    cbv zeta; (split; [apply starts_at; vm_compute; reflexivity|]);
    (split; [repeat constructor; cbn; try (unfold a_die; cbn); lia|rewrite <- proper_dec; vm_compute; discriminate]).
Qed.
Lemma play_within : forall lim b ds, within lim b -> seated b -> Forall fair ds -> quiet false ds (Waiting b) ->
  within lim (board_of (game ds (Waiting b))).
Proof. exact game_within. Qed.
