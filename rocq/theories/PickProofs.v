From Coq Require Import ZifyBool ZifyNat.
From Verif Require Import Py PyFacts UtilModel BoardModel BoardSpec BoardProofs MoveModel MoveSpec PoolProofs MoveProofs GuessProofs PickupProofs.
From Verif Require Import GameModel GameSpec GameProofs PickSpec.

(* the board an accepting query leaves *)
Lemma pickup_board : forall b0 l f b', wf_board b0 -> a_die (fst (rolled b0)) -> a_die (snd (rolled b0)) ->
  ids_ok l -> Forall (fun x => stepping (snd x)) l ->
  fac_add (new_factory b0 None None) l = (f, Ok tt) -> wf_board (fboard f) ->
  is_leagal_to_pickup_dice f = (b', Ok true) ->
  (plainly_over b0 f -> b' = fboard f) /\ (~ plainly_over b0 f -> b' = b0).
Proof.
  intros b0 l f b' WB0 D1 D2 I ST FA WB Q.
  destruct (proj1 dice_pool (rolled b0) D1 D2) as [W0 HD].
  apply fac_add_ok in FA as (WP & MV & MA & HF); auto. cbn [new_factory fmove fboard favail] in MV, MA, HF.
  rewrite mv_add_forward in MV.
  2:{ cbn. eapply Forall_impl; [|exact ST]. intros x (_ & F & _); auto. }
  cbn in MV.
  assert (RL : rolled (fboard f) = rolled b0).
  { symmetry. apply (make_all_frame _ _ _ FRolled MA). discriminate. }
  assert (ZP : zpair_eqb (rolled b0) (0, 0) = false).
  { unfold zpair_eqb, a_die in *. cbn. lia. }
  unfold is_leagal_to_pickup_dice in Q. rewrite RL, ZP in Q.
  destruct (pool_len (favail f) =? 0) eqn:PL.
  { injection Q as <-. split; auto. intros N. exfalso; apply N. left; lia. }
  change BAR with 24 in Q. rewrite has_spec in Q by (auto; lia).
  assert (CASES : (dancing (fboard f) (favail f) /\ (fboard f, Ok true) = (b', Ok true)) \/
    (~ dancing (fboard f) (favail f) /\ exists o, (if eff (mover (fboard f)) 24 =? 0 then Ok (Some (mkPM 0 0 0 false))
                          else guess_single_from_source (fboard f) (favail f) 24) = Ok (Some o))).
  { destruct (eff (mover (fboard f)) 24 =? 0) eqn:E.
    - right. split; [|eauto]. intros [C _].
      assert (N2 : eff (mover (fboard f)) 24 <> 0) by (apply eff_nonzero; auto; lia). lia.
    - destruct (single_from_source_best (fboard f) (favail f) 24 WB WP ltac:(lia)) as (o & E1 & B). rewrite E1 in Q.
      destruct o as [pm|].
      + right. split; [|eauto]. intros [_ H]. apply (H pm), B.
      + left. split; auto. split; auto.
        assert (N2 : eff (mover (fboard f)) 24 <> 0) by lia. apply eff_nonzero in N2; auto; lia. }
  destruct CASES as [[DA E]|[ND (o & E)]].
  { injection E as <-. split; auto. intros N. exfalso; apply N. right; right; auto. }
  rewrite E in Q. clear o E.
  destruct (any_single (fboard f) (favail f) POINTS) as [[]|e]; try discriminate.
  unfold is_doubles, has_rolled in Q. rewrite RL, ZP in Q. cbn [negb] in Q.
  destruct (fst (rolled b0) =? snd (rolled b0)) eqn:DB.
  { injection Q as <-. split; auto. intros N. exfalso; apply N. right; left; lia. }
  split; [intros [H|[H|H]]; [lia|lia|contradiction]|]. intros _.
  unfold new_factory in Q. rewrite PL in Q. cbn [fmove] in Q.
  destruct (rewind l (fresh (fmove f)) (mkFac (fboard f) (fmove f) (favail f)) b0) as (mf & FE & FM & FB & FP); cbn [favail fmove fboard]; auto.
  { rewrite MV; auto. }
  { rewrite MV; auto. }
  { apply make_all_inverse; auto. apply Forall_forall. intros pm Hpm. apply in_map_iff in Hpm as (x & <- & Hx).
    rewrite Forall_forall in ST. apply forward_sane. apply ST; auto. }
  rewrite MV in *. rewrite FE, FM, FB in Q. cbn [List.length Nat.eqb negb] in Q.
  destruct (any_double_same b0 (favail mf) POINTS WB0 FP) as (r & ED & RD).
  { intros s Hs; apply In_zrange in Hs; lia. }
  rewrite ED in Q. destruct r; congruence.
Qed.

(* with a double an answer no means that a step is left *)
Lemma pickup_doubles : forall b0 l f b', a_die (fst (rolled b0)) -> fst (rolled b0) = snd (rolled b0) ->
  fac_add (new_factory b0 None None) l = (f, Ok tt) -> wf_board (fboard f) ->
  is_leagal_to_pickup_dice f = (b', Ok false) -> exists s pm, legal (fboard f) (favail f) s pm.
Proof.
  intros b0 l f b' D1 DB FA WB Q.
  assert (D2 : a_die (snd (rolled b0))) by congruence.
  destruct (proj1 dice_pool (rolled b0) D1 D2) as [W0 HD].
  apply fac_add_ok in FA as (WP & MV & MA & HF); auto. cbn [new_factory fmove fboard favail] in MV, MA, HF.
  assert (RL : rolled (fboard f) = rolled b0).
  { symmetry. apply (make_all_frame _ _ _ FRolled MA). discriminate. }
  assert (ZP : zpair_eqb (rolled b0) (0, 0) = false).
  { unfold zpair_eqb, a_die in *. cbn. lia. }
  unfold is_leagal_to_pickup_dice in Q. rewrite RL, ZP in Q.
  destruct (pool_len (favail f) =? 0); [discriminate|].
  destruct (has_chequer_to_move (fboard f) BAR) as [n|]; [|discriminate].
  destruct (if n =? 0 then _ else _) as [[o|]|e]; try discriminate.
  destruct (any_single_spec (fboard f) (favail f) POINTS WB WP) as (r & E & R).
  { intros s Hs; apply In_zrange in Hs; lia. }
  rewrite E in Q. destruct r.
  { destruct (proj1 R eq_refl) as (s & pm & _ & L). eauto. }
  unfold is_doubles, has_rolled in Q. rewrite RL, ZP in Q. cbn [negb] in Q.
  replace (fst (rolled b0) =? snd (rolled b0)) with true in Q by lia. discriminate.
Qed.

(* what is picked up is the board the query left *)
Lemma pickupdice_does b b' : pickupdice b = (b', Ok tt) ->
  rolled b' = (0, 0) /\ on_action b' = other (on_action b) /\ on_inner_action b' = other (on_inner_action b) /\
  changes_only [FRolled; FOnAction; FInner] b b'.
Proof.
  unfold pickupdice, get_opp, HIM, YOU. intros H.
  change (on_action (set_rolled (0, 0) b)) with (on_action b) in H.
  assert (A : exists o, (if on_action b =? 1 then Ok 0 else if on_action b =? 0 then Ok 1 else Exc ValueError) = Ok o /\ o = 1 - on_action b).
  { destruct (on_action b =? 1) eqn:A; [eexists; split; [reflexivity|lia]|].
    destruct (on_action b =? 0) eqn:B; [eexists; split; [reflexivity|lia]|discriminate]. }
  destruct A as (o & A & ->). rewrite A in H.
  change (on_inner_action (set_on_action (1 - on_action b) (set_rolled (0, 0) b))) with (on_inner_action b) in H.
  assert (B : exists o, (if on_inner_action b =? 1 then Ok 0 else if on_inner_action b =? 0 then Ok 1 else Exc ValueError) = Ok o /\ o = 1 - on_inner_action b).
  { destruct (on_inner_action b =? 1) eqn:C; [eexists; split; [reflexivity|lia]|].
    destruct (on_inner_action b =? 0) eqn:D; [eexists; split; [reflexivity|lia]|discriminate]. }
  destruct B as (o & B & ->). rewrite B in H. injection H as <-.
  split; [reflexivity|]. split; [reflexivity|]. split; [reflexivity|].
  intros x Hx; destruct x; cbn; auto; exfalso; apply Hx; cbn; auto.
Qed.
Lemma picked_up : forall b0 l f b', wf_board b0 -> a_die (fst (rolled b0)) -> a_die (snd (rolled b0)) ->
  ids_ok l -> Forall (fun x => stepping (snd x)) l ->
  fac_add (new_factory b0 None None) l = (f, Ok tt) -> wf_board (fboard f) ->
  fac_pickupdice f = (b', Ok tt) ->
  (plainly_over b0 f -> position b' = position (fboard f)) /\
  (~ plainly_over b0 f -> position b' = position b0) /\
  rolled b' = (0, 0) /\ on_action b' = other (on_action b0) /\ on_inner_action b' = other (on_inner_action b0) /\
  changes_only [FPosition; FRolled; FOnAction; FInner] b0 b'.
Proof.
  intros b0 l f b' WB0 D1 D2 I ST FA WB Q. unfold fac_pickupdice in Q.
  destruct (is_leagal_to_pickup_dice f) as [b1 [[]|e]] eqn:E; try discriminate.
  pose proof (pickup_board b0 l f b1 WB0 D1 D2 I ST FA WB E) as [P1 P2].
  destruct (pickup_query b0 l f WB0 D1 D2 I ST FA WB) as (b2 & r & Q2 & BB & _).
  rewrite E in Q2. injection Q2 as <- <-.
  assert (CH : changes_only [FPosition] b0 b1).
  { destruct BB as [->|(-> & _)]; [|intros x _; destruct x; cbn; auto].
    apply fac_add_ok in FA as (WP & MV & MA & HF). 2:{ apply (proj1 dice_pool (rolled b0) D1 D2). }
    cbn [new_factory fboard] in MA. intros x Hx. apply (make_all_frame _ _ _ x MA). intros ->. apply Hx; cbn; auto. }
  apply pickupdice_does in Q as (R & OA & OI & CH2).
  assert (PS : position b' = position b1).
  { symmetry. apply (CH2 FPosition). cbn. intuition discriminate. }
  split; [intros H; rewrite PS, (P1 H); auto|]. split; [intros H; rewrite PS, (P2 H); auto|].
  split; auto. split.
  { rewrite OA. f_equal. symmetry. apply (CH FOnAction). cbn. intuition discriminate. }
  split.
  { rewrite OI. f_equal. symmetry. apply (CH FInner). cbn. intuition discriminate. }
  intros x Hx.
  assert (H1 : agree x b0 b1) by (apply CH; cbn in *; intuition).
  assert (H2 : agree x b1 b') by (apply CH2; cbn in *; intuition).
  destruct x; cbn in *; congruence.
Qed.

(* ---------- every roll can be played ---------- *)
Lemma legal_dec b p : wf_board b -> wf_pool p -> (exists s pm, legal b p s pm) \/ (forall s pm, ~ legal b p s pm).
Proof.
  intros WB WP.
  destruct (any_single_spec b p POINTS WB WP) as (r & _ & R).
  { intros s Hs; apply In_zrange in Hs; lia. }
  destruct r; [left; destruct (proj1 R eq_refl) as (s & pm & _ & H); eauto|].
  destruct (single_from_source_best b p 24 WB WP ltac:(lia)) as (o & _ & B). destruct o as [pm|].
  { left. exists 24, pm. apply B. }
  right. intros s pm H. destruct (Z.eq_dec s 24) as [->|N]; [apply (B pm); auto|].
  assert (false = true); [|discriminate]. apply R. exists s, pm. split; auto. apply In_zrange. destruct H as (_ & _ & _ & Hs & _). lia.
Qed.
Lemma run_len b p l b' p' : legal_run b p l b' p' -> wf_pool p -> pool_len p' = pool_len p - Z.of_nat (List.length l).
Proof.
  induction 1 as [|b p s pm b1 p1 l b2 p2 Lg M C R IH]; intros W; [cbn; lia|].
  apply consume_inv in C as (_ & _ & _ & W2 & N & _); auto. rewrite IH by auto. cbn [List.length]. lia.
Qed.
Lemma step_run b p s pm : wf_board b -> wf_pool p -> legal b p s pm -> exists b' p', legal_run b p [pm] b' p'.
Proof. intros WB WP Lg. apply (chain_run (fun _ => 0)) with (s := s) (t := dest pm); auto. apply chain_one; auto. Qed.
Lemma len_two r : a_die (fst r) -> a_die (snd r) -> fst r <> snd r -> pool_len (new_pool r) = 2.
Proof.
  destruct r as [x y]. unfold a_die; cbn [fst snd]. intros Hx Hy N.
  assert (x = 1 \/ x = 2 \/ x = 3 \/ x = 4 \/ x = 5 \/ x = 6) as Cx by lia.
  assert (y = 1 \/ y = 2 \/ y = 3 \/ y = 4 \/ y = 5 \/ y = 6) as Cy by lia.
  destruct Cx as [->|[->|[->|[->|[->| ->]]]]]; destruct Cy as [->|[->|[->|[->|[->| ->]]]]]; try reflexivity; exfalso; apply N; reflexivity.
Qed.

Lemma run_snoc b p l b1 p1 s pm : wf_board b -> wf_pool p -> legal_run b p l b1 p1 -> legal b1 p1 s pm ->
  exists b2 p2, legal_run b p (l ++ [pm]) b2 p2.
Proof.
  intros WB WP R Lg. destruct (run_pips _ _ _ _ _ R WB WP) as (W1 & _). pose proof (run_pool _ _ _ _ _ R WP) as WP1.
  destruct (step_run _ _ _ _ W1 WP1 Lg) as (b2 & p2 & R2). exists b2, p2. eapply run_app; eauto.
Qed.
(* the dice may be picked up after a turn by the rules *)
Lemma rules_picked_up : forall b l f, wf_board b -> a_die (fst (rolled b)) -> a_die (snd (rolled b)) -> player (on_inner_action b) ->
  ids_ok l -> by_the_rules b (map snd l) (fboard f) (favail f) -> fac_add (new_factory b None None) l = (f, Ok tt) ->
  exists b', fac_pickupdice f = (b', Ok tt).
Proof.
  intros b l f WB D1 D2 PI I (R & LONG & LARGE) FA.
  destruct (proj1 dice_pool (rolled b) D1 D2) as [WP HD].
  set (p := new_pool (rolled b)) in *.
  destruct (run_pips _ _ _ _ _ R WB WP) as (W1 & _ & _ & _ & _ & _ & HE).
  pose proof (run_len _ _ _ _ _ R WP) as LN.
  assert (NO : forall s pm, ~ legal (fboard f) (favail f) s pm).
  { intros s pm Lg. destruct (run_snoc _ _ _ _ _ _ _ WB WP R Lg) as (b2 & p2 & R2).
    apply LONG in R2. rewrite app_length in R2. cbn in R2. lia. }
  assert (ST : Forall (fun x : pobj => stepping (snd x)) l).
  { apply Forall_map with (f := snd). eapply run_stepping; eauto. }
  destruct (pickup_query b l f WB D1 D2 I ST FA W1) as (b1 & q & Q & BB & T & _ & F). fold p in F.
  assert (q = true) as ->.
  { destruct q; auto. exfalso.
    destruct (Z.eq_dec (fst (rolled b)) (snd (rolled b))) as [DB|DB].
    { destruct (pickup_doubles b l f b1 D1 DB FA W1 Q) as (s & pm & Lg). eapply NO; eauto. }
    pose proof (len_two (rolled b) D1 D2 DB) as L2. fold p in L2.
    destruct (F eq_refl) as [(s & pm & Lg)|[(s & t & c & C & N)|(s & pm & Lg & HL & MX)]].
    - eapply NO; eauto.
    - destruct (chain_run (fun _ => 0) _ _ _ _ _ WB WP C) as (b2 & p2 & R2). apply LONG in R2.
      assert (pool_len (favail f) = 0) as Z0.
      { pose proof (run_pool _ _ _ _ _ R WP) as W2. pose proof (pool_len_nonneg _ W2). lia. }
      apply T in Z0. discriminate.
    - destruct (step_run _ _ _ _ WB WP Lg) as (b2 & p2 & R2). apply LONG in R2. cbn in R2.
      pose proof (held_le_len _ (die pm) (run_pool _ _ _ _ _ R WP)) as HLE.
      rewrite map_length in LN, R2.
      destruct l as [|[i x] [|y l]]; cbn in R2, LN; try lia.
      pose proof (LARGE x s pm eq_refl Lg) as LE.
      inversion R as [|? ? s0 ? b3 p3 ? ? ? Lx Mx Cx Rx]; subst. 
      assert (die x = die pm) as E.
      { destruct (Z_lt_ge_dec (die pm) (die x)) as [LT|]; [|lia]. destruct Lx as (X1 & X2 & _). 
        pose proof (MX _ X1 LT) as Z0. rewrite <- HD in Z0. lia. }
      pose proof (HE (die pm)) as HE1. rewrite HD in HE1.
      assert (dice_of (rolled b) (die pm) <= 1) by (unfold dice_of; destruct (fst (rolled b) =? snd (rolled b)) eqn:Q0; [lia|]; destruct (die pm =? fst (rolled b)) eqn:Q1, (die pm =? snd (rolled b)) eqn:Q2; lia).
      destruct (legal_pm_ok _ _ _ _ Lx) as (_ & LT & _).
      unfold used in HE1. cbn in HE1. rewrite E, Z.eqb_refl in HE1. replace (src x <? dest x) with false in HE1 by lia. lia. }
  unfold fac_pickupdice. rewrite Q.
  assert (CH : on_action b1 = on_action b /\ on_inner_action b1 = on_inner_action b).
  { destruct BB as [->|(-> & _)]; auto. split; symmetry.
    - apply (run_frame _ _ _ _ _ FOnAction R). discriminate.
    - apply (run_frame _ _ _ _ _ FInner R). discriminate. }
  destruct CH as [C1 C2]. destruct WB as (P & _). 
  unfold pickupdice, get_opp. change (on_action (set_rolled (0, 0) b1)) with (on_action b1). rewrite C1.
  assert (G : forall o w, player w -> exists b', match (if on_inner_action (set_on_action o (set_rolled (0, 0) b1)) =? HIM then Ok YOU
      else if on_inner_action (set_on_action o (set_rolled (0, 0) b1)) =? YOU then Ok HIM else Exc ValueError) with
      | Ok i => (set_on_inner_action i (set_on_action o (set_rolled (0, 0) b1)), Ok tt)
      | Exc e => (set_on_action o (set_rolled (0, 0) b1), Exc e)
      end = (b', Ok tt)).
  { intros o w _. change (on_inner_action (set_on_action o (set_rolled (0, 0) b1))) with (on_inner_action b1). rewrite C2.
    destruct PI as [-> | ->]; eexists; reflexivity. }
  destruct P as [-> | ->]; cbn [Z.eqb HIM YOU Pos.eqb]; eapply G; left; reflexivity.
Qed.

(* ---------- every roll can be played by the rules ---------- *)
Lemma legal_same b p s x y : legal b p s x -> legal b p s y -> die x = die y -> x = y.
Proof.
  intros (_ & _ & S1 & _ & _ & _ & C1) (_ & _ & S2 & _ & _ & _ & C2) E.
  destruct x as [d1 s1 t1 h1], y as [d2 s2 t2 h2]; cbn in *. subst.
  assert (T : t1 = t2) by (destruct C1 as [(A1 & A2 & _)|(A1 & A2 & _)], C2 as [(B1 & B2 & _)|(B1 & B2 & _)]; lia).
  subst t2. f_equal.
  destruct C1 as [(A1 & A2 & A3 & A4)|(A1 & A2 & A3 & _)], C2 as [(B1 & B2 & B3 & B4)|(B1 & B2 & B3 & _)]; lia.
Qed.
(* the steps there are, one die and one chequer at a time *)
Lemma legal_at b p s d : wf_board b -> wf_pool p -> 0 <= s <= 24 -> a_die d ->
  (exists pm, legal b p s pm /\ die pm = d) \/ (forall pm, legal b p s pm -> die pm <> d).
Proof.
  intros WB WP Hs D. destruct (new_pool_y d D) as [WY HY].
  destruct (Z_lt_ge_dec 0 (held p d)) as [HP|HP].
  2:{ right. intros pm (X1 & X2 & _) E. rewrite E in X2. lia. }
  destruct (single_from_source_best b _ s WB WY Hs) as (o & _ & B). destruct o as [pm|].
  - left. exists pm. destruct B as [B _].
    assert (E : die pm = d) by (destruct B as (X1 & X2 & _); apply HY; auto).
    split; auto. eapply legal_pool; [|exact B]. intros _. rewrite E. lia.
  - right. intros pm Lg E. apply (B pm). eapply legal_pool; [|exact Lg]. intros _. rewrite E.
    unfold new_pool; cbn [fst snd]. replace (d =? 0) with false by (unfold a_die in D; lia).
    rewrite !held_dset, held_empty. rewrite Z.eqb_refl. destruct (d =? 0); lia.
Qed.
Lemma longest n : forall b p, wf_board b -> wf_pool p -> pool_len p <= Z.of_nat n ->
  exists l b' p', legal_run b p l b' p' /\
    forall l2 b2 p2, legal_run b p l2 b2 p2 -> (List.length l2 <= List.length l)%nat.
Proof.
  induction n as [|n IH]; intros b p WB WP N.
  - exists [], b, p. split; [constructor|]. intros l2 b2 p2 R2. pose proof (run_len _ _ _ _ _ R2 WP).
    pose proof (pool_len_nonneg _ (run_pool _ _ _ _ _ R2 WP)). cbn. lia.
  - (* the longest among the runs that begin with a listed chequer and die *)
    assert (SOME : forall c : list (Z * Z), (forall sd, In sd c -> 0 <= fst sd <= 24 /\ a_die (snd sd)) ->
      exists l b' p', legal_run b p l b' p' /\
        forall x l2 b2 p2, legal_run b p (x :: l2) b2 p2 -> In (src x, die x) c -> (List.length (x :: l2) <= List.length l)%nat).
    { induction c as [|[s d] c IHc]; intros HC.
      - exists [], b, p. split; [constructor|]. intros x l2 b2 p2 _ [].
      - destruct IHc as (l & b' & p' & R & M); [intros sd H; apply HC; cbn; auto|].
        destruct (HC (s, d) (or_introl eq_refl)) as [Hs D]. cbn [fst snd] in Hs, D.
        destruct (legal_at b p s d WB WP Hs D) as [(pm & Lg & E)|NO].
        + destruct (legal_play _ _ _ _ WB Lg) as (b1 & MP & W1 & _).
          pose proof Lg as (X1 & X2 & _).
          pose proof (consume_ok p (die pm) WP X1 ltac:(lia)) as CO.
          pose proof CO as CI. apply consume_inv in CI as (_ & _ & _ & WP1 & N1 & _); auto.
          destruct (IH b1 _ W1 WP1 ltac:(lia)) as (lb & bb & pb & Rb & Mb).
          assert (NEW : forall x l2 b2 p2, legal_run b p (x :: l2) b2 p2 -> (src x, die x) = (s, d) ->
             (List.length (x :: l2) <= List.length (pm :: lb))%nat).
          { intros x l2 b2 p2 R2 E2. inversion R2 as [|? ? s0 ? b3 p3 ? ? ? Lx Mx Cx Rx]; subst.
            assert (s0 = s) as -> by (destruct Lx as (_ & _ & S0 & _); congruence).
            assert (x = pm) as -> by (eapply legal_same; eauto; congruence).
            rewrite MP in Mx. injection Mx as <-. rewrite CO in Cx. injection Cx as <-.
            apply Mb in Rx. cbn. lia. }
          destruct (Nat.le_gt_cases (List.length (pm :: lb)) (List.length l)) as [LE|GT].
          * exists l, b', p'. split; auto. intros x l2 b2 p2 R2 [E2|I2]; [|eauto].
            pose proof (NEW _ _ _ _ R2 (eq_sym E2)). lia.
          * exists (pm :: lb), bb, pb. split; [eapply run_step; eauto|].
            intros x l2 b2 p2 R2 [E2|I2]; [eapply NEW; eauto|]. pose proof (M _ _ _ _ R2 I2). lia.
        + exists l, b', p'. split; auto. intros x l2 b2 p2 R2 [E2|I2]; [|eauto].
          exfalso. inversion R2 as [|? ? s0 ? b3 p3 ? ? ? Lx Mx Cx Rx]; subst.
          assert (s0 = s) as -> by (destruct Lx as (_ & _ & S0 & _); congruence).
          apply (NO x Lx). congruence. }
    destruct (SOME (list_prod (zrange 0 25) (zrange 1 7))) as (l & b' & p' & R & M).
    { intros [s d] H. apply in_prod_iff in H as [H1 H2]. apply In_zrange in H1, H2. unfold a_die. cbn. lia. }
    exists l, b', p'. split; auto. intros [|x l2] b2 p2 R2; [cbn; lia|].
    eapply M; eauto. inversion R2 as [|? ? s0 ? b3 p3 ? ? ? Lx Mx Cx Rx]; subst.
    destruct Lx as (X1 & _ & X3 & X4 & _). apply in_prod_iff. rewrite !In_zrange. unfold a_die in X1. lia.
Qed.
Lemma most_die b p : wf_board b -> wf_pool p -> forall n s pm, legal b p s pm -> 6 - die pm <= Z.of_nat n ->
  exists s' q, legal b p s' q /\ forall t r, legal b p t r -> die r <= die q.
Proof.
  intros WB WP. induction n as [|n IH]; intros s pm Lg N.
  - exists s, pm. split; auto. intros t r (X & _). unfold a_die in X. lia.
  - assert (DEC : (exists t r, legal b p t r /\ die r > die pm) \/ (forall t r, legal b p t r -> die r <= die pm)).
    { assert (SOME : forall c : list (Z * Z), (forall sd, In sd c -> 0 <= fst sd <= 24 /\ a_die (snd sd)) ->
        (exists t r, legal b p t r /\ die r > die pm) \/ (forall t r, legal b p t r -> In (t, die r) c -> die r <= die pm)).
      { induction c as [|[t d] c IHc]; intros HC; [right; intros t r _ []|].
        destruct IHc as [H|H]; [intros sd Hsd; apply HC; cbn; auto|auto|].
        destruct (HC (t, d) (or_introl eq_refl)) as [Ht D]. cbn [fst snd] in Ht, D.
        destruct (legal_at b p t d WB WP Ht D) as [(r & Lr & E)|NO].
        - destruct (Z_lt_ge_dec (die pm) (die r)) as [LT|GE]; [left; exists t, r; split; auto; lia|].
          right. intros t' r' Lr' [E2|I2]; [|eauto]. injection E2 as -> E2. lia.
        - right. intros t' r' Lr' [E2|I2]; [|eauto]. injection E2 as -> E2. exfalso. apply (NO r' Lr'). auto. }
      destruct (SOME (list_prod (zrange 0 25) (zrange 1 7))) as [H|H]; auto.
      { intros [t d] H. apply in_prod_iff in H as [H1 H2]. apply In_zrange in H1, H2. unfold a_die. cbn. lia. }
      right. intros t r Lr. apply (H t r Lr). destruct Lr as (X1 & _ & X3 & X4 & _). apply in_prod_iff. rewrite !In_zrange. unfold a_die in X1. lia. }
    destruct DEC as [(t & r & Lr & GT)|H]; [|exists s, pm; auto].
    apply (IH t r Lr). lia.
Qed.
Lemma rules_exist : forall b, wf_board b -> a_die (fst (rolled b)) -> a_die (snd (rolled b)) ->
  exists l f, ids_ok l /\ by_the_rules b (map snd l) (fboard f) (favail f) /\ fac_add (new_factory b None None) l = (f, Ok tt).
Proof.
  intros b WB D1 D2. destruct (proj1 dice_pool (rolled b) D1 D2) as [WP HD].
  assert (H : exists l b' p', by_the_rules b l b' p').
  { destruct (longest (Z.to_nat (pool_len (new_pool (rolled b)))) b (new_pool (rolled b)) WB WP) as (l & b' & p' & R & M).
    { pose proof (pool_len_nonneg _ WP). lia. }
    destruct l as [|x [|y l]]; [exists [], b', p'| |exists (x :: y :: l), b', p']; try (repeat split; auto; intros; discriminate).
    inversion R as [|? ? s0 ? b3 p3 ? ? ? Lx Mx Cx Rx]; subst.
    destruct (most_die b _ WB WP 6%nat s0 x Lx) as (s & q & Lq & Mq).
    { destruct Lx as (X & _). unfold a_die in X. lia. }
    destruct (step_run _ _ _ _ WB WP Lq) as (b2 & p2 & R2). exists [q], b2, p2. split; auto. split; auto.
    intros q' t r E Lr. injection E as <-. eauto. }
  destruct H as (l & b' & p' & R & M1 & M2).
  destruct (give_run (fun _ => 0) _ _ _ _ _ R (new_factory b None None) eq_refl eq_refl ltac:(constructor)) as (r & E1 & _ & E3 & E4).
  cbn [new_factory fmove app] in E3, E4.
  exists r, (mkFac b' r p'). split; [apply E4; intros x y []|]. rewrite E1. split; [split; auto|auto].
Qed.

(* ---------- the move that is lost ---------- *)
Lemma none_legal b p : wf_board b -> wf_pool p -> count (mover b) 24 = 0 -> any_single b p POINTS = Ok false -> forall s pm, ~ legal b p s pm.
Proof.
  intros WB WP C A s pm Lg. destruct (any_single_spec b p POINTS WB WP) as (r & E & R).
  { intros t Ht; apply In_zrange in Ht; lia. }
  rewrite A in E. injection E as <-.
  assert (false = true); [|discriminate]. apply R. exists s, pm. split; auto.
  destruct Lg as (_ & _ & _ & Hs & X & _). apply In_zrange. destruct (Z.eq_dec s 24) as [->|]; lia.
Qed.
(* one chequer on the thirteenth point, a six and a one, and the point seven
   steps away is made *)
Lemma lone_legal p : wf_pool p -> forall s pm, legal lone p s pm -> s = 12.
Proof.
  intros WP s pm (_ & _ & _ & Hs & C & _).
  assert (F : forallb (fun k => (count (mover lone) k <=? 0) || (k =? 12)) (zrange 0 25) = true) by (vm_compute; reflexivity).
  rewrite forallb_forall in F. specialize (F s ltac:(apply In_zrange; lia)). lia.
Qed.
Lemma lone_wf : wf_board lone.
Proof. apply wf_sample; auto. Qed.
Lemma lone_six : legal lone (new_pool (6, 1)) 12 (mkPM 6 12 6 false).
Proof.
  unfold legal. repeat match goal with |- _ /\ _ => split end; try num.
  left. repeat match goal with |- _ /\ _ => split end; try num.
Qed.
Lemma lone_one : legal lone (new_pool (6, 1)) 12 (mkPM 1 12 11 false).
Proof.
  unfold legal. repeat match goal with |- _ /\ _ => split end; try num.
  left. repeat match goal with |- _ /\ _ => split end; try num.
Qed.
Lemma lone_rules : forall b' p', legal_run lone (new_pool (6, 1)) [mkPM 6 12 6 false] b' p' -> by_the_rules lone [mkPM 6 12 6 false] b' p'.
Proof.
  intros b' p' R. destruct (proj1 dice_pool (6, 1)) as [WP HD]; [unfold a_die; cbn; lia|unfold a_die; cbn; lia|].
  split; [exact R|]. change (rolled lone) with (6, 1). split.
  - intros [|x [|y l2]] b2 p2 R2; cbn; [lia|lia|]. exfalso.
    inversion R2 as [|? ? s0 ? b3 p3 ? ? ? Lx Mx Cx Rx]; subst.
    inversion Rx as [|? ? s1 ? b4 p4 ? ? ? Ly My Cy Ry]; subst. clear R2 Rx Ry R My Cy.
    pose proof (lone_legal _ WP _ _ Lx) as ->.
    destruct (legal_play _ _ _ _ lone_wf Lx) as (b5 & M5 & W5 & _). rewrite Mx in M5. injection M5 as <-.
    pose proof Cx as Cx'. apply consume_inv in Cx' as (D & H & _ & WP3 & _); auto.
    assert (die x = 6 \/ die x = 1) as [E|E].
    { rewrite HD in H. unfold dice_of in H. cbn [fst snd] in H. replace (6 =? 1) with false in H by reflexivity.
      destruct (die x =? 6) eqn:Q1, (die x =? 1) eqn:Q2; lia. }
    + pose proof (legal_same _ _ _ _ _ Lx lone_six E) as ->.
      vm_compute in Mx. injection Mx as <-. vm_compute in Cx. injection Cx as <-.
      apply (none_legal _ _ W5 WP3) in Ly; auto; vm_compute; reflexivity.
    + pose proof (legal_same _ _ _ _ _ Lx lone_one E) as ->.
      vm_compute in Mx. injection Mx as <-. vm_compute in Cx. injection Cx as <-.
      apply (none_legal _ _ W5 WP3) in Ly; auto; vm_compute; reflexivity.
  - intros q s pm E (X & Y & _). injection E as <-. unfold a_die in X. cbn. lia.
Qed.
Lemma move_lost : exists b0 pm f b', wf_board b0 /\ by_the_rules b0 [pm] (fboard f) (favail f) /\
  fac_add (new_factory b0 None None) [(1%nat, pm)] = (f, Ok tt) /\ fac_pickupdice f = (b', Ok tt) /\
  position b' = position b0 /\ position b' <> position (fboard f).
Proof.
  exists lone, (mkPM 6 12 6 false). eexists _, _.
  split; [exact lone_wf|]. split; [|split; [vm_compute; reflexivity|split; [vm_compute; reflexivity|split; [reflexivity|vm_compute; discriminate]]]].
  apply lone_rules. eapply run_step; [exact lone_six|vm_compute; reflexivity|vm_compute; reflexivity|constructor].
Qed.
