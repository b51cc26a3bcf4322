From Coq Require Import ZifyBool ZifyNat.
From Verif Require Import Py PyFacts UtilModel BoardModel BoardSpec BoardProofs MoveModel MoveSpec PoolProofs MoveProofs GuessProofs PickupProofs.
From Verif Require Import GameModel GameSpec GameProofs PickSpec PickProofs.

(* ---------- a path of the length of one die is one step ---------- *)
Lemma filter_all {X} (g : X -> bool) l : (forall x, In x l -> g x = true) -> filter g l = l.
Proof. induction l as [|x l IH]; cbn; intros H; auto. rewrite H by auto. rewrite IH; auto. Qed.
Lemma zsum_dice_nonneg l : Forall (fun pm => a_die (die pm)) l -> 0 <= zsum (map die l).
Proof. induction 1 as [|y l Dy F IHF]; [cbn; lia|]. cbn. fold (zsum (map die l)). unfold a_die in *. lia. Qed.
Lemma zsum_dice l : Forall (fun pm => a_die (die pm)) l -> forall pm, In pm l -> die pm <= zsum (map die l) /\
  (die pm = zsum (map die l) -> l = [pm]).
Proof.
  induction 1 as [|x l D F IH]; intros pm [].
  - subst x. cbn. fold (zsum (map die l)). pose proof (zsum_dice_nonneg _ F).
    split; [lia|]. intros E. destruct F as [|y l Dy F]; auto. exfalso.
    cbn in E. fold (zsum (map die l)) in E. pose proof (zsum_dice_nonneg _ F). unfold a_die in *. lia.
  - destruct (IH pm H) as [P _]. cbn. fold (zsum (map die l)). unfold a_die in *. lia.
Qed.
Lemma one_step_path b p s d l : wf_pool p -> roll_pool p -> a_die d -> held p d > 0 -> 0 <= s - d ->
  chain b p s (s - d) l -> exists pm, l = [pm] /\ die pm = d.
Proof.
  intros WP (x & y & ONLY & ONE) D H HT CH.
  destruct (chain_dice _ _ _ _ _ WP HT CH) as (SUM & F & CNT). replace (s - (s - d)) with d in SUM by lia.
  assert (ne : l <> []) by (inversion CH; discriminate).
  destruct (in_dec Z.eq_dec d (map die l)) as [I|NI].
  { apply in_map_iff in I as (pm & E & I). destruct (zsum_dice l F pm I) as [_ Q]. exists pm. split; [apply Q; lia|auto]. }
  exfalso.
  (* every die of the path is the other one *)
  assert (exists e, forall q, In q l -> die q = e /\ held p e <= 1) as [e E].
  { assert (HELD : forall q, In q l -> held p (die q) > 0).
    { intros q I. pose proof (CNT (die q)) as C. 
      assert (In q (filter (fun pm => die pm =? die q) l)) as IF by (apply filter_In; split; auto; lia).
      destruct (filter (fun pm => die pm =? die q) l); [destruct IF|]. cbn in C. lia. }
    assert (DX : d = x \/ d = y).
    { destruct (Z.eq_dec d x), (Z.eq_dec d y); auto. exfalso. pose proof (ONLY d D). lia. }
    assert (QX : forall q, In q l -> die q = x \/ die q = y).
    { intros q I. rewrite Forall_forall in F. pose proof (F q I). pose proof (HELD q I). pose proof (ONLY (die q)).
      destruct (Z.eq_dec (die q) x), (Z.eq_dec (die q) y); auto. exfalso. lia. }
    assert (QN : forall q, In q l -> die q <> d).
    { intros q I E. apply NI. rewrite <- E. apply in_map; auto. }
    destruct ONE as [-> | [O1 O2]].
    - exfalso. destruct l as [|q l]; [congruence|]. apply (QN q (or_introl eq_refl)). destruct (QX q (or_introl eq_refl)); lia.
    - destruct DX as [-> | ->]; [exists y|exists x]; intros q I; destruct (QX q I); (split; [|auto]); pose proof (QN q I); congruence. }
  destruct l as [|q [|q2 l]]; [congruence| |].
  - cbn in SUM. apply NI. cbn. left. lia.
  - pose proof (CNT e) as C. rewrite filter_all in C.
    2:{ intros z I. apply Z.eqb_eq. apply E; auto. }
    destruct (E q (or_introl eq_refl)) as [_ L1]. cbn in C. lia.
Qed.

(* ---------- the dice of the run and of the suggestions ---------- *)
(* they are the same; or the larger of two was taken first for a chequer that
   both bear off, and nothing is left beyond the smaller; or there are none *)
Definition alike (b : board) (p p2 : pool) : Prop :=
  (p2 = p /\ roll_pool p) \/
  (exists d e, a_die d /\ a_die e /\ d < e /\ (forall k, a_die k -> held p k = if k =? e then 1 else 0) /\
     (forall k, a_die k -> held p2 k = if k =? d then 1 else 0) /\
     forall k, d <= k <= 24 -> count (mover b) k = 0) \/
  (forall k, a_die k -> held p k = 0).
Lemma die_unread d d' s t h b : make_partial_move (mkPM d s t h) b = make_partial_move (mkPM d' s t h) b.
Proof. reflexivity. Qed.
Lemma append_step f b b1 p p1 s pm : fboard f = b -> favail f = p -> Forall (fun x : pobj => forward (snd x)) (fmove f) ->
  legal b p s pm -> make_partial_move pm b = (b1, Ok tt) -> consume p (die pm) = Ok p1 ->
  exists i, give f [pm] = (mkFac b1 (fmove f ++ [(i, pm)]) p1, Ok tt).
Proof.
  intros EB EP FW Lg M C.
  destruct (give_run (fun _ => 0) b p [pm] b1 p1 (run_step _ _ _ _ _ _ _ _ _ Lg M C (run_none _ _)) f EB EP FW) as (r & E1 & E2 & _).
  destruct r as [|[i x] [|]]; try discriminate. cbn in E1. injection E1 as ->. exists i. auto.
Qed.
Lemma click b p p2 s pm b1 p1 : wf_board b -> wf_pool p -> wf_pool p2 -> alike b p p2 ->
  legal b p s pm -> make_partial_move pm b = (b1, Ok tt) -> consume p (die pm) = Ok p1 ->
  exists q pm2 p3, forward_ask q /\ legal b p2 s pm2 /\ make_partial_move pm2 b = (b1, Ok tt) /\ consume p2 (die pm2) = Ok p3 /\
    (forall f, fboard f = b -> favail f = p2 -> Forall (fun x : pobj => forward (snd x)) (fmove f) ->
       exists i, fst (answer q f) = mkFac b1 (fmove f ++ [(i, pm2)]) p3) /\
    (p2 = p -> die pm <= die pm2) /\ alike b1 p1 p3.
Proof.
  intros WB WP WP2 AL Lg M C.
  destruct (legal_pm_ok _ _ _ _ Lg) as (OK & LT & SR).
  pose proof Lg as (D & H & S0 & Hs & CT & BAR0 & WAY).
  pose proof C as C'. apply consume_inv in C' as (_ & _ & _ & WP1 & _ & HP1); auto.
  (* clicking the chequer *)
  assert (FROM : forall pm2 p3, legal b p2 s pm2 -> (forall z, legal b p2 s z -> die z <= die pm2) ->
     make_partial_move pm2 b = (b1, Ok tt) -> consume p2 (die pm2) = Ok p3 ->
     forall f, fboard f = b -> favail f = p2 -> Forall (fun x : pobj => forward (snd x)) (fmove f) ->
       exists i, fst (answer (TFrom s) f) = mkFac b1 (fmove f ++ [(i, pm2)]) p3).
  { intros pm2 p3 Lg2 TOP M2 C2 f EB EP FW. cbn [answer]. rewrite EB, EP.
    destruct (single_from_source_best b p2 s WB WP2 ltac:(lia)) as (o & E & B). rewrite E. cbn [bind].
    destruct o as [z|]; [|exfalso; apply (B pm2); auto]. destruct B as [B1 B2].
    assert (z = pm2) as ->.
    { eapply legal_same; eauto. pose proof (B2 _ Lg2). pose proof (TOP _ B1). lia. }
    cbn [option_map play_on]. destruct (append_step f b b1 p2 p3 s pm2 EB EP FW Lg2 M2 C2) as (i & ->). exists i; auto. }
  destruct AL as [[-> RP]|[(d & e & Dd & De & LTd & Hp & Hp2 & NONE)|Z0]].
  3:{ exfalso. pose proof (Z0 _ D). lia. }
  - destruct WAY as [(W1 & W2 & W3 & W4)|(W1 & W2 & W3 & W4)].
    + exists (TPath s (dest pm)), pm, p1.
      split; [cbn; lia|]. split; auto. split; auto. split; auto. split; [|split; [lia|]].
      2:{ left; split; auto. destruct RP as (x & y & R1 & R2). exists x, y. split.
          - intros k Dk N1 N2. rewrite HP1. destruct (k =? die pm) eqn:E; auto. assert (k = die pm) by lia. subst k.
            pose proof (R1 _ Dk N1 N2). lia.
          - destruct R2 as [R2|[R2 R3]]; auto. right. rewrite !HP1. destruct (x =? die pm), (y =? die pm); lia. }
      intros f EB EP FW. cbn [answer]. rewrite EB, EP.
      destruct (multiple_complete b p s (dest pm) [pm] WB WP RP ltac:(lia)) as (pp & r & E).
      { apply chain_one; auto. }
      destruct (multiple_sound b p s (dest pm) WB WP ltac:(lia) ltac:(lia)) as (pp2 & o & E2 & B). rewrite E in E2.
      injection E2 as _ <-. specialize (B r eq_refl). rewrite E. cbn [bind option_map play_on].
      rewrite W2 in B. destruct (one_step_path b p s (die pm) _ WP RP D H ltac:(lia) B) as (z & EZ & DZ).
      rewrite EZ in *.
      apply chain_inv in B as [Lz _]. assert (z = pm) as -> by (eapply legal_same; eauto).
      destruct (append_step (on_board b f) b b1 p p1 s pm eq_refl EP FW Lg M C) as (i & ->). exists i; auto.
    + destruct (single_from_source_best b p s WB WP ltac:(lia)) as (o & _ & B).
      destruct o as [z|]; [|exfalso; apply (B pm); auto]. destruct B as [B1 B2].
      pose proof (B2 _ Lg) as LE.
      destruct (Z.eq_dec (die z) (die pm)) as [E|N].
      { assert (z = pm) as -> by (eapply legal_same; eauto).
        exists (TFrom s), pm, p1. split; [cbn; lia|]. split; auto. split; auto. split; auto. split; [eapply FROM; eauto|]. split; auto.
        left; split; auto. destruct RP as (x & y & R1 & R2). exists x, y. split.
          - intros k Dk N1 N2. rewrite HP1. destruct (k =? die pm) eqn:E1; auto. assert (k = die pm) by lia. subst k.
            pose proof (R1 _ Dk N1 N2). lia.
          - destruct R2 as [R2|[R2 R3]]; auto. right. rewrite !HP1. destruct (x =? die pm), (y =? die pm); lia. }
      pose proof B1 as (Dz & Hz & Sz & _ & _ & _ & Wz).
      destruct Wz as [(Z1 & _)|(Z1 & Z2 & Z3 & Z4)]; [lia|].
      assert (MZ : make_partial_move z b = (b1, Ok tt)).
      { rewrite <- M. destruct z as [zd zs zt zh], pm as [pd ps pt ph]. cbn in *. subst. apply die_unread. }
      pose proof (consume_ok p (die z) WP Dz ltac:(lia)) as CZ.
      pose proof CZ as CZ'. apply consume_inv in CZ' as (_ & _ & _ & WPZ & _ & HPZ); auto.
      exists (TFrom s), z, (dset p (die z) (held p (die z) - 1)).
      split; [cbn; lia|]. split; auto. split; auto. split; auto. split; [eapply FROM; eauto|]. split; auto.
      right; left. exists (die pm), (die z). split; auto. split; auto. split; [lia|].
      assert (ONE : held p (die pm) = 1 /\ held p (die z) = 1 /\ forall k, a_die k -> k <> die pm -> k <> die z -> held p k = 0).
      { destruct RP as (x & y & R1 & R2).
        assert (die pm = x \/ die pm = y) as X1 by (destruct (Z.eq_dec (die pm) x), (Z.eq_dec (die pm) y); auto; pose proof (R1 _ D); lia).
        assert (die z = x \/ die z = y) as X2 by (destruct (Z.eq_dec (die z) x), (Z.eq_dec (die z) y); auto; pose proof (R1 _ Dz); lia).
        assert (x <> y) by lia. destruct R2 as [R2|[R2 R3]]; [contradiction|].
        destruct X1 as [X1|X1], X2 as [X2|X2]; try (exfalso; lia); rewrite X1, X2 in *; (split; [lia|]); (split; [lia|]); intros k Dk N1 N2; apply R1; auto. }
      destruct ONE as (O1 & O2 & O3).
      split; [|split].
      * intros k Dk. rewrite HP1. destruct (k =? die pm) eqn:E1, (k =? die z) eqn:E2; 
          try (assert (KP : k = die pm) by lia; rewrite KP in *); try (assert (KZ : k = die z) by lia; rewrite KZ in *); try lia; apply O3; auto; lia.
      * intros k Dk. rewrite HPZ. destruct (k =? die pm) eqn:E1, (k =? die z) eqn:E2; 
          try (assert (KP : k = die pm) by lia; rewrite KP in *); try (assert (KZ : k = die z) by lia; rewrite KZ in *); try lia; apply O3; auto; lia.
      * intros k Hk. destruct (legal_play _ _ _ _ WB Lg) as (b1' & M' & W1' & OA & CM & _). rewrite M in M'. injection M' as <-.
        rewrite CM by lia. unfold mover_delta, here. rewrite W2. 
        destruct Z4 as (_ & _ & _ & [Z4|(_ & Z4)]); [lia|]. rewrite (Z4 k) by lia.
        repeat match goal with |- context [?x =? ?y] => destruct (x =? y) eqn:? end; lia.
  - assert (die pm = e) as E by (pose proof (Hp _ D) as X; destruct (die pm =? e) eqn:Q; lia).
    assert (SD : s < d) by (destruct (Z_lt_ge_dec s d); auto; exfalso; pose proof (NONE s ltac:(lia)); lia).
    destruct WAY as [(W1 & _)|(W1 & W2 & W3 & W4)]; [unfold a_die in *; lia|].
    destruct W4 as (X1 & X2 & X3 & [X4|(X4 & X5)]); [lia|].
    set (z := mkPM d s (-1) false).
    assert (Lz : legal b p2 s z).
    { unfold legal. cbn. split; auto. split; [pose proof (Hp2 _ Dd) as Y; rewrite Z.eqb_refl in Y; lia|]. split; auto. split; auto. split; auto. split; auto.
      right. split; [lia|]. split; auto. split; auto. split; auto. split; auto. split; auto.
      destruct (Z.eq_dec (s + 1) d); auto. right. split; [lia|auto]. }
    assert (Mz : make_partial_move z b = (b1, Ok tt)).
    { rewrite <- M. destruct pm as [pd ps pt ph]. cbn in *. subst. apply die_unread. }
    pose proof (consume_ok p2 d WP2 Dd ltac:(pose proof (Hp2 _ Dd) as Y; rewrite Z.eqb_refl in Y; lia)) as CZ.
    exists (TFrom s), z, (dset p2 d (held p2 d - 1)). split; [cbn; lia|]. split; auto. split; auto. split; auto.
    split; [eapply FROM; eauto|]. 
    { intros y (Dy & Hy & _). pose proof (Hp2 _ Dy) as Y. change (die z) with d. destruct (die y =? d) eqn:Q; lia. }
    split.
    { intros ->. exfalso. pose proof (Hp2 _ De) as Y. pose proof (Hp _ De) as Y2. rewrite Z.eqb_refl in Y2.
      destruct (e =? d) eqn:Q; lia. }
    right; right. intros k Dk. rewrite HP1, E. pose proof (Hp _ Dk) as Y. destruct (k =? e); lia.
Qed.
Lemma enter_run b p l b' p' : legal_run b p l b' p' -> forall f, wf_board b -> wf_pool p -> wf_pool (favail f) ->
  fboard f = b -> alike b p (favail f) -> Forall (fun x : pobj => forward (snd x)) (fmove f) ->
  exists qs r p2, Forall forward_ask qs /\ List.length qs = List.length l /\
    answers qs f = mkFac b' (fmove f ++ r) p2 /\ List.length r = List.length l /\
    (favail f = p -> forall x, l = [x] -> exists y, map snd r = [y] /\ die x <= die y).
Proof.
  induction 1 as [b p|b p s pm b1 p1 l b2 p2 Lg M C R IH]; intros f WB WP WPF EB AL FW.
  - exists [], [], (favail f). cbn. rewrite app_nil_r. subst b. destruct f; repeat split; auto. discriminate.
  - destruct (click b p (favail f) s pm b1 p1 WB WP WPF AL Lg M C) as (q & pm2 & p3 & FQ & Lg2 & M2 & C2 & AN & LE & AL2).
    destruct (AN f EB eq_refl FW) as (i & E).
    destruct (legal_play _ _ _ _ WB Lg) as (b1' & M' & W1' & _). rewrite M in M'. injection M' as <-.
    pose proof C as CI. apply consume_inv in CI as (_ & _ & _ & WP1 & _); auto.
    pose proof C2 as CI2. apply consume_inv in CI2 as (_ & _ & _ & WP3 & _); auto.
    destruct (IH (mkFac b1 (fmove f ++ [(i, pm2)]) p3) W1' WP1 WP3 eq_refl AL2) as (qs & r & p4 & F & N & A2 & NR & _).
    { cbn. apply Forall_app; split; auto. constructor; auto. cbn. destruct (legal_pm_ok _ _ _ _ Lg2) as (_ & LT & _). exact LT. }
    cbn [fmove] in A2. rewrite <- app_assoc in A2.
    exists (q :: qs), ((i, pm2) :: r), p4. split; auto. split; [cbn; auto|]. split; [cbn [answers]; rewrite E; auto|]. split; [cbn; auto|].
    intros SAME x Ex. injection Ex as <- ->. destruct r; [|discriminate]. exists pm2. split; auto.
Qed.
Lemma new_roll_pool r : a_die (fst r) -> a_die (snd r) -> roll_pool (new_pool r).
Proof.
  intros D1 D2. destruct (proj1 dice_pool r D1 D2) as [WP HD]. exists (fst r), (snd r). split.
  - intros d _ N1 N2. rewrite HD. unfold dice_of. replace (d =? fst r) with false by lia. replace (d =? snd r) with false by lia.
    destruct (fst r =? snd r); lia.
  - destruct (Z.eq_dec (fst r) (snd r)) as [E|N]; auto. right. rewrite !HD. unfold dice_of.
    replace (fst r =? snd r) with false by lia. replace (snd r =? fst r) with false by lia. rewrite !Z.eqb_refl. lia.
Qed.
Lemma every_turn_entered : forall b l b' p', wf_board b -> a_die (fst (rolled b)) -> a_die (snd (rolled b)) ->
  legal_run b (new_pool (rolled b)) l b' p' ->
  exists qs, Forall forward_ask qs /\ List.length qs = List.length l /\
    let f := answers qs (new_factory b None None) in
    fboard f = b' /\ List.length (fmove f) = List.length l /\
    legal_run b (new_pool (rolled b)) (map snd (fmove f)) b' (favail f).
Proof.
  intros b l b' p' WB D1 D2 R. destruct (proj1 dice_pool (rolled b) D1 D2) as [WP HD].
  destruct (enter_run _ _ _ _ _ R (new_factory b None None) WB WP WP eq_refl) as (qs & r & p2 & F & N & A & NR & _).
  { left. split; auto. apply new_roll_pool; auto. }
  { constructor. }
  exists qs. split; auto. split; auto. cbv zeta.
  destruct (answers_run qs (new_factory b None None) F WB WP) as (r2 & b2 & p3 & A2 & R2); [constructor|].
  cbn [new_factory fboard fmove favail app] in *. rewrite A in A2. injection A2 as <- <- <-. rewrite A. cbn [fboard fmove favail]. auto.
Qed.
Lemma fac_add_app l1 : forall l2 f f1, fac_add f l1 = (f1, Ok tt) -> fac_add f (l1 ++ l2) = fac_add f1 l2.
Proof.
  induction l1 as [|x l1 IH]; cbn; intros l2 f f1 H; [injection H as <-; auto|].
  destruct (fac_append f x) as [f2 [[]|e]]; [|discriminate]. eauto.
Qed.
Lemma answers_given qs : forall f, Forall forward_ask qs -> wf_board (fboard f) -> wf_pool (favail f) ->
  Forall (fun x : pobj => forward (snd x)) (fmove f) ->
  exists r b' p', answers qs f = mkFac b' (fmove f ++ r) p' /\ fac_add f r = (mkFac b' (fmove f ++ r) p', Ok tt) /\
    (ids_ok (fmove f) -> ids_ok (fmove f ++ r)).
Proof.
  induction qs as [|q qs IH]; cbn [answers]; intros f F WB WP FW.
  - exists [], (fboard f), (favail f). rewrite app_nil_r. destruct f; cbn. auto.
  - inversion F; subst. destruct (answer_run (fun _ => 0) q f H1 WB WP FW) as (r & b' & p' & E & R & FA & I). rewrite E.
    destruct (run_pips _ _ _ _ _ R WB WP) as (W1 & _). pose proof (run_pool _ _ _ _ _ R WP) as W2.
    destruct (IH (mkFac b' (fmove f ++ r) p') H2 W1 W2) as (r2 & b2 & p2 & E2 & FA2 & I2).
    { cbn. apply Forall_app; split; auto. apply run_stepping in R. apply (proj1 (Forall_map snd stepping r)) in R.
      eapply Forall_impl; [|exact R]. intros x HX; apply HX. }
    cbn [fboard favail fmove] in *. exists (r ++ r2), b2, p2. rewrite E2, app_assoc. split; auto. split; auto.
    rewrite (fac_add_app _ _ _ _ FA). auto.
Qed.
Lemma every_rule_turn_entered : forall b l b' p', wf_board b -> a_die (fst (rolled b)) -> a_die (snd (rolled b)) ->
  player (on_inner_action b) -> by_the_rules b l b' p' ->
  exists qs, Forall forward_ask qs /\ List.length qs = List.length l /\
    let f := answers qs (new_factory b None None) in
    fboard f = b' /\ by_the_rules b (map snd (fmove f)) b' (favail f) /\ snd (fac_pickupdice f) = Ok tt.
Proof.
  intros b l b' p' WB D1 D2 PI (R & LONG & LARGE). destruct (proj1 dice_pool (rolled b) D1 D2) as [WP HD].
  destruct (enter_run _ _ _ _ _ R (new_factory b None None) WB WP WP eq_refl) as (qs & r & p2 & F & N & A & NR & ONE).
  { left. split; auto. apply new_roll_pool; auto. }
  { constructor. }
  exists qs. split; auto. split; auto. cbv zeta.
  destruct (answers_run qs (new_factory b None None) F WB WP) as (r2 & b2 & p3 & A2 & R2); [constructor|].
  cbn [new_factory fboard fmove favail app] in *. rewrite A in A2. injection A2 as <- <- <-. rewrite A. cbn [fboard fmove favail].
  split; auto.
  assert (BR : by_the_rules b (map snd r) b' p2).
  { split; auto. split.
    - intros l2 b2 p3 RR. rewrite map_length. apply LONG in RR. rewrite <- NR in RR. exact RR.
    - intros q s pm E Lg.
      assert (List.length l = 1%nat) as L1.
      { apply (f_equal (@List.length _)) in E. rewrite map_length in E. cbn in E. rewrite <- NR. exact E. }
      destruct l as [|x [|]]; try discriminate. destruct (ONE eq_refl x eq_refl) as (y & Ey & LE).
      rewrite E in Ey. injection Ey as <-. pose proof (LARGE x s pm eq_refl Lg). lia. }
  split; auto.
  destruct (answers_given qs (new_factory b None None) F WB WP) as (r2 & b2 & p3 & A2 & FA & I); [constructor|].
  cbn [new_factory fmove app] in A2, FA, I. change (mkFac b [] (new_pool (rolled b))) with (new_factory b None None) in *.
  rewrite A in A2. injection A2 as <- <- <-.
  destruct (rules_picked_up b r (mkFac b' r p2) WB D1 D2 PI) as (b3 & ->); auto.
  apply I. intros x y [].
Qed.
