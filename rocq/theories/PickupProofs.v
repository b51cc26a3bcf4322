From Coq Require Import ZifyBool ZifyNat Permutation.
From Verif Require Import Py PyFacts UtilModel BoardModel BoardSpec BoardProofs MoveModel MoveSpec PoolProofs MoveProofs GuessProofs.

(* ---------- taking back a whole list ---------- *)
Lemma dm_inverse m pm k : dm m (inverse pm) k = - dm m pm k.
Proof. unfold dm, inverse; cbn. lia. Qed.
Lemma dh_inverse h pm k : sane pm -> dh h (inverse pm) k = - dh h pm k.
Proof.
  intros S. assert (V : are_invertible pm (inverse pm) = true) by (apply invertible_spec; cbn; auto).
  pose proof (inv_cancel_h _ _ h k V S). lia.
Qed.
Lemma sum_over_opp {A} (f g : A -> Z) l : (forall x, In x l -> f x = - g x) -> sum_over f l = - sum_over g l.
Proof.
  induction l as [|x l IH]; intros H; rewrite ?sum_over_cons; auto. rewrite H by (cbn; auto).
  rewrite IH by (intros; apply H; cbn; auto). lia.
Qed.
Lemma sum_over_map {A B} (f : B -> Z) (g : A -> B) l : sum_over f (map g l) = sum_over (fun x => f (g x)) l.
Proof. induction l as [|x l IH]; auto. cbn [map]. rewrite !sum_over_cons, IH; auto. Qed.
Lemma make_all_inverse l b b' : Forall sane l -> make_all l b = (b', Ok tt) ->
  make_all (map inverse l) b' = (b, Ok tt).
Proof.
  intros S H. destruct (make_all_not_player _ _ _ H) as [->|P]; [injection H as <-; auto|].
  apply make_all_sides in H as (m & h & H & ->); auto.
  destruct (place_sides b m h P) as (S1 & S2 & S3).
  apply make_all_sides; [rewrite S3; auto|]. unfold mover. rewrite S3, S1, S2.
  exists (mover b), (side b (other (on_action b))). split; [|rewrite place_place, place_self; auto].
  apply all_sides_add in H as (A & L1 & L2 & M & Hh). apply all_sides_add.
  rewrite Forall_forall in S.
  refine (conj _ (conj (eq_sym L1) (conj (eq_sym L2) (conj _ _)))).
  - intros q Hq. apply in_map_iff in Hq as (pm & <- & Hpm). destruct (A pm Hpm) as [[OM1 OM2] OH].
    split.
    + unfold okm, inverse; cbn. rewrite !(pyix_len m (mover b)) by auto. auto.
    + intros HH. unfold okh, hitpt, is_undo, inverse in *; cbn in *. specialize (OH HH).
      rewrite !(pyix_len h (side b (other (on_action b)))) by auto.
      assert (src pm <> dest pm) by (intros E; apply (S pm Hpm) in E; congruence).
      destruct (src pm <? dest pm) eqn:Q, (dest pm <? src pm) eqn:R; try lia; auto.
  - intros k. rewrite M, sum_over_map.
    rewrite (sum_over_opp (fun x => dm m (inverse x) k) (fun x => dm (mover b) x k)); [unfold mover; lia|].
    intros x _. rewrite dm_inverse. rewrite (dm_len m (mover b)); auto.
  - intros k. rewrite Hh, sum_over_map.
    rewrite (sum_over_opp (fun x => dh h (inverse x) k) (fun x => dh (side b (other (on_action b))) x k)); [lia|].
    intros x Hx. rewrite dh_inverse by (apply S; auto). rewrite (dh_len h (side b (other (on_action b)))); auto.
Qed.

Lemma forward_sane pm : forward pm -> sane pm.
Proof. unfold forward, sane; intros; lia. Qed.
Lemma inverse_exact p pm : are_invertible p (inverse pm) = true -> p = pm.
Proof.
  rewrite invertible_spec. destruct p, pm; cbn. intros (-> & -> & -> & ->); auto.
Qed.
Lemma rewind r : forall n f b0, wf_pool (favail f) -> ids_ok (fmove f) ->
  Permutation (map snd (fmove f)) (map snd r) -> Forall (fun x : pobj => stepping (snd x)) r ->
  make_all (map inverse (map snd r)) (fboard f) = (b0, Ok tt) ->
  exists f1, fac_add f (inverses_from n r) = (f1, Ok tt) /\ fmove f1 = [] /\ fboard f1 = b0 /\ wf_pool (favail f1).
Proof.
  induction r as [|[i pm] r IH]; intros n f b0 WP I PM ST MA.
  - cbn in *. injection MA as <-. exists f; repeat split; auto; try apply WP.
    apply Permutation_sym, Permutation_nil, map_eq_nil in PM; auto.
  - cbn [inverses_from fac_add]. inversion ST as [|? ? (D & F & OK) ST']; subst. cbn [snd] in D, F, OK.
    unfold fac_append. cbn [snd]. change (inv_pm pm) with (inverse pm).
    assert (U : is_undo (inverse pm) = true) by (unfold is_undo, inverse, forward in *; cbn; lia).
    rewrite U. cbn [inverse die]. fold (inverse pm).
    destruct (pool_add (favail f) (die pm)) as [p|e] eqn:PA; [|rewrite add_ok in PA by auto; discriminate].
    apply add_inv in PA as (_ & _ & W' & _); auto.
    cbn [map snd make_all] in MA. destruct (make_partial_move (inverse pm) (fboard f)) as [b1 [[]|e]] eqn:M; [|discriminate].
    apply IH; auto; cbn [favail fmove fboard].
    + eapply ids_incl; [|exact I].
      destruct (mv_append_cases (fmove f) (n, inverse pm) I) as [[_ N]|(p0 & _ & _ & -> & _)].
      * exfalso. assert (In pm (map snd (fmove f))) as IM by (eapply Permutation_in; [apply Permutation_sym; exact PM|cbn; auto]).
        apply in_map_iff in IM as (x & Ex & Hx). specialize (N x Hx). rewrite Ex in N.
        assert (V : are_invertible pm (inverse pm) = true) by (apply invertible_spec; cbn; auto). cbn in N; congruence.
      * intros x; apply remove_obj_in.
    + destruct (mv_append_cases (fmove f) (n, inverse pm) I) as [[_ N]|(p0 & H0 & V & _ & PP)].
      * exfalso. assert (In pm (map snd (fmove f))) as IM by (eapply Permutation_in; [apply Permutation_sym; exact PM|cbn; auto]).
        apply in_map_iff in IM as (x & Ex & Hx). specialize (N x Hx). rewrite Ex in N.
        assert (V : are_invertible pm (inverse pm) = true) by (apply invertible_spec; cbn; auto). cbn in N; congruence.
      * cbn [snd] in V. apply inverse_exact in V.
        apply (Permutation_map snd) in PP. cbn [map] in PP. rewrite V in PP.
        apply Permutation_cons_inv with (a := pm). rewrite <- PP. exact PM.
Qed.

(* forward moves never cancel each other *)
Lemma mv_add_forward r : forall l, Forall (fun x : pobj => forward (snd x)) (l ++ r) -> mv_add l r = l ++ r.
Proof.
  unfold mv_add; induction r as [|q r IH]; cbn; intros l F; [rewrite app_nil_r; auto|].
  assert (E : mv_append l q = l ++ [q]).
  { unfold mv_append. match goal with |- context [find ?f ?z] => destruct (find f z) as [p|] eqn:E end; auto.
    apply find_some in E as [E1 E2]. rewrite <- in_rev in E1. apply invertible_spec in E2 as (_ & A & B & _).
    rewrite Forall_forall in F. pose proof (F p ltac:(apply in_app_iff; auto)).
    pose proof (F q ltac:(apply in_app_iff; cbn; auto)). unfold forward in *. lia. }
  rewrite E, IH; rewrite <- app_assoc; auto.
Qed.

Lemma any_single_spec b p l : wf_board b -> wf_pool p -> (forall s, In s l -> 0 <= s <= 24) ->
  exists r, any_single b p l = Ok r /\ (r = true <-> exists s pm, In s l /\ legal b p s pm).
Proof.
  intros WB WP. induction l as [|s l IH]; intros H; cbn [any_single].
  - exists false; split; auto. split; [discriminate|]. intros (s & pm & [] & _).
  - rewrite has_spec by (auto; apply H; cbn; auto). cbn [bind].
    destruct IH as (r & E & R); [intros; apply H; cbn; auto|].
    assert (Hs : 0 <= s <= 24) by (apply H; cbn; auto).
    destruct (eff (mover b) s =? 0) eqn:EF.
    + exists r; split; auto. rewrite R. split; [intros (k & pm & I & L); exists k, pm; cbn; auto|].
      intros (k & pm & [<-|I] & L); eauto. exfalso.
      destruct L as (_ & _ & _ & _ & A & B & _). assert (eff (mover b) s <> 0) by (apply eff_nonzero; auto). lia.
    + destruct (single_from_source_best b p s WB WP Hs) as (o & Eo & B). rewrite Eo. cbn [bind].
      destruct o as [pm|].
      * exists true; split; auto. split; auto. intros _. exists s, pm; cbn. split; auto. apply B.
      * exists r; split; auto. rewrite R. split; [intros (k & pm & I & L); exists k, pm; cbn; auto|].
        intros (k & pm & [<-|I] & L); eauto. exfalso; eapply B; eauto.
Qed.
Lemma any_double_dst_same b p s l : wf_board b -> wf_pool p -> 0 <= s <= 24 -> (forall t, In t l -> 0 <= t < s /\ t <= 23) ->
  exists r, any_double_dst b p s l = (b, Ok r) /\
    (r = true -> exists t c, chain b p s t c /\ List.length c = 2%nat).
Proof.
  intros WB WP Hs. induction l as [|t l IH]; intros H; cbn [any_double_dst];
    [exists false; split; [auto|discriminate]|].
  destruct (H t (or_introl eq_refl)) as [Ht Ht2].
  rewrite open_spec, hitting_spec by (auto; lia). cbn [bind].
  assert (IH' : exists r, any_double_dst b p s l = (b, Ok r) /\
    (r = true -> exists t c, chain b p s t c /\ List.length c = 2%nat)) by (apply IH; intros; apply H; cbn; auto).
  destruct (if opposing b t <? 2 then Ok true else Ok (opposing b t =? 1)) as [[]|e] eqn:Q.
  - destruct (multiple_sound b p s t WB WP ltac:(lia) ltac:(lia)) as (p' & o & E & CH). rewrite E.
    destruct o as [r|]; auto. destruct (Nat.eqb (List.length r) 2) eqn:L2; auto.
    exists true; split; auto. intros _. exists t, (map snd r). split; [apply CH; auto|].
    rewrite map_length. apply Nat.eqb_eq; auto.
  - auto.
  - destruct (opposing b t <? 2); discriminate.
Qed.
Lemma any_double_same b p l : wf_board b -> wf_pool p -> (forall s, In s l -> 0 <= s <= 23) ->
  exists r, any_double b p l = (b, Ok r) /\
    (r = true -> exists s t c, chain b p s t c /\ List.length c = 2%nat).
Proof.
  intros WB WP. induction l as [|s l IH]; intros H; cbn [any_double];
    [exists false; split; [auto|discriminate]|].
  assert (Hs : 0 <= s <= 23) by (apply H; cbn; auto).
  rewrite has_spec by (auto; lia).
  assert (IH' : exists r, any_double b p l = (b, Ok r) /\
    (r = true -> exists s t c, chain b p s t c /\ List.length c = 2%nat)) by (apply IH; intros; apply H; cbn; auto).
  destruct (eff (mover b) s =? 0); auto.
  destruct (any_double_dst_same b p s (zrange 0 s) WB WP ltac:(lia)) as (r & E & R).
  { intros t Ht; apply In_zrange in Ht; lia. }
  rewrite E. destruct r; auto. exists true; split; auto. intros _. destruct (R eq_refl) as (t & c & ?). eauto.
Qed.

Lemma make_all_frame l b b' f : make_all l b = (b', Ok tt) -> f <> FPosition -> agree f b b'.
Proof.
  revert b; induction l as [|pm l IH]; cbn; intros b H N; [injection H as <-; destruct f; cbn; auto|].
  destruct (make_partial_move pm b) as [b1 [[]|e]] eqn:M; [|discriminate].
  destruct (proj1 move_conserves b pm b1 M) as (_ & _ & CH).
  eapply agree_trans; [apply CH|apply IH; auto]. cbn; intuition congruence.
Qed.

Lemma inverses_snd l : forall n, map snd (inverses_from n l) = map inverse (map snd l).
Proof. induction l as [|[i pm] l IH]; intros n; cbn; auto. rewrite IH; auto. Qed.
Lemma used_inverse l d : Forall forward l -> used (map inverse l) d = - used l d.
Proof.
  induction 1 as [|pm l F H IH]; cbn; auto. fold (used (map inverse l) d). fold (used l d). rewrite IH.
  unfold forward in F. replace (src pm <? dest pm) with false by lia. replace (dest pm <? src pm) with true by lia.
  destruct (die pm =? d); lia.
Qed.
Lemma new_pool_y y : a_die y -> wf_pool (new_pool (y, 0)) /\ forall k, a_die k -> held (new_pool (y, 0)) k > 0 -> k = y.
Proof.
  intros DY. unfold new_pool; cbn [fst snd].
  unfold a_die in *. replace (y =? 0) with false by lia. split.
  - unfold empty_pool. assert (y = 1 \/ y = 2 \/ y = 3 \/ y = 4 \/ y = 5 \/ y = 6) as C by lia.
    destruct C as [->|[->|[->|[->|[->| ->]]]]]; cbn; (split; [repeat constructor; cbn; intuition discriminate|]);
      (split; [unfold a_die; cbn; intros; lia|]); repeat constructor; cbn; lia.
  - intros k Hk. rewrite !held_dset, held_empty. destruct (k =? 0) eqn:A, (k =? y) eqn:B; lia.
Qed.

Lemma pickup_query : forall b0 l f, wf_board b0 -> a_die (fst (rolled b0)) -> a_die (snd (rolled b0)) ->
  ids_ok l -> Forall (fun x => stepping (snd x)) l ->
  fac_add (new_factory b0 None None) l = (f, Ok tt) -> wf_board (fboard f) ->
  exists b' r, is_leagal_to_pickup_dice f = (b', Ok r) /\
    (b' = fboard f \/
     (b' = b0 /\ fst (rolled b0) <> snd (rolled b0) /\ pool_len (favail f) <> 0 /\ no_step (fboard f) (favail f))) /\
    (pool_len (favail f) = 0 -> r = true) /\
    (count (mover (fboard f)) 24 = 0 -> (exists s pm, legal (fboard f) (favail f) s pm) -> r = false) /\
    (r = false ->
       (exists s pm, legal (fboard f) (favail f) s pm) \/
       (exists s t c, chain b0 (new_pool (rolled b0)) s t c /\ List.length c = 2%nat) \/
       (exists s pm, legal b0 (new_pool (rolled b0)) s pm /\ held (favail f) (die pm) > 0 /\
          forall k, a_die k -> die pm < k -> dice_of (rolled b0) k = 0)).
Proof.
  intros b0 l f WB0 D1 D2 I ST FA WB.
  destruct (proj1 dice_pool (rolled b0) D1 D2) as [W0 HD].
  apply fac_add_ok in FA as (WP & MV & MA & HF); auto. cbn [new_factory fmove fboard favail] in MV, MA, HF.
  rewrite mv_add_forward in MV.
  2:{ cbn. eapply Forall_impl; [|exact ST]. intros x (_ & F & _); auto. }
  cbn in MV.
  assert (RL : rolled (fboard f) = rolled b0).
  { symmetry. apply (make_all_frame _ _ _ FRolled MA). discriminate. }
  assert (LEN : (exists s pm, legal (fboard f) (favail f) s pm) -> pool_len (favail f) <> 0).
  { intros (s & pm & _ & H & _). pose proof (held_le_len _ (die pm) WP). lia. }
  unfold is_leagal_to_pickup_dice. rewrite RL.
  assert (ZP : zpair_eqb (rolled b0) (0, 0) = false).
  { unfold zpair_eqb, a_die in *. cbn. lia. }
  rewrite ZP. destruct (pool_len (favail f) =? 0) eqn:PL.
  { eexists _, _; split; [reflexivity|]. split; auto. split; auto. split; [|discriminate].
    intros _ L. apply LEN in L. lia. }
  change BAR with 24. rewrite has_spec by (auto; lia).
  assert (SB : exists o, (if eff (mover (fboard f)) 24 =? 0 then Ok (Some (mkPM 0 0 0 false))
                          else guess_single_from_source (fboard f) (favail f) 24) = Ok o /\
               (o = None -> count (mover (fboard f)) 24 <> 0)).
  { destruct (eff (mover (fboard f)) 24 =? 0) eqn:Q; [eexists; split; [reflexivity|discriminate]|].
    destruct (single_from_source_best (fboard f) (favail f) 24 WB WP ltac:(lia)) as (o & E & _).
    exists o; split; auto. intros _. assert (N : eff (mover (fboard f)) 24 <> 0) by lia.
    apply eff_nonzero in N; auto; lia. }
  destruct SB as (o & -> & NB). destruct o as [pm0|].
  2:{ eexists _, _; split; [reflexivity|]. split; auto. split; auto. split; [|discriminate].
      intros C _. exfalso. apply NB; auto. }
  destruct (any_single_spec (fboard f) (favail f) POINTS WB WP) as (r & E & R).
  { intros s Hs; apply In_zrange in Hs; lia. }
  rewrite E. destruct r.
  { eexists _, _; split; [reflexivity|]. split; auto. split; [lia|]. split; auto.
    intros _. left. destruct (proj1 R eq_refl) as (s & pm & _ & L). eauto. }
  assert (NS : no_step (fboard f) (favail f)).
  { intros s pm Hs L. assert (false = true) by (apply R; exists s, pm; split; auto; apply In_zrange; lia). discriminate. }
  assert (NB0 : count (mover (fboard f)) 24 = 0 -> (exists s pm, legal (fboard f) (favail f) s pm) -> False).
  { intros C (s & pm & L). apply (NS s pm); auto. destruct L as (_ & _ & _ & Hs & A & _).
    destruct (Z.eq_dec s 24) as [->|]; lia. }
  unfold is_doubles, has_rolled. rewrite RL, ZP. cbn [negb].
  destruct (fst (rolled b0) =? snd (rolled b0)) eqn:DB.
  { eexists _, _; split; [reflexivity|]. split; auto. split; auto. split; [|discriminate].
    intros C L. exfalso; auto. }
  unfold new_factory. rewrite PL. cbn [fmove].
  destruct (rewind l (fresh (fmove f)) (mkFac (fboard f) (fmove f) (favail f)) b0) as (mf & FE & FM & FB & FP); cbn [favail fmove fboard]; auto.
  { rewrite MV; auto. }
  { rewrite MV; auto. }
  { apply make_all_inverse; auto. apply Forall_forall. intros pm Hpm. apply in_map_iff in Hpm as (x & <- & Hx).
    rewrite Forall_forall in ST. apply forward_sane. apply ST; auto. }
  pose proof FE as FE'. apply fac_add_ok in FE' as (_ & _ & _ & HM); auto. cbn [favail] in HM.
  rewrite MV in *. rewrite FE, FM, FB. cbn [List.length Nat.eqb negb].
  assert (HMD : forall d, held (favail mf) d = dice_of (rolled b0) d).
  { intros d. rewrite HM, HF, HD, inverses_snd, used_inverse; [lia|].
    apply Forall_forall. intros pm Hpm. apply in_map_iff in Hpm as (x & <- & Hx).
    rewrite Forall_forall in ST. apply ST; auto. }
  destruct (any_double_same b0 (favail mf) POINTS WB0 FP) as (r & ED & RD).
  { intros s Hs; apply In_zrange in Hs; lia. }
  rewrite ED.
  assert (BACK : b0 = b0 /\ fst (rolled b0) <> snd (rolled b0) /\ pool_len (favail f) <> 0 /\ no_step (fboard f) (favail f))
    by (repeat split; auto; lia).
  destruct r.
  { eexists _, _; split; [reflexivity|]. split; auto. split; [lia|]. split; auto.
    intros _. right; left. destruct (RD eq_refl) as (s & t & c & CH & L2). exists s, t, c; split; auto.
    eapply chain_mono; eauto. intros d; rewrite HMD, HD; lia. }
  destruct (get_max_spec _ WP) as (m & EM & X). destruct (get_max_spec _ FP) as (m1 & EM1 & X1).
  rewrite EM, EM1. cbn [bind].
  assert (YES : exists b' r, (b0, Ok true) = (b', Ok r) /\
    (b' = fboard f \/ (b' = b0 /\ fst (rolled b0) <> snd (rolled b0) /\ pool_len (favail f) <> 0 /\ no_step (fboard f) (favail f))) /\
    (pool_len (favail f) = 0 -> r = true) /\
    (count (mover (fboard f)) 24 = 0 -> (exists s pm, legal (fboard f) (favail f) s pm) -> r = false) /\
    (r = false ->
       (exists s pm, legal (fboard f) (favail f) s pm) \/
       (exists s t c, chain b0 (new_pool (rolled b0)) s t c /\ List.length c = 2%nat) \/
       (exists s pm, legal b0 (new_pool (rolled b0)) s pm /\ held (favail f) (die pm) > 0 /\
          forall k, a_die k -> die pm < k -> dice_of (rolled b0) k = 0))).
  { eexists _, _; split; [reflexivity|]. split; auto. split; auto. split; [|discriminate]. intros C L; exfalso; auto. }
  destruct m as [x|], m1 as [y|]; try exact YES.
  destruct (x =? y) eqn:XY; cbn [negb]; [|exact YES].
  cbn [is_max] in X, X1. destruct X1 as (DY & HY & TOP). destruct (new_pool_y y DY) as [WY HYK].
  destruct (any_single_spec b0 (new_pool (y, 0)) POINTS WB0 WY) as (r & ES & RS).
  { intros s Hs; apply In_zrange in Hs; lia. }
  rewrite ES. cbn [bind]. destruct r; cbn [negb]; [|exact YES].
  eexists _, _; split; [reflexivity|]. split; auto. split; [lia|]. split; auto.
  intros _. right; right. destruct (proj1 RS eq_refl) as (s & pm & _ & L). exists s, pm.
  assert (die pm = y) as DPM by (destruct L as (A & B & _); apply HYK; auto).
  split; [|split].
  - eapply legal_pool; [|exact L]. intros _. rewrite DPM, HD, <- HMD. lia.
  - rewrite DPM. replace y with x by lia. destruct X as (_ & A & _). lia.
  - intros k Dk Hk. rewrite <- HMD. apply TOP; auto. lia.
Qed.

(* a chequer was moved and the board is given back without it *)
Lemma pickup_query_refuted : exists b0 pm f b' r, wf_board b0 /\ stepping pm /\
  fac_add (new_factory b0 None None) [(1%nat, pm)] = (f, Ok tt) /\
  is_leagal_to_pickup_dice f = (b', Ok r) /\ b' <> fboard f.
Proof.
  exists (sample [(12, 1)] [(18, 2)] (6, 1)), (mkPM 6 12 6 false). eexists _, _, _.
  split; [apply wf_sample; auto|].
  split; [unfold stepping, a_die, forward, pm_ok; cbn; repeat split; try lia; discriminate|].
  split; [vm_compute; reflexivity|]. split; [vm_compute; reflexivity|]. vm_compute; discriminate.
Qed.
(* a chequer on the bar can enter, and the dice may be picked up *)
Lemma pickup_bar_refuted : exists b pm, wf_board b /\ a_die (fst (rolled b)) /\ a_die (snd (rolled b)) /\
  legal b (new_pool (rolled b)) 24 pm /\
  snd (is_leagal_to_pickup_dice (new_factory b None None)) = Ok true.
Proof.
  exists (sample [(24, 1)] [(0, 2)] (6, 5)), (mkPM 6 24 18 false).
  split; [apply wf_sample; auto|]. split; [unfold a_die; cbn; lia|]. split; [unfold a_die; cbn; lia|].
  split; [|vm_compute; auto].
  unfold legal. repeat match goal with |- _ /\ _ => split end; try num. 
  left. repeat match goal with |- _ /\ _ => split end; try num.
Qed.
(* both dice could be played with two chequers, one die was, and the dice may be picked up *)
Lemma pickup_two_refuted : exists b p6 f b1 q6 q1, wf_board b /\
  legal b (new_pool (rolled b)) (src p6) p6 /\ fac_add (new_factory b None None) [(1%nat, p6)] = (f, Ok tt) /\
  snd (is_leagal_to_pickup_dice f) = Ok true /\
  die q6 <> die q1 /\ legal b (new_pool (rolled b)) (src q6) q6 /\ make_partial_move q6 b = (b1, Ok tt) /\
  legal b1 (new_pool (rolled b)) (src q1) q1.
Proof.
  exists (sample [(20, 1); (12, 1)] [(10, 2); (12, 2); (18, 2)] (6, 1)), (mkPM 6 20 14 false).
  eexists _, _, (mkPM 6 12 6 false), (mkPM 1 20 19 false).
  split; [apply wf_sample; auto|]. split.
  { unfold legal. repeat match goal with |- _ /\ _ => split end; try num. 
    left. repeat match goal with |- _ /\ _ => split end; try num. }
  split; [vm_compute; reflexivity|]. split; [vm_compute; auto|]. split; [discriminate|]. split.
  { unfold legal. repeat match goal with |- _ /\ _ => split end; try num. 
    left. repeat match goal with |- _ /\ _ => split end; try num. }
  split; [vm_compute; reflexivity|].
  unfold legal. repeat match goal with |- _ /\ _ => split end; try num. 
  left. repeat match goal with |- _ /\ _ => split end; try num.
Qed.
