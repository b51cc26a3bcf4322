(* Properties C19-C29 and C73: dice pool, moves and the move factory. *)
From Verif Require Import Py UtilModel BoardModel BoardSpec MoveModel MoveSpec PoolProofs MoveProofs GuessProofs PickupProofs.

(* C19: the pool holds the dice of the roll, through any history of calls *)
Theorem C19_dice_pool :
  (* a fresh pool holds exactly the dice of the roll *)
  (forall r, a_die (fst r) -> a_die (snd r) ->
     wf_pool (new_pool r) /\ (forall d, held (new_pool r) d = dice_of r d)) /\
  (* after any history of calls: counts, length, doubles and maximum *)
  (forall r ops, a_die (fst r) -> a_die (snd r) ->
     let p := fold_left pool_step ops (new_pool r) in
     wf_pool p /\ (forall k, held p k = fold_left held_step ops (dice_of r) k) /\
     pool_len p = held p 1 + held p 2 + held p 3 + held p 4 + held p 5 + held p 6 /\
     (pool_is_doubles p = true <-> exists d, a_die d /\ 1 < held p d) /\
     exists o, get_max p = Ok o /\
       match o with
       | None => forall d, a_die d -> held p d = 0
       | Some d => a_die d /\ 0 < held p d /\ forall k, a_die k -> d < k -> held p k = 0
       end) /\
  (* consuming fails exactly when there is no such die; adding then consuming is the identity *)
  (forall p d, wf_pool p -> a_die d ->
     (held p d = 0 -> consume p d = Exc TypeError) /\
     (0 < held p d -> exists p', consume p d = Ok p' /\ pool_add p' d = Ok p) /\
     (exists p', pool_add p d = Ok p' /\ consume p' d = Ok p)) /\
  (forall p d, ~ a_die d -> consume p d = Exc AssertionError /\ pool_add p d = Exc AssertionError).
Proof. exact dice_pool. Qed.
Print Assumptions C19_dice_pool.
Example C19_case : a_die 3 /\ a_die 1 /\ pool_len (fold_left pool_step [PConsume 3; PConsume 3; PAdd 6] (new_pool (3, 1))) = 2 /\
  get_max (fold_left pool_step [PConsume 3; PConsume 3; PAdd 6] (new_pool (3, 1))) = Ok (Some 6) /\
  pool_is_doubles (fold_left pool_step [PConsume 2; PConsume 2] (new_pool (2, 2))) = true /\ pool_is_doubles (fold_left pool_step [PConsume 2; PConsume 2; PConsume 2] (new_pool (2, 2))) = false.
Proof. unfold a_die. vm_compute. repeat split; congruence. Qed.

(* C20: the normalised list has the effect of everything appended *)
Theorem C20_normal_same_effect : forall l, ids_ok l -> Forall (fun x => sane (snd x)) l ->
  forall b b', make_all (map snd l) b = (b', Ok tt) -> make_all (map snd (mv_add [] l)) b = (b', Ok tt).
Proof. exact normal_same_effect. Qed.
Print Assumptions C20_normal_same_effect.
Example C20_case : let l := [(1%nat, mkPM 6 12 6 false); (2%nat, mkPM 1 6 5 false); (3%nat, mkPM 1 5 6 false)] in
  ids_ok l /\ Forall (fun x => sane (snd x)) l /\ snd (make_all (map snd l) opening61) = Ok tt /\
  mv_add [] l = [(1%nat, mkPM 6 12 6 false)].
Proof.
  cbv zeta. split; [intros x y [<-|[<-|[<-|[]]]] [<-|[<-|[<-|[]]]]; cbn; auto; discriminate|].
  split; [repeat constructor; discriminate|]. split; vm_compute; auto.
Qed.

(* C21: no two entries of a normalised list cancel *)
Theorem C21_no_cancelling_pair : forall l i j x y,
  nth_error (mv_add [] l) i = Some x -> nth_error (mv_add [] l) j = Some y -> i <> j ->
  snd y <> inverse (snd x).
Proof. exact no_cancelling_pair. Qed.
Print Assumptions C21_no_cancelling_pair.
Example C21_case : let l := [(1%nat, mkPM 6 12 6 false); (2%nat, mkPM 6 6 12 false); (3%nat, mkPM 1 7 6 false)] in
  mv_add [] l = [(3%nat, mkPM 1 7 6 false)].
Proof. vm_compute. auto. Qed.

(* C22, for moves whose ends differ: dice in the pool and dice in the list add up to the roll,
   and the list replays to the board.  Missing: dances, see below *)
Theorem C22_dice_conserved_partial : forall b l f, a_die (fst (rolled b)) -> a_die (snd (rolled b)) ->
  ids_ok l -> Forall (fun x => src (snd x) <> dest (snd x)) l ->
  fac_add (new_factory b None None) l = (f, Ok tt) ->
  (forall d, held (favail f) d + used (map snd (fmove f)) d = dice_of (rolled b) d) /\
  make_all (map snd (fmove f)) b = (fboard f, Ok tt).
Proof. exact dice_conserved. Qed.
Print Assumptions C22_dice_conserved_partial.
Example C22_case : let l := [(1%nat, mkPM 6 12 6 false); (2%nat, mkPM 1 6 5 false); (3%nat, mkPM 1 5 6 false)] in
  Forall (fun x => src (snd x) <> dest (snd x)) l /\ snd (fac_add (new_factory opening61 None None) l) = Ok tt /\
  held (favail (fst (fac_add (new_factory opening61 None None) l))) 1 = 1.
Proof. cbv zeta. split; [repeat constructor; discriminate|]. vm_compute; auto. Qed.

(* C22 fails for dances: two equal dances cancel in the list and both cost a die *)
Theorem C22_dance_refuted : exists b l f, a_die (fst (rolled b)) /\ a_die (snd (rolled b)) /\ ids_ok l /\
  Forall (fun x => src (snd x) = dest (snd x)) l /\
  fac_add (new_factory b None None) l = (f, Ok tt) /\
  held (favail f) 3 + used (map snd (fmove f)) 3 <> dice_of (rolled b) 3.
Proof. exact dice_dance_refuted. Qed.
Print Assumptions C22_dance_refuted.

(* C23: when append raises, board and pool are as before; the list is not.
   Missing: an unchanged list, see below *)
Theorem C23_append_exact_partial : forall f pm, wf_board (fboard f) -> wf_pool (favail f) -> pm_ok (snd pm) ->
  let d := die (snd pm) in
  (forall f' e, fac_append f pm = (f', Exc e) ->
     (~ a_die d \/ (dest (snd pm) <= src (snd pm) /\ held (favail f) d = 0)) /\
     fboard f' = fboard f /\ favail f' = favail f /\ fmove f' = mv_append (fmove f) pm) /\
  (a_die d -> src (snd pm) < dest (snd pm) \/ 0 < held (favail f) d ->
     exists f', fac_append f pm = (f', Ok tt)).
Proof. exact append_exact. Qed.
Print Assumptions C23_append_exact_partial.
Example C23_case : wf_board (fboard (new_factory opening31 None None)) /\ wf_pool (favail (new_factory opening31 None None)) /\
  pm_ok (mkPM 3 7 4 false) /\ snd (fac_append (new_factory opening31 None None) (1%nat, mkPM 3 7 4 false)) = Ok tt.
Proof.
  split; [split; [left; reflexivity|split; split; try reflexivity; vm_compute; repeat constructor; discriminate]|].
  split; [apply wf_new_pool; right; unfold a_die; cbn; split; split; discriminate|].
  split; [unfold pm_ok; cbn; repeat split; discriminate|vm_compute; auto].
Qed.

(* C23, any factory at all *)
Theorem C23_failure_partial : forall f pm f' e, fac_append f pm = (f', Exc e) ->
  fboard f' = fboard f /\ fmove f' = mv_append (fmove f) pm /\
  (favail f' = favail f \/
   (exists e', make_partial_move (snd pm) (fboard f) = (fboard f, Exc e')) ).
Proof. exact append_failure. Qed.
Print Assumptions C23_failure_partial.

(* C23 fails: the list keeps a move whose die was not available *)
Theorem C23_atomic_refuted : exists f pm f' e, wf_board (fboard f) /\ wf_pool (favail f) /\ pm_ok (snd pm) /\
  fac_append f pm = (f', Exc e) /\ fmove f' <> fmove f.
Proof. exact append_atomic_refuted. Qed.
Print Assumptions C23_atomic_refuted.

(* C24: the guess from a source is the legal step with the largest die, or none exists *)
Theorem C24_from_source : forall b p s, wf_board b -> wf_pool p -> 0 <= s <= 24 ->
  exists o, guess_single_from_source b p s = Ok o /\
    match o with
    | Some pm => legal b p s pm /\ forall q, legal b p s q -> die q <= die pm
    | None => forall q, ~ legal b p s q
    end.
Proof. exact single_from_source_best. Qed.
Print Assumptions C24_from_source.
Example C24_case : wf_board (sample [(10, 2)] [(19, 1); (18, 2)] (6, 5)) /\ wf_pool (new_pool (6, 5)) /\
  guess_single_from_source (sample [(10, 2)] [(19, 1); (18, 2)] (6, 5)) (new_pool (6, 5)) 10 = Ok (Some (mkPM 6 10 4 true)).
Proof.
  split; [apply wf_sample; auto|]. split; [apply wf_new_pool; right; unfold a_die; cbn; split; split; discriminate|].
  vm_compute; auto.
Qed.

(* C25: the guess from a destination, where no die reaches beyond the bar; bearing off is sound.
   Missing: the three failures below *)
Theorem C25_from_dest_partial : forall b p, wf_board b -> wf_pool p ->
  (forall t, 0 <= t <= 23 -> (forall d, a_die d -> held p d > 0 -> t + d <= 24) ->
     exists o, guess_single_from_dest b p t = (p, Ok o) /\
       match o with
       | Some pm => dest pm = t /\ legal b p (src pm) pm /\ forall q s, legal b p s q -> dest q = t -> die q <= die pm
       | None => forall q s, legal b p s q -> dest q <> t
       end) /\
  (exists p' o, guess_single_from_dest b p (-1) = (p', Ok o) /\
       match o with
       | Some pm => dest pm = -1 /\ legal b p (src pm) pm
       | None => forall q s, legal b p s q -> dest q = -1 -> s = 0 /\ die q <> 1
       end).
Proof. exact from_dest_exact. Qed.
Print Assumptions C25_from_dest_partial.
Example C25_case : wf_board opening31 /\ wf_pool (new_pool (3, 1)) /\
  guess_single_from_dest opening31 (new_pool (3, 1)) 4 = (new_pool (3, 1), Ok (Some (mkPM 3 7 4 false))).
Proof.
  split; [split; [left; reflexivity|split; split; try reflexivity; vm_compute; repeat constructor; discriminate]|].
  split; [apply wf_new_pool; right; unfold a_die; cbn; split; split; discriminate|vm_compute; auto].
Qed.

(* C25 fails: a die reaching beyond the bar raises IndexError *)
Theorem C25_raises_refuted : exists b t, wf_board b /\ a_die (fst (rolled b)) /\ a_die (snd (rolled b)) /\
  0 <= t <= 23 /\ snd (guess_single_from_dest b (new_pool (rolled b)) t) = Exc IndexError.
Proof. exact from_dest_raises_refuted. Qed.
Print Assumptions C25_raises_refuted.

(* C25 fails: a chequer on the ace point is not found for a larger die *)
Theorem C25_missed_refuted : exists b p q, wf_board b /\ wf_pool p /\ legal b p 0 q /\ dest q = -1 /\
  snd (guess_single_from_dest b p (-1)) = Ok None.
Proof. exact from_dest_missed_refuted. Qed.
Print Assumptions C25_missed_refuted.

(* C25 fails: the pool passed in loses dice *)
Theorem C25_pool_refuted : exists b p, wf_board b /\ wf_pool p /\ fst (guess_single_from_dest b p (-1)) <> p.
Proof. exact from_dest_pool_refuted. Qed.
Print Assumptions C25_pool_refuted.

(* C26: what is returned is a chain of legal steps, and the board is as before *)
Theorem C26_multiple_sound : forall b p s t, wf_board b -> wf_pool p -> -1 <= t < s -> s <= 24 ->
  exists p' o, guess_multiple_pms b p s t = (b, p', Ok o) /\
    forall r, o = Some r -> chain b p s t (map snd r).
Proof. exact multiple_sound. Qed.
Print Assumptions C26_multiple_sound.
Example C26_case : wf_board opening61 /\ -1 <= 5 < 12 /\
  snd (guess_multiple_pms opening61 (new_pool (6, 1)) 12 5) =
    Ok (Some [(1%nat, mkPM 6 12 6 false); (2%nat, mkPM 1 6 5 false)]).
Proof.
  split; [split; [left; reflexivity|split; split; try reflexivity; vm_compute; repeat constructor; discriminate]|].
  split; [split; [discriminate|reflexivity]|vm_compute; auto].
Qed.

(* C26: a path to a point is found whenever one exists.  Missing: bearing off, see below *)
Theorem C26_complete_partial : forall b p s t l, wf_board b -> wf_pool p -> roll_pool p -> 0 <= t ->
  chain b p s t l -> exists p' r, guess_multiple_pms b p s t = (b, p', Ok (Some r)).
Proof. exact multiple_complete. Qed.
Print Assumptions C26_complete_partial.
Example C26_roll_pool : roll_pool (new_pool (6, 1)) /\ roll_pool (new_pool (2, 2)).
Proof.
  split.
  - exists 6, 1. split; [|right; vm_compute; split; discriminate].
    intros d _ N6 N1. unfold held, new_pool; cbn. destruct d as [|[[[]|[[]|[]|]|]|[[[]|[]|]|[[]|[]|]|]|]|]; auto; congruence.
  - exists 2, 2. split; [|auto]. intros d _ N2 _. unfold held, new_pool; cbn.
    destruct d as [|[[[]|[[]|[]|]|]|[[[]|[]|]|[[]|[]|]|]|]|]; auto; congruence.
Qed.

(* C26 fails for bearing off: a path exists with the small die first and none is found *)
Theorem C26_bearoff_refuted : exists b s l, wf_board b /\ chain b (new_pool (rolled b)) s (-1) l /\
  snd (guess_multiple_pms b (new_pool (rolled b)) s (-1)) = Ok None.
Proof. exact multiple_off_refuted. Qed.
Print Assumptions C26_bearoff_refuted.

(* C27: what is returned is a chain of take-backs; the board is left with all but the last
   of them played.  Missing: an unchanged board, see below *)
Theorem C27_undoes_partial : forall f s t, Forall (fun x => stepping (snd x)) (fmove f) -> wf_board (fboard f) ->
  -1 <= s < t -> t <= 24 ->
  exists b' o, guess_partial_undoes f s t = (b', Ok o) /\
    match o with
    | Some r => undo_chain (map snd (fmove f)) s t (map snd r) /\
                make_all (removelast (map snd r)) (fboard f) = (b', Ok tt)
    | None => exists l, Forall (fun q => exists pm, In pm (map snd (fmove f)) /\ q = inverse pm) l /\
                make_all l (fboard f) = (b', Ok tt)
    end.
Proof. exact partial_undoes_exact. Qed.
Print Assumptions C27_undoes_partial.
Example C27_case : let f := fst (fac_add (new_factory opening61 None None)
     [(1%nat, mkPM 6 12 6 false); (2%nat, mkPM 1 6 5 false)]) in
  Forall (fun x => stepping (snd x)) (fmove f) /\
  snd (guess_partial_undoes f 5 12) = Ok (Some [(1%nat, mkPM 1 5 6 false); (2%nat, mkPM 6 6 12 false)]).
Proof. cbv zeta. split; [vm_compute; repeat constructor; discriminate|vm_compute; auto]. Qed.

(* C27 fails: the board is changed *)
Theorem C27_board_refuted : exists f s t b' r, wf_board (fboard f) /\ Forall (fun x => stepping (snd x)) (fmove f) /\
  guess_partial_undoes f s t = (b', Ok (Some r)) /\ b' <> fboard f.
Proof. exact partial_undoes_refuted. Qed.
Print Assumptions C27_board_refuted.

(* C28: two legal steps to the point, the second on the board the first leaves.
   Missing: two different dice and an unchanged board, see below *)
Theorem C28_making_point_partial : forall f t, wf_board (fboard f) -> wf_pool (favail f) ->
  a_die (fst (rolled (fboard f))) -> a_die (snd (rolled (fboard f))) ->
  (forall d, held (favail f) d <= dice_of (rolled (fboard f)) d) ->
  0 <= t <= 23 -> (forall d, a_die d -> held (favail f) d > 0 -> t + d <= 24) ->
  exists b' o, making_point f t = (b', Ok o) /\
    forall r, o = Some r -> exists pm pm2, r = [pm; pm2] /\ dest pm = t /\ dest pm2 = t /\
      legal (fboard f) (favail f) (src pm) pm /\ make_partial_move pm (fboard f) = (b', Ok tt) /\
      legal b' (favail f) (src pm2) pm2.
Proof. exact making_point_exact. Qed.
Print Assumptions C28_making_point_partial.
Example C28_case : let f := new_factory opening31 None None in
  (forall d, held (favail f) d <= dice_of (rolled (fboard f)) d) /\
  snd (making_point f 4) = Ok (Some [mkPM 3 7 4 false; mkPM 3 7 4 false]).
Proof.
  cbv zeta. split; [|vm_compute; auto]. intros d.
  change (favail _) with (new_pool (3, 1)). change (rolled _) with (3, 1).
  rewrite (proj2 (proj1 dice_pool (3, 1) ltac:(split; discriminate) ltac:(split; discriminate))). apply Z.le_refl.
Qed.

(* C28 fails: the same single die is used twice, and the board is changed *)
Theorem C28_making_point_refuted : exists f t b' pm pm2, wf_board (fboard f) /\
  f = new_factory (fboard f) None None /\ a_die (fst (rolled (fboard f))) /\ a_die (snd (rolled (fboard f))) /\
  making_point f t = (b', Ok (Some [pm; pm2])) /\
  (* both moves use the same die, of which there is one; and the board has been changed *)
  die pm = die pm2 /\ held (favail f) (die pm) = 1 /\ b' <> fboard f.
Proof. exact making_point_refuted. Qed.
Print Assumptions C28_making_point_refuted.

(* C29 and C73: the board is as before, or rewound to the start of the turn in the case named;
   with no dice left the answer is yes; with a step left on the points it is no; a no means that
   a step is left, or one chequer could play both dice, or the larger die could be played.
   Missing: an unchanged board (C29) and the converse of the last part (C73), see below *)
Theorem C29_pickup_query_partial : forall b0 l f, wf_board b0 -> a_die (fst (rolled b0)) -> a_die (snd (rolled b0)) ->
  ids_ok l -> Forall (fun x => stepping (snd x)) l ->
  fac_add (new_factory b0 None None) l = (f, Ok tt) -> wf_board (fboard f) ->
  exists b' r, is_leagal_to_pickup_dice f = (b', Ok r) /\
    (b' = fboard f \/
     (b' = b0 /\ fst (rolled b0) <> snd (rolled b0) /\ pool_len (favail f) <> 0 /\ no_step (fboard f) (favail f))) /\
    (pool_len (favail f) = 0 -> r = true) /\
    (count (mover (fboard f)) 24 = 0 -> (exists s pm, legal (fboard f) (favail f) s pm) -> r = false) /\
    (r = false ->
       (exists s pm, legal (fboard f) (favail f) s pm) \/
       (exists s t c, chain b0 (new_pool (rolled b0)) s t c /\ List.length c = 2%nat) \/
       (exists s pm, legal b0 (new_pool (rolled b0)) s pm /\ held (favail f) (die pm) > 0 /\
          forall k, a_die k -> die pm < k -> dice_of (rolled b0) k = 0)).
Proof. exact pickup_query. Qed.
Print Assumptions C29_pickup_query_partial.
Example C29_case : let f := fst (fac_add (new_factory opening61 None None) [(1%nat, mkPM 6 12 6 false)]) in
  wf_board (fboard f) /\ Forall (fun x => stepping (snd x)) (fmove f) /\
  is_leagal_to_pickup_dice f = (fboard f, Ok false).
Proof.
  cbv zeta. split; [split; [left; reflexivity|split; split; try reflexivity; vm_compute; repeat constructor; discriminate]|].
  split; [vm_compute; repeat constructor; discriminate|vm_compute; auto].
Qed.

(* C29 fails: the query takes back the move played *)
Theorem C29_pickup_query_refuted : exists b0 pm f b' r, wf_board b0 /\ stepping pm /\
  fac_add (new_factory b0 None None) [(1%nat, pm)] = (f, Ok tt) /\
  is_leagal_to_pickup_dice f = (b', Ok r) /\ b' <> fboard f.
Proof. exact pickup_query_refuted. Qed.
Print Assumptions C29_pickup_query_refuted.

(* C73 fails: a chequer on the bar can enter and the answer is yes *)
Theorem C73_bar_refuted : exists b pm, wf_board b /\ a_die (fst (rolled b)) /\ a_die (snd (rolled b)) /\
  legal b (new_pool (rolled b)) 24 pm /\
  snd (is_leagal_to_pickup_dice (new_factory b None None)) = Ok true.
Proof. exact pickup_bar_refuted. Qed.
Print Assumptions C73_bar_refuted.

(* C73 fails: both dice could be played, with two chequers, and the answer is yes *)
Theorem C73_two_chequers_refuted : exists b p6 f b1 q6 q1, wf_board b /\
  legal b (new_pool (rolled b)) (src p6) p6 /\ fac_add (new_factory b None None) [(1%nat, p6)] = (f, Ok tt) /\
  snd (is_leagal_to_pickup_dice f) = Ok true /\
  die q6 <> die q1 /\ legal b (new_pool (rolled b)) (src q6) q6 /\ make_partial_move q6 b = (b1, Ok tt) /\
  legal b1 (new_pool (rolled b)) (src q1) q1.
Proof. exact pickup_two_refuted. Qed.
Print Assumptions C73_two_chequers_refuted.
