(* Properties C04-C18 *)
From Verif Require Import Py UtilModel BoardModel BoardSpec BoardProofs.

(* C04 *)
Theorem C04_equality_fieldwise :
  (forall x y, same_class x y ->
     exists r, obj_eq x y = Ok r /\ obj_ne x y = Ok (negb r) /\
               (r = true <-> forall f, agree f (fields_of x) (fields_of y))) /\
  (forall x y, ~ same_class x y -> obj_eq x y = Exc TypeError /\ obj_ne x y = Exc TypeError) /\
  (forall x, obj_eq x x = Ok true) /\
  (forall x y, obj_eq x y = obj_eq y x) /\
  (forall x y z, obj_eq x y = Ok true -> obj_eq y z = Ok true -> obj_eq x z = Ok true).
Proof. exact equality_fieldwise. Qed.
Print Assumptions C04_equality_fieldwise.
Example C04_ex : same_class (OBoard default_board) (OBoard (set_score (0, 1) default_board)) /\
  obj_eq (OBoard default_board) (OBoard (set_score (0, 1) default_board)) = Ok false /\
  obj_eq (OBoard default_board) (new_editor None []) = Exc TypeError.
Proof. vm_compute. auto. Qed.

(* C05 *)
Theorem C05_immutability : forall ops,
  let h := hrun heap_init ops in
  (forall i b later, view h i = Some (OBoard b) -> view (hrun h later) i = Some (OBoard b)) /\
  (forall op i, (i < List.length (objs h))%nat -> aim op <> Some i ->
     view (fst (hstep h op)) i = view h i) /\
  (forall i b a, view h i = Some (OBoard b) -> hstep h (HSet i a) = (h, Exc TypeError)) /\
  (forall i b x a, view h i = Some (OEditor b x) -> field_of a <> None ->
     exists b', view (fst (hstep h (HSet i a))) i = Some (OEditor b' x) /\ carries a b' /\
       forall f, field_of a <> Some f -> agree f b b') /\
  (exists k, hstep h (HNewBoard []) = (k, Ok (List.length (objs h))) /\
     view k (List.length (objs h)) = Some (OBoard default_board)).
Proof. exact immutability. Qed.
Print Assumptions C05_immutability.
(* an editor, a copy of it, a frozen board of it, then a write to the first *)
Example C05_ex :
  let h := hrun heap_init [HNewEditor None [KCube 2]; HNewEditor (Some 0%nat) []; HFreeze 0%nat; HSet 0%nat (KCube 5)] in
  (exists b, view h 2%nat = Some (OBoard b) /\ cube_in_logarithm b = 2) /\
  (exists b x, view h 1%nat = Some (OEditor b x) /\ cube_in_logarithm b = 2) /\
  (exists b x, view h 0%nat = Some (OEditor b x) /\ cube_in_logarithm b = 5).
Proof. vm_compute. repeat split; repeat eexists. Qed.

(* C06 *)
Theorem C06_freeze_lossless :
  (forall b, obj_freeze (new_editor (Some (OBoard b)) []) = Ok (OBoard b)) /\
  (forall b kw, NoDup (map field_of (filter (fun a => negb (is_other a)) kw)) ->
     exists b', obj_freeze (new_editor (Some (OBoard b)) kw) = Ok (OBoard b') /\
       (forall a, In a kw -> carries a b') /\
       (forall f, ~ In (Some f) (map field_of kw) -> agree f b b')) /\
  (forall b a, field_of a <> None -> exists b', new_board [a] = Ok (OBoard b') /\ carries a b' /\
      fst (obj_setattr (new_editor (Some (OBoard b)) []) a) = new_editor (Some (OBoard b)) [a]).
Proof. exact freeze_lossless. Qed.
Print Assumptions C06_freeze_lossless.
Example C06_ex :
  NoDup (map field_of (filter (fun a => negb (is_other a)) [KScore (3, 4); KOther (L "foo"); KCrawford true])).
Proof. cbn. repeat constructor; cbn; intuition discriminate. Qed.

(* C07 *)
Theorem C07_flip_involution :
  (forall b, seat (cube_owner b) -> seat (on_inner_action b) -> seat (on_action b) ->
     exists b', flip b = (b', Ok tt) /\ flip b' = (b, Ok tt) /\
       position b' = (snd (position b), fst (position b)) /\
       score b' = (snd (score b), fst (score b)) /\
       cube_owner b' = swap_seat (cube_owner b) /\
       on_action b' = swap_seat (on_action b) /\
       on_inner_action b' = swap_seat (on_inner_action b) /\
       changes_only [FPosition; FScore; FOwner; FOnAction; FInner] b b') /\
  (forall b, ~ seat (cube_owner b) -> flip b = (b, Exc AssertionError)) /\
  (forall b b' r, flip b = (b', r) -> seat (cube_owner b) -> ~ seat (on_inner_action b) ->
     r = Exc AssertionError /\ changes_only [FOwner; FScore; FPosition] b b') /\
  (forall b b' r, flip b = (b', r) -> seat (cube_owner b) -> seat (on_inner_action b) ->
     ~ seat (on_action b) -> r = Exc AssertionError /\
     changes_only [FOwner; FScore; FPosition; FInner] b b').
Proof. exact flip_involution. Qed.
Print Assumptions C07_flip_involution.
Example C07_ex : seat (cube_owner default_board) /\ seat (on_inner_action default_board) /\
  seat (on_action default_board) /\ fst (flip default_board) <> default_board /\
  ~ seat (on_action (set_on_action 7 default_board)) /\
  fst (flip (set_on_action 7 (set_score (1, 2) default_board))) <> set_on_action 7 (set_score (1, 2) default_board).
Proof. unfold seat; vm_compute; intuition discriminate. Qed.

(* C08 *)
Theorem C08_exclusive_actions : forall b w v,
  (is_leagal_to_roll b w = true -> is_leagal_to_roll b v = true -> w = v) /\
  (is_leagal_to_move b w = true -> is_leagal_to_move b v = true -> w = v) /\
  ~ (is_leagal_to_roll b w = true /\ is_leagal_to_move b v = true) /\
  (is_cube_take_or_pass b w = true ->
     is_leagal_to_roll b v = false /\ is_leagal_to_move b v = false /\ is_leagal_to_resign b v = false) /\
  (is_to_accept_resign b w = true ->
     is_leagal_to_roll b v = false /\ is_leagal_to_move b v = false).
Proof. exact exclusive_actions. Qed.
Print Assumptions C08_exclusive_actions.
Example C08_ex : is_leagal_to_roll ongoing YOU = true /\
  is_leagal_to_move (set_rolled (3, 1) ongoing) YOU = true /\
  is_cube_take_or_pass (fst (double YOU ongoing)) HIM = true /\
  is_to_accept_resign (fst (offer_resign YOU 2 ongoing)) HIM = true.
Proof. vm_compute. auto. Qed.

(* C09.  The full statement (true exactly when the rule book allows it) is
   refuted: with n + 1 < die the code never looks at point n itself.
   C09_bearoff_rule_partial is the exact answer; the missing part is the
   chequer on n. *)
Theorem C09_bearoff_rule_partial : forall b n d,
  player (on_action b) -> wf_side (mover b) -> 0 <= n <= 24 -> 1 <= d <= 6 ->
  exists r, is_ok_to_bearoff_from b n d = Ok r /\
    (r = true <-> may_bear_off (mover b) n d \/
       (n + 1 < d /\ count (mover b) n = 0 /\ forall k, n < k <= 24 -> count (mover b) k = 0)).
Proof. exact bearoff_from_exact. Qed.
Print Assumptions C09_bearoff_rule_partial.
Theorem C09_bearoff_rule_refuted : exists b n d,
  player (on_action b) /\ wf_side (mover b) /\ 0 <= n <= 24 /\ 1 <= d <= 6 /\
  is_ok_to_bearoff_from b n d = Ok true /\ ~ may_bear_off (mover b) n d.
Proof. exact bearoff_rule_refuted. Qed.
Print Assumptions C09_bearoff_rule_refuted.
Example C09_ex : player (on_action last_chequer) /\ wf_side (mover last_chequer) /\
  is_ok_to_bearoff_from last_chequer 0 5 = Ok true /\ is_ok_to_bearoff_from ongoing 5 6 = Ok false.
Proof. unfold player, wf_side; cbn. repeat split; auto; repeat constructor; lia. Qed.

(* C10.  Soundness holds; completeness is refuted: the final search loop stops
   before point 0.  The partial theorem is the exact answer, unique source
   included; what is missing is exactly point 0 with a die above 1. *)
Theorem C10_bearoff_search_partial : forall b d,
  player (on_action b) -> wf_side (mover b) -> 1 <= d <= 6 ->
  exists r, find_src_of_bearoff_with b d = Ok r /\
    (forall i, r = Some i <-> may_bear_off (mover b) i d /\ (i <> 0 \/ d = 1)).
Proof. exact find_src_exact. Qed.
Print Assumptions C10_bearoff_search_partial.
Theorem C10_bearoff_search_refuted : exists b d,
  player (on_action b) /\ wf_side (mover b) /\ 1 <= d <= 6 /\ may_bear_off (mover b) 0 d /\
  find_src_of_bearoff_with b d = Ok None.
Proof. exact bearoff_search_refuted. Qed.
Print Assumptions C10_bearoff_search_refuted.
Example C10_ex :
  find_src_of_bearoff_with (set_position ([2; 2; 3; 0; 0; 0; 0; 0; 0; 0; 0; 0; 0; 0; 0; 0; 0; 0; 0; 0; 0; 0; 0; 0; 0],
     snd INITIAL_POSITION) ongoing) 5 = Ok (Some 2).
Proof. vm_compute. auto. Qed.

(* C11 *)
Theorem C11_seat_independent : forall b b', flip b = (b', Ok tt) ->
  (forall n, is_open_to_land b' n = is_open_to_land b n) /\
  (forall n, is_hitting_to_land b' n = is_hitting_to_land b n) /\
  (forall n, has_chequer_to_move b' n = has_chequer_to_move b n) /\
  (forall n d, is_ok_to_bearoff_from b' n d = is_ok_to_bearoff_from b n d) /\
  (forall d, find_src_of_bearoff_with b' d = find_src_of_bearoff_with b d).
Proof. exact seat_independent. Qed.
Print Assumptions C11_seat_independent.
Example C11_ex : exists b', flip last_chequer = (b', Ok tt) /\ b' <> last_chequer /\
  is_open_to_land b' 18 = Ok false /\ is_open_to_land b' 3 = Ok true.
Proof. eexists; split; [reflexivity|]. vm_compute. repeat split; discriminate. Qed.

(* C12.  Seat independence and the ownership clause of the full statement are
   refuted; the partial theorem is the exact answer of the code. *)
Theorem C12_double_legality_partial : forall b who,
  before_roll b -> player (on_action b) -> 0 <= cube_in_logarithm b ->
  exists r, is_leagal_to_double b who = Ok r /\
   (r = true <-> who = on_action b /\ who = on_inner_action b /\ crawford b = false /\ doubled b = false /\
      (match_length b = 0 \/
       (who = 0 /\ points b 0 + 2 ^ cube_in_logarithm b <= match_length b) \/
       (who = 1 /\ points b 1 + 2 ^ cube_in_logarithm b < match_length b))).
Proof. exact double_exact. Qed.
Print Assumptions C12_double_legality_partial.
(* one point from the match with the cube at 1: legal in one seat, not in the other *)
Theorem C12_seat_refuted : exists b b', flip b = (b', Ok tt) /\ before_roll b /\
  is_leagal_to_double b 0 = Ok true /\ is_leagal_to_double b' 1 = Ok false.
Proof. exact double_seat_refuted. Qed.
Print Assumptions C12_seat_refuted.
Theorem C12_owner_refuted : exists b, before_roll b /\ cube_owner b = 1 /\ on_action b = 0 /\
  is_leagal_to_double b 0 = Ok true.
Proof. exact double_owner_refuted. Qed.
Print Assumptions C12_owner_refuted.
Example C12_ex : before_roll ongoing /\ player (on_action ongoing) /\ 0 <= cube_in_logarithm ongoing.
Proof. unfold player; vm_compute. repeat split; auto; discriminate. Qed.

(* C13 *)
Theorem C13_move_conserves :
  (forall b pm b', make_partial_move pm b = (b', Ok tt) ->
     let w := on_action b in
     total (side b' w) = total (side b w) + (if -1 <? dest pm then 1 else 0) - (if -1 <? src pm then 1 else 0) /\
     total (side b' (other w)) = total (side b (other w)) /\
     changes_only [FPosition] b b') /\
  (forall b pm, player (on_action b) -> List.length (fst (position b)) = 25%nat ->
     List.length (snd (position b)) = 25%nat -> pm_ok pm ->
     exists b', make_partial_move pm b = (b', Ok tt) /\
       (forall w, List.length (side b' w) = 25%nat) /\
       forall k, 0 <= k <= 24 ->
         count (side b' (on_action b)) k = count (side b (on_action b)) k + mover_delta pm k /\
         count (side b' (other (on_action b))) k = count (side b (other (on_action b))) k + opp_delta pm k) /\
  (forall b pm b' e, make_partial_move pm b = (b', Exc e) -> b' = b).
Proof. exact move_conserves. Qed.
Print Assumptions C13_move_conserves.
Example C13_ex : pm_ok (mkPM 3 7 4 true) /\ pm_ok (mkPM 6 3 (-1) false) /\ pm_ok (mkPM 3 4 7 true) /\
  player (on_action ongoing) /\ List.length (fst (position ongoing)) = 25%nat.
Proof. unfold pm_ok, player; cbn. repeat split; auto; lia. Qed.

(* C14 *)
Theorem C14_undo_restores : forall b b' pm, src pm <> dest pm ->
  make_partial_move pm b = (b', Ok tt) -> make_partial_move (inverse pm) b' = (b, Ok tt).
Proof. exact undo_restores. Qed.
Print Assumptions C14_undo_restores.
Example C14_ex : exists b', make_partial_move (mkPM 2 23 21 true) ongoing = (b', Ok tt) /\ b' <> ongoing.
Proof. eexists; split; [reflexivity|]. discriminate. Qed.

(* C15 *)
Theorem C15_bookkeeping :
  (* who scores and how much *)
  (forall b w, player w -> 0 <= cube_in_logarithm b -> may_answer_double b w ->
     exists b', drop w b = (b', Ok tt) /\
       points b' (other w) = points b (other w) + 2 ^ cube_in_logarithm b /\
       points b' w = points b w /\ game_state b' = 4 /\ changes_only [FScore; FState] b b') /\
  (forall b w, player w -> 0 <= cube_in_logarithm b -> may_answer_resign b w ->
     exists b', accept_resign w b = (b', Ok tt) /\
       points b' w = points b w + resign_offer b * 2 ^ cube_in_logarithm b /\
       points b' (other w) = points b (other w) /\ game_state b' = 3 /\ changes_only [FScore; FState] b b') /\
  (* the remaining actions *)
  (forall b w, may_answer_double b w ->
     exists b', take w b = (b', Ok tt) /\ on_inner_action b' = on_action b /\ changes_only [FInner] b b') /\
  (forall b w, is_leagal_to_double b w = Ok true ->
     exists b', double w b = (b', Ok tt) /\ on_inner_action b' = other w /\ doubled b' = true /\
       changes_only [FInner; FDoubled] b b') /\
  (forall b w k, player w -> 1 <= k <= 3 -> may_resign b w ->
     exists b', offer_resign w k b = (b', Ok tt) /\ on_inner_action b' = other w /\ resign_offer b' = k /\
       changes_only [FInner; FResign] b b') /\
  (forall b w, player w -> may_answer_resign b w ->
     exists b', reject_resign w b = (b', Ok tt) /\ on_inner_action b' = other w /\ resign_offer b' = 0 /\
       changes_only [FInner; FResign] b b') /\
  (forall b, player (on_action b) -> player (on_inner_action b) ->
     exists b', pickupdice b = (b', Ok tt) /\ rolled b' = (0, 0) /\ on_action b' = other (on_action b) /\
       on_inner_action b' = other (on_inner_action b) /\ changes_only [FRolled; FOnAction; FInner] b b') /\
  (* out of turn: refused and unchanged *)
  (forall b w, ~ may_answer_double b w ->
     take w b = (b, Exc AssertionError) /\ drop w b = (b, Exc AssertionError)) /\
  (forall b w, is_leagal_to_double b w <> Ok true -> fst (double w b) = b /\ snd (double w b) <> Ok tt) /\
  (forall b w k, ~ may_resign b w -> offer_resign w k b = (b, Exc AssertionError)) /\
  (forall b w k, ~ 1 <= k <= 3 -> offer_resign w k b = (b, Exc AssertionError)) /\
  (forall b w, ~ may_answer_resign b w ->
     accept_resign w b = (b, Exc AssertionError) /\ reject_resign w b = (b, Exc AssertionError)) /\
  (* nothing else scores or moves chequers *)
  (forall b a, (forall w, a <> ADrop w) -> (forall w, a <> AAccept w) -> score (fst (act a b)) = score b) /\
  (forall b a, (forall pm, a <> AMove pm) -> position (fst (act a b)) = position b).
Proof. exact bookkeeping. Qed.
Print Assumptions C15_bookkeeping.
Example C15_ex : is_leagal_to_double ongoing 0 = Ok true /\
  may_answer_double (fst (double 0 ongoing)) 1 /\ may_resign ongoing 0 /\
  may_answer_resign (fst (offer_resign 0 2 ongoing)) 1 /\
  score (acts [ADouble 0; ATake 1; AOffer 0 3; AAccept 1] (set_cube_in_logarithm 2 ongoing)) = (0, 12).
Proof. unfold may_answer_double, may_resign, may_answer_resign; vm_compute. repeat split; congruence. Qed.

(* C16.  Refuted: dropping twice scores twice.  What does hold once a game has
   ended, for every later session of calls: nobody can roll, move or double
   any more, and only a further drop or acceptance can change the score. *)
Theorem C16_scored_once_refuted : exists b b1 b2,
  before_roll b /\ score b = (0, 0) /\
  acts [ADouble 0; ADrop 1] b = b1 /\ ended b1 /\ drop 1 b1 = (b2, Ok tt) /\ score b2 <> score b1.
Proof. exact scored_once_refuted. Qed.
Print Assumptions C16_scored_once_refuted.
Theorem C16_scored_once_partial : forall b l, ended b ->
  ended (acts l b) /\
  (forall w, is_leagal_to_roll (acts l b) w = false /\ is_leagal_to_move (acts l b) w = false /\
             is_leagal_to_double (acts l b) w <> Ok true) /\
  (forallb (fun a => negb (scoring a)) l = true -> score (acts l b) = score b).
Proof. exact ended_frozen. Qed.
Print Assumptions C16_scored_once_partial.
Example C16_ex : ended (acts [ADouble 0; ADrop 1] ongoing).
Proof. unfold ended; vm_compute. split; discriminate. Qed.

(* C17.  Refuted on every board where a double is legal, not just on one: the
   cube keeps its value and its owner, and after a take no double is legal on
   any later board of that session. *)
Theorem C17_take_refuted : forall b w b1 b2,
  double w b = (b1, Ok tt) -> take (other w) b1 = (b2, Ok tt) ->
  cube_in_logarithm b2 = cube_in_logarithm b /\ cube_owner b2 = cube_owner b /\
  forall l who, is_leagal_to_double (acts l b2) who <> Ok true /\ snd (double who (acts l b2)) <> Ok tt.
Proof. exact take_keeps_stake. Qed.
Print Assumptions C17_take_refuted.
Example C17_ex : exists b1 b2, double 0 ongoing = (b1, Ok tt) /\ take (other 0) b1 = (b2, Ok tt).
Proof. eexists _, _. split; reflexivity. Qed.

(* C18 *)
Theorem C18_refused_resignation : forall b w k b1, player w ->
  offer_resign w k b = (b1, Ok tt) ->
  exists b2, reject_resign (other w) b1 = (b2, Ok tt) /\ resign_offer b2 = 0 /\
    changes_only [FResign] b b2 /\ (resign_offer b = 0 -> b2 = b).
Proof. exact offer_reject. Qed.
Print Assumptions C18_refused_resignation.
Example C18_ex : exists b1, offer_resign 0 2 ongoing = (b1, Ok tt) /\ resign_offer ongoing = 0 /\ b1 <> ongoing.
Proof. eexists; split; [reflexivity|]. split; [reflexivity|]. discriminate. Qed.
