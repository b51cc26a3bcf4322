(* Every board a client can reach can be shown. *)
From Verif Require Import Py PyFacts Dict DictFacts UtilModel BoardModel BoardSpec ImageModel ImageSpec ImageCss ImageTree ImageBoard.
Open Scope string_scope.
Open Scope list_scope.
Open Scope Z_scope.

Lemma pyadd_len l i d m : pyadd l i d = Ok m -> List.length m = List.length l.
Proof.
  unfold pyadd, pyget, pyset. destruct (pyix l i) as [k|]; [|discriminate]. destruct (nth_error l k); [|discriminate]. cbn. intros H. injection H as <-. apply list_set_length.
Qed.
Lemma move_sides_len pm a b m h : move_sides pm a b = Ok (m, h) -> List.length m = List.length a /\ List.length h = List.length b.
Proof.
  unfold move_sides.
  destruct (if OFF <? src pm then pyadd a (src pm) (-1) else Ok a) as [m1|] eqn:E1; [|discriminate]. cbn [bind].
  assert (A1 : List.length m1 = List.length a) by (destruct (OFF <? src pm); [eapply pyadd_len, E1|congruence]).
  destruct (if OFF <? dest pm then pyadd m1 (dest pm) 1 else Ok m1) as [m2|] eqn:E2; [|discriminate]. cbn [bind].
  assert (A2 : List.length m2 = List.length a) by (destruct (OFF <? dest pm); [apply pyadd_len in E2; congruence|congruence]).
  destruct (is_hitting pm); [|intros H; injection H as <- <-; auto].
  destruct (is_undo pm); (destruct (pyadd b _ _) as [h1|] eqn:E3; [|discriminate]; cbn [bind]; destruct (pyadd h1 _ _) as [h2|] eqn:E4; [|discriminate]; cbn [bind];
    intros H; injection H as <- <-; apply pyadd_len in E3, E4; split; congruence).
Qed.
Lemma get_opp_other p o : get_opp p = Ok o -> (p = HIM /\ o = YOU) \/ (p = YOU /\ o = HIM).
Proof. unfold get_opp. destruct (Z.eqb_spec p HIM); [intros H; injection H as <-; auto|]. destruct (Z.eqb_spec p YOU); [intros H; injection H as <-; auto|discriminate]. Qed.
Lemma act_at_rest a b : at_rest b -> at_rest (fst (act a b)).
Proof.
  intros R. pose proof R as (((L1 & L2) & CO & PA & PI & D) & G). unfold player_no in PA, PI.
  assert (YH : YOU <> HIM) by discriminate.
  destruct a as [w| |w|w|w k|w|w| |d|pm]; cbn [act].
  - unfold double. destruct (is_leagal_to_double b w) as [[|]|]; try exact R. destruct (get_opp w) as [o|] eqn:O; [|exact R]. apply get_opp_other in O.
    unfold at_rest, in_play, sides_ok, player_no. cbn. intuition congruence.
  - exact R.
  - unfold take. destruct (is_cube_take_or_pass b w) eqn:T; [|exact R]. unfold is_cube_take_or_pass in T. bools.
    unfold at_rest, in_play, sides_ok, player_no. cbn. intuition congruence.
  - unfold drop. destruct (is_cube_take_or_pass b w); [|exact R]. cbn [negb]. destruct (bind _ _); exact R.
  - unfold offer_resign. destruct (is_leagal_to_resign b w) eqn:Le; [|exact R]. destruct (zmem k RESIGN_TYPES) eqn:K; [|exact R]. cbn [negb].
    unfold is_leagal_to_resign in Le. bools.
    assert (K' : 1 <= k <= 3) by (apply (resigning_eq (set_resign_offer k b)) in K; exact K).
    destruct (get_opp w) as [o|] eqn:O.
    + apply get_opp_other in O. unfold at_rest, in_play, sides_ok, player_no. cbn. intuition congruence.
    + exfalso. unfold get_opp in O. destruct (Z.eqb_spec w HIM); [discriminate|]. destruct (Z.eqb_spec w YOU); [discriminate|]. intuition congruence.
  - unfold accept_resign. destruct (is_to_accept_resign b w); [|exact R]. cbn [negb]. destruct (bind _ _); exact R.
  - unfold reject_resign. destruct (is_to_accept_resign b w) eqn:T; [|exact R]. cbn [negb]. unfold is_to_accept_resign in T. bools.
    destruct (get_opp w) as [o|] eqn:O; [|exact R]. apply get_opp_other in O. unfold at_rest, in_play, sides_ok, player_no. cbn. change RESIGN_NONE with 0.
    destruct (doubled b) eqn:Dd.
    + intuition (congruence || lia).
    + specialize (G eq_refl ltac:(assumption)). intuition (congruence || lia).
  - unfold pickupdice. cbn [set_rolled on_action]. destruct (get_opp (on_action b)) as [o|] eqn:O.
    + cbn [set_rolled set_on_action on_inner_action]. destruct (get_opp (on_inner_action b)) as [i|] eqn:I.
      * apply get_opp_other in O, I. unfold at_rest, in_play, sides_ok, player_no. cbn. intuition congruence.
      * exfalso. unfold get_opp in I. destruct (Z.eqb_spec (on_inner_action b) HIM); [discriminate|]. destruct (Z.eqb_spec (on_inner_action b) YOU); [discriminate|]. intuition congruence.
    + exfalso. unfold get_opp in O. destruct (Z.eqb_spec (on_action b) HIM); [discriminate|]. destruct (Z.eqb_spec (on_action b) YOU); [discriminate|]. intuition congruence.
  - exact R.
  - unfold make_partial_move, sides. destruct (Z.eqb_spec (on_action b) YOU).
    + destruct (move_sides pm _ _) as [[m h]|] eqn:E; [|exact R]. apply move_sides_len in E as (E1 & E2). unfold at_rest, in_play, sides_ok, player_no. cbn. intuition congruence.
    + destruct (Z.eqb_spec (on_action b) HIM); [|exact R].
      destruct (move_sides pm _ _) as [[m h]|] eqn:E; [|exact R]. apply move_sides_len in E as (E1 & E2). unfold at_rest, in_play, sides_ok, player_no. cbn. intuition congruence.
Qed.
Lemma acts_at_rest l b : at_rest b -> at_rest (acts l b).
Proof. revert b. induction l as [|a l IH]; intros b H; [exact H|]. cbn. apply IH, act_at_rest, H. Qed.
Lemma in_play_drawable b : in_play b -> drawable b.
Proof. intros (SO & CO & PA & PI & D). unfold drawable. intuition. Qed.
Lemma reach_shown : forall l b, at_rest b -> exists t, board_tree (acts l b) = Ok t.
Proof.
  intros l b R. apply (acts_at_rest l) in R. destruct R as (P & _). apply (board_tree_iff _ (proj1 P)). apply in_play_drawable, P.
Qed.
