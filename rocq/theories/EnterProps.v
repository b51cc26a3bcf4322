(* Property C140: every turn can be entered through suggestions *)
From Verif Require Import Py UtilModel BoardModel BoardSpec MoveModel MoveSpec GameModel GameSpec GuessProofs PickSpec PickProofs EnterProofs.

(* C140: whatever can be played by legal steps can be entered, with one suggestion for each step *)
Theorem C140_every_turn_entered : forall b l b' p', wf_board b -> a_die (fst (rolled b)) -> a_die (snd (rolled b)) ->
  legal_run b (new_pool (rolled b)) l b' p' ->
  exists qs, Forall forward_ask qs /\ List.length qs = List.length l /\
    let f := answers qs (new_factory b None None) in
    fboard f = b' /\ List.length (fmove f) = List.length l /\
    legal_run b (new_pool (rolled b)) (map snd (fmove f)) b' (favail f).
Proof. exact every_turn_entered. Qed.
Print Assumptions C140_every_turn_entered.
(* two chequers are borne off, the five first; the suggestions take the six first, and the board is the same *)
Definition ex_two_left : board := sample [(2, 1); (1, 1)] [(18, 2)] (6, 5).
Example C140_case : wf_board ex_two_left /\ exists b' p', legal_run ex_two_left (new_pool (rolled ex_two_left)) [mkPM 5 2 (-1) false; mkPM 6 1 (-1) false] b' p' /\
  let f := answers [TFrom 2; TFrom 1] (new_factory ex_two_left None None) in
  fboard f = b' /\ map snd (fmove f) = [mkPM 6 2 (-1) false; mkPM 5 1 (-1) false].
Proof.
  split; [apply wf_sample; auto|]. eexists _, _. split.
  - eapply run_step with (s := 2); [|vm_compute; reflexivity|vm_compute; reflexivity|].
    + unfold legal. repeat match goal with |- _ /\ _ => split end; try num.
      right. repeat match goal with |- _ /\ _ => split end; try num.
      split; [num|]. split; [num|]. split; [|right; split; [num|]]; intros k Hk;
        assert (F : forallb (fun n => count (mover ex_two_left) n =? 0) (zrange 3 25) = true) by (vm_compute; reflexivity);
        rewrite forallb_forall in F; apply Z.eqb_eq; apply F; apply PyFacts.In_zrange; lia.
    + eapply run_step with (s := 1); [|vm_compute; reflexivity|vm_compute; reflexivity|constructor].
      match goal with |- legal ?b _ _ _ => set (bb := b) end.
      unfold legal. repeat match goal with |- _ /\ _ => split end; try num.
      right. repeat match goal with |- _ /\ _ => split end; try num.
      split; [num|]. split; [num|]. split; [|right; split; [num|]]; intros k Hk;
        assert (F : forallb (fun n => count (mover bb) n =? 0) (zrange 2 25) = true) by (vm_compute; reflexivity);
        rewrite forallb_forall in F; apply Z.eqb_eq; apply F; apply PyFacts.In_zrange; lia.
  - cbv zeta. split; vm_compute; reflexivity.
Qed.

(* C140: a turn by the rules stays one when it is entered so, and the dice can be picked up *)
Theorem C140_rule_turn_entered : forall b l b' p', wf_board b -> a_die (fst (rolled b)) -> a_die (snd (rolled b)) ->
  player (on_inner_action b) -> by_the_rules b l b' p' ->
  exists qs, Forall forward_ask qs /\ List.length qs = List.length l /\
    let f := answers qs (new_factory b None None) in
    fboard f = b' /\ by_the_rules b (map snd (fmove f)) b' (favail f) /\ snd (fac_pickupdice f) = Ok tt.
Proof. exact every_rule_turn_entered. Qed.
Print Assumptions C140_rule_turn_entered.
Example C140_rules_case : exists b' p', by_the_rules lone [mkPM 6 12 6 false] b' p' /\ wf_board lone /\ player (on_inner_action lone) /\
  fboard (answers [TPath 12 6] (new_factory lone None None)) = b'.
Proof.
  eexists _, _. split; [|split; [exact lone_wf|split; [left; reflexivity|vm_compute; reflexivity]]].
  apply lone_rules. eapply run_step; [exact lone_six|vm_compute; reflexivity|vm_compute; reflexivity|constructor].
Qed.
