(* Properties C138 and C139: picking up the dice at the end of a turn *)
From Verif Require Import Py UtilModel BoardModel BoardSpec MoveModel MoveSpec GameSpec PickSpec PickProofs.

(* C138 fails: the one step that the rules allow and demand is played, the dice are picked up, and the chequer is back *)
Theorem C138_move_lost_refuted : exists b0 pm f b', wf_board b0 /\ by_the_rules b0 [pm] (fboard f) (favail f) /\
  fac_add (new_factory b0 None None) [(1%nat, pm)] = (f, Ok tt) /\ fac_pickupdice f = (b', Ok tt) /\
  position b' = position b0 /\ position b' <> position (fboard f).
Proof. exact move_lost. Qed.
Print Assumptions C138_move_lost_refuted.

(* the chequers stay where they were played if no dice are left, after a double, and if a chequer on the bar cannot enter; in all other cases they go back to where they were when the dice were rolled. Missing: that they stay there too, which is false as shown above *)
Theorem C138_picked_up_partial : forall b0 l f b', wf_board b0 -> a_die (fst (rolled b0)) -> a_die (snd (rolled b0)) ->
  ids_ok l -> Forall (fun x => stepping (snd x)) l ->
  fac_add (new_factory b0 None None) l = (f, Ok tt) -> wf_board (fboard f) ->
  fac_pickupdice f = (b', Ok tt) ->
  (plainly_over b0 f -> position b' = position (fboard f)) /\
  (~ plainly_over b0 f -> position b' = position b0) /\
  rolled b' = (0, 0) /\ on_action b' = other (on_action b0) /\ on_inner_action b' = other (on_inner_action b0) /\
  changes_only [FPosition; FRolled; FOnAction; FInner] b0 b'.
Proof. exact picked_up. Qed.
Print Assumptions C138_picked_up_partial.
(* the six of 6-1 is played and the one cannot be: the first part does not apply, the second does; after both dice of 3-1 the first does *)
Example C138_case : let f := fst (fac_add (new_factory lone None None) [(1%nat, mkPM 6 12 6 false)]) in
  wf_board lone /\ wf_board (fboard f) /\ stepping (mkPM 6 12 6 false) /\ snd (fac_pickupdice f) = Ok tt /\ ~ plainly_over lone f /\
  let g := fst (fac_add (new_factory opening31 None None) [(1%nat, mkPM 3 7 4 false); (2%nat, mkPM 1 5 4 false)]) in
  wf_board (fboard g) /\ plainly_over opening31 g /\ snd (fac_pickupdice g) = Ok tt.
Proof.
  cbv zeta. split; [exact lone_wf|]. split; [split; [left; reflexivity|split; split; try reflexivity; vm_compute; repeat constructor; discriminate]|].
  split; [unfold stepping, a_die, forward, pm_ok; cbn; repeat split; try lia; discriminate|]. split; [vm_compute; reflexivity|].
  split; [intros [H|[H|[H _]]]; vm_compute in H; discriminate H|].
  split; [split; [left; reflexivity|split; split; try reflexivity; vm_compute; repeat constructor; discriminate]|].
  split; [left; vm_compute; reflexivity|vm_compute; reflexivity].
Qed.

(* C139: after a turn played by the rules the dice can be picked up *)
Theorem C139_rules_picked_up : forall b l f, wf_board b -> a_die (fst (rolled b)) -> a_die (snd (rolled b)) -> player (on_inner_action b) ->
  ids_ok l -> by_the_rules b (map snd l) (fboard f) (favail f) -> fac_add (new_factory b None None) l = (f, Ok tt) ->
  exists b', fac_pickupdice f = (b', Ok tt).
Proof. exact rules_picked_up. Qed.
Print Assumptions C139_rules_picked_up.
Example C139_case : exists f, by_the_rules lone [mkPM 6 12 6 false] (fboard f) (favail f) /\
  fac_add (new_factory lone None None) [(1%nat, mkPM 6 12 6 false)] = (f, Ok tt) /\ wf_board lone /\ player (on_inner_action lone).
Proof.
  eexists. split; [|split; [vm_compute; reflexivity|split; [exact lone_wf|left; reflexivity]]].
  apply lone_rules. eapply run_step; [exact lone_six|vm_compute; reflexivity|vm_compute; reflexivity|constructor].
Qed.

(* C139: and every roll can be played by the rules on every board *)
Theorem C139_rules_exist : forall b, wf_board b -> a_die (fst (rolled b)) -> a_die (snd (rolled b)) ->
  exists l f, ids_ok l /\ by_the_rules b (map snd l) (fboard f) (favail f) /\ fac_add (new_factory b None None) l = (f, Ok tt).
Proof. exact rules_exist. Qed.
Print Assumptions C139_rules_exist.
Example C139_exists_case : wf_board opening61 /\ a_die (fst (rolled opening61)) /\ a_die (snd (rolled opening61)).
Proof. split; [split; [left; reflexivity|split; split; try reflexivity; vm_compute; repeat constructor; discriminate]|]. unfold a_die; cbn; lia. Qed.
