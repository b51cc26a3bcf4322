(* Properties C135 to C137: who can go on, how games end, and which offers are answered *)
From Verif Require Import Py UtilModel BoardModel BoardSpec TalkSpec TalkProofs.

(* C135: while a game is on exactly one player can go on *)
Theorem C135_somebody : forall b l, new_game b -> game_state (acts l b) = 1 ->
  exists w, player w /\ can_go_on (acts l b) w /\ forall v, can_go_on (acts l b) v -> v = w.
Proof. exact somebody_goes_on. Qed.
Print Assumptions C135_somebody.
(* after a double it is the opponent, after a take the player on action again, and after a roll too *)
Example C135_case : new_game ongoing /\ is_cube_take_or_pass (acts [ADouble 0] ongoing) 1 = true /\ is_leagal_to_roll (acts [ADouble 0; ATake 1] ongoing) 0 = true
  /\ is_leagal_to_move (acts [ADouble 0; ATake 1; ARoll (3, 1)] ongoing) 0 = true /\ is_to_accept_resign (acts [ARoll (3, 1); AOffer 0 2] ongoing) 1 = true.
Proof. repeat split; vm_compute; auto. Qed.
(* a board with a turn that belongs to nobody is possible, but no play leads to it *)
Example C135_stuck : let b := set_on_inner_action 1 ongoing in game_state b = 1 /\ ~ can_go_on b 0 /\ ~ can_go_on b 1.
Proof. cbv zeta. split; [reflexivity|]. split; intros [H|[H|[H|H]]]; vm_compute in H; discriminate H. Qed.

(* C136: the last chequer is borne off, the game goes on and the loser may roll *)
Theorem C136_borne_off_refuted : exists b pm, new_game b /\ is_leagal_to_move b 0 = true /\ total (side (acts [AMove pm] b) 0) = 0 /\
  (forall l, forallb (fun a => negb (scoring a)) l = true -> game_state (acts (AMove pm :: l) b) = 1) /\
  is_leagal_to_move (acts [AMove pm] b) 0 = true /\ is_leagal_to_roll (acts [AMove pm; APickup] b) 1 = true.
Proof. exact borne_off_goes_on. Qed.
Print Assumptions C136_borne_off_refuted.

(* what does end a game *)
Theorem C136_ends_partial : forall b l, new_game b -> cube_shown b ->
  (game_state (acts l b) <> 1 <-> exists l1 a l2, l = l1 ++ a :: l2 /\ scoring a = true /\ snd (act a (acts l1 b)) = Ok tt).
Proof. exact game_ends. Qed.
Print Assumptions C136_ends_partial.
Example C136_case : new_game ongoing /\ cube_shown ongoing /\ game_state (acts [ADouble 0; ADrop 0; ADrop 1] ongoing) = 4 /\ snd (act (ADrop 0) (acts [ADouble 0] ongoing)) = Exc AssertionError
  /\ game_state (acts [AOffer 0 1; AReject 1] ongoing) = 1 /\ game_state (acts [AOffer 0 1; AAccept 1; ARoll (2, 1)] ongoing) = 3.
Proof. split; [repeat split; vm_compute; auto|]. split; [vm_compute; discriminate|]. repeat split; vm_compute; reflexivity. Qed.

(* C137: a double that was taken is dropped, and resignations are accepted by those who offered them *)
Theorem C137_answers_refuted : 
  (exists b, new_game b /\ cube_shown b /\ let l := [ADouble 0; ATake 1; AOffer 0 1] in
     open_offers l b = mkoffers None (Some 0) /\ snd (act (ADrop 1) (acts l b)) = Ok tt /\ points (acts (l ++ [ADrop 1]) b) 0 > points b 0) /\
  (exists b, new_game b /\ cube_shown b /\ let l := [ADouble 0; ATake 1; AOffer 0 1; ATake 1] in
     open_offers l b = mkoffers None (Some 0) /\ snd (act (AAccept 0) (acts l b)) = Ok tt /\ points (acts (l ++ [AAccept 0]) b) 0 > points b 0) /\
  (exists b, new_game b /\ cube_shown b /\ is_leagal_to_move b 0 = true /\ let l := [AOffer 0 3; APickup] in
     open_offers l b = mkoffers None (Some 0) /\ snd (act (AAccept 0) (acts l b)) = Ok tt /\ points (acts (l ++ [AAccept 0]) b) 0 = points b 0 + 3).
Proof. exact own_offers. Qed.
Print Assumptions C137_answers_refuted.

(* in a game in which dice are picked up only in turn and nobody resigns after a double, an answer is taken exactly if the opponent made that offer *)
Theorem C137_answers_partial : forall b l a, new_game b -> cube_shown b -> in_turn l b -> game_state (acts l b) = 1 -> is_answer a = true ->
  (snd (act a (acts l b)) = Ok tt <-> answers_offer a (open_offers l b)).
Proof. exact answers_belong. Qed.
Print Assumptions C137_answers_partial.
Definition ex_talk : list action := [ARoll (3, 1); AOffer 0 1; AReject 1; APickup; ADouble 1; ATake 1].
Example C137_case : new_game ongoing /\ cube_shown ongoing /\ in_turn ex_talk ongoing /\ open_offers ex_talk ongoing = mkoffers (Some 1) None
  /\ snd (act (ATake 0) (acts ex_talk ongoing)) = Ok tt /\ snd (act (ATake 1) (acts ex_talk ongoing)) = Exc AssertionError.
Proof. split; [repeat split; vm_compute; auto|]. split; [vm_compute; discriminate|]. split; [vm_compute; auto 10|]. repeat split; vm_compute; reflexivity. Qed.
