(* Properties C119 to C121: whole games played through the library *)
From Verif Require Import Py UtilModel BoardModel BoardSpec MoveModel MoveSpec GameModel GameSpec GameProofs GameCodes.
From Verif Require GnuModel DbModel XgidModel XgidSpec.

(* the opening 3-1 played, a double offered too early, a double and a take, a
   6-4 played with one pick-up too early, and the next roll *)
Definition sample_game : list deed :=
  [DRoll (3, 1); DAsk (TPath 7 4); DAsk (TFrom 5); DTalk (ADouble 0); DPickup;
   DTalk (ADouble 1); DTalk (ATake 0); DRoll (6, 4); DAsk (TTo 17); DPickup; DAsk (TFrom 12); DPickup; DRoll (5, 5)].

(* C119: the full statement, for all suggestions and without the condition [quiet], is false: taking back a step that was played on, making a point, and offering the dice twice all put -1 chequers on a point *)
Theorem C119_play_refuted :
  (exists b r x y s t, let ds := [DRoll r; DAsk (TFrom x); DAsk (TFrom y); DAsk (TBack s t)] in
     starts b /\ Forall any_play ds /\ ~ proper (board_of (game ds (Waiting b)))) /\
  (exists b r t, let ds := [DRoll r; DAsk (TPoint t)] in
     starts b /\ Forall any_play ds /\ ~ proper (board_of (game ds (Waiting b)))) /\
  (exists b r x, let ds := [DRoll r; DAsk (TFrom x); DPickup; DPickup] in
     starts b /\ Forall any_play ds /\ ~ proper (board_of (game ds (Waiting b)))).
Proof. exact play_refuted. Qed.
Print Assumptions C119_play_refuted.

(* C119: for the suggestions that look forward, when the dice are not offered again after a declined offer took the moves back *)
Theorem C119_play_partial : forall lim b ds, within lim b -> seated b -> Forall fair ds -> quiet false ds (Waiting b) ->
  within lim (board_of (game ds (Waiting b))).
Proof. exact play_within. Qed.
Print Assumptions C119_play_partial.
Example C119_case : starts ongoing /\ Forall fair sample_game /\ quiet false sample_game (Waiting ongoing) /\
  position (board_of (game sample_game (Waiting ongoing))) =
    ([0; 0; 0; 0; 2; 4; 0; 2; 0; 0; 0; 0; 5; 0; 0; 0; 0; 0; 0; 0; 0; 0; 0; 2; 0],
     [0; 0; 0; 0; 0; 5; 0; 3; 1; 0; 0; 0; 4; 0; 0; 0; 0; 1; 0; 0; 0; 0; 0; 1; 0]) /\
  rolled (board_of (game sample_game (Waiting ongoing))) = (5, 5).
Proof.
  split; [apply starts_at; vm_compute; reflexivity|].
  split; [repeat constructor; cbn; try (unfold a_die; cbn); lia|].
  split; [apply quiet_dec; vm_compute; reflexivity|]. split; vm_compute; reflexivity.
Qed.

(* C120 *)
Theorem C120_turn : forall b qs, wf_board b -> a_die (fst (rolled b)) -> a_die (snd (rolled b)) -> Forall forward_ask qs ->
  let f := answers qs (new_factory b None None) in
  let l := map snd (fmove f) in
  legal_run b (new_pool (rolled b)) l (fboard f) (favail f) /\
  changes_only [FPosition] b (fboard f) /\
  (pips (mover (fboard f)) = pips (mover b) - zsum (map gained l) /\
   pips (waiter (fboard f)) = pips (waiter b) + zsum (map sent_back l) /\
   count (waiter (fboard f)) 24 = count (waiter b) 24 + hits l) /\
  Forall (fun pm => 1 <= gained pm <= die pm /\ (dest pm <> -1 -> gained pm = die pm)) l /\
  (forall d, a_die d -> held (favail f) d + used l d = dice_of (rolled b) d) /\
  pips (mover b) - pips (mover (fboard f)) <= worth (rolled b) /\
  ((forall d, a_die d -> held (favail f) d = 0) -> Forall (fun pm => dest pm <> -1) l ->
   pips (mover b) - pips (mover (fboard f)) = worth (rolled b)).
Proof. exact turn_pips. Qed.
Print Assumptions C120_turn.
(* a hit with the 4, then the 1 from the far end *)
Example C120_case : let b := sample [(23, 1); (7, 2)] [(20, 1); (6, 5)] (4, 1) in
  let qs := [TFrom 7; TPath 23 22; TTo 5] in let f := answers qs (new_factory b None None) in
  wf_board b /\ Forall forward_ask qs /\
  map snd (fmove f) = [mkPM 4 7 3 true; mkPM 1 23 22 false] /\
  pips (mover b) = 40 /\ pips (mover (fboard f)) = 35 /\ pips (waiter b) = 56 /\ pips (waiter (fboard f)) = 60 /\ worth (rolled b) = 5.
Proof.
  cbv zeta. split; [apply GuessProofs.wf_sample; reflexivity|]. split; [repeat constructor; cbn; lia|].
  vm_compute. auto 10.
Qed.

(* C121 *)
Theorem C121_codes :
  (forall b, reached b ->
     GnuModel.decode_position 3 (GnuModel.encode_position (position b)) = Ok (position b) /\
     (exists e, DbModel.db_new b = Ok e /\ DbModel.db_tomodel e = Ok b) /\
     (game_state b = 1 -> on_inner_action b = on_action b -> forall m max, ~ In XgidSpec.colon max ->
        XgidModel.decode m (XgidSpec.x_text b max) = (set_doubled (doubled m) (set_resign_offer (resign_offer m) b), Ok tt))) /\
  (forall b b', reached b -> reached b' ->
     GnuModel.encode_position (position b) = GnuModel.encode_position (position b') -> position b = position b').
Proof. exact reached_codes. Qed.
Print Assumptions C121_codes.
Example C121_case : let b := board_of (game sample_game (Waiting ongoing)) in
  reached b /\ game_state b = 1 /\ on_inner_action b = on_action b /\
  XgidSpec.x_text b (L "10") = L "-b----E-CA--eD---bAdb---A-:0:0:-1:55:0:0:0:0:10" /\ position b <> position ongoing.
Proof.
  cbv zeta. split.
  - exists ongoing, sample_game. split; [apply starts_at; vm_compute; reflexivity|].
    split; [repeat constructor; cbn; try (unfold a_die; cbn); lia|].
    split; [apply quiet_dec; vm_compute; reflexivity|reflexivity].
  - split; [vm_compute; reflexivity|]. split; [vm_compute; reflexivity|]. split; [vm_compute; reflexivity|vm_compute; discriminate].
Qed.
