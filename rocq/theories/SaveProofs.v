(* C164: a session can be written down at any time *)
From Coq Require Import Lia.
From Verif Require Import Py UtilModel BoardModel BoardSpec GnuModel GnuSpec GnuProofs GnuMatchProofs SaveSpec.

Definition good_fields (b : board) : Prop :=
  0 <= cube_in_logarithm b <= 15 /\ 0 <= cube_owner b <= 3 /\ player (on_action b) /\
  0 <= game_state b <= 7 /\ player (on_inner_action b) /\ 0 <= resign_offer b <= 3 /\
  (0 <= fst (rolled b) <= 7 /\ 0 <= snd (rolled b) <= 7) /\ 0 <= match_length b <= 32767 /\
  (0 <= fst (score b) /\ 0 <= snd (score b)) /\
  (game_state b = 1 -> match_length b = 0 -> fst (score b) = 0 /\ snd (score b) = 0).

Lemma opp_player w o : get_opp w = Ok o -> player w /\ player o.
Proof. unfold get_opp, player, HIM, YOU. destruct (Z.eqb_spec w 1); [intros H; injection H; lia|]. destruct (Z.eqb_spec w 0); [intros H; injection H; lia|discriminate]. Qed.
Lemma good_double w b : good_fields b -> good_fields (fst (double w b)).
Proof.
  intros G. unfold double. destruct (is_leagal_to_double b w) as [[|]|]; [|exact G|exact G]. destruct (get_opp w) as [o|] eqn:E; [|exact G].
  apply opp_player in E. destruct G as (A1 & A2 & A3 & A4 & A5 & A6 & A7 & A8 & A9 & A10). unfold good_fields; cbn. tauto.
Qed.
Lemma good_take w b : good_fields b -> good_fields (fst (take w b)).
Proof.
  intros G. unfold take. destruct (is_cube_take_or_pass b w); [|exact G].
  destruct G as (A1 & A2 & A3 & A4 & A5 & A6 & A7 & A8 & A9 & A10). unfold good_fields; cbn. tauto.
Qed.
Lemma good_end (g : Z) sc b : good_fields b -> 0 <= g <= 7 -> g <> 1 -> 0 <= fst sc /\ 0 <= snd sc -> good_fields (set_score sc (set_game_state g b)).
Proof.
  intros (A1 & A2 & A3 & A4 & A5 & A6 & A7 & A8 & A9 & A10) Hg Hn Hs. unfold good_fields; cbn. intuition lia.
Qed.
Lemma good_state (g : Z) b : good_fields b -> 0 <= g <= 7 -> g <> 1 -> good_fields (set_game_state g b).
Proof.
  intros (A1 & A2 & A3 & A4 & A5 & A6 & A7 & A8 & A9 & A10) Hg Hn. unfold good_fields; cbn. intuition lia.
Qed.
Lemma good_drop w b : good_fields b -> good_fields (fst (drop w b)).
Proof.
  intros G. unfold drop. destruct (is_cube_take_or_pass b w) eqn:T; cbn [negb]; [|exact G].
  assert (P : player w). { unfold is_cube_take_or_pass in T. apply andb_prop in T. destruct T as [_ T]. apply Z.eqb_eq in T. rewrite <- T. apply G. }
  pose proof G as (A1 & _ & _ & _ & _ & _ & _ & _ & (S1 & S2) & _). unfold pypow2. cbn [cube_in_logarithm set_game_state].
  replace (cube_in_logarithm b <? 0) with false by lia. pose proof (Z.pow_nonneg 2 (cube_in_logarithm b) ltac:(lia)) as N.
  destruct P as [->| ->]; cbn -[Z.pow Z.add]; apply good_end; try exact G; unfold DOUBLED_OUT; cbn -[Z.pow]; lia.
Qed.
Lemma good_accept w b : good_fields b -> good_fields (fst (accept_resign w b)).
Proof.
  intros G. unfold accept_resign. destruct (is_to_accept_resign b w) eqn:T; cbn [negb]; [|exact G].
  assert (P : player w). { unfold is_to_accept_resign in T. apply andb_prop in T. destruct T as [_ T]. apply Z.eqb_eq in T. rewrite <- T. apply G. }
  pose proof G as (A1 & _ & _ & _ & _ & A6 & _ & _ & (S1 & S2) & _). unfold pypow2. cbn [cube_in_logarithm set_game_state].
  replace (cube_in_logarithm b <? 0) with false by lia. pose proof (Z.pow_nonneg 2 (cube_in_logarithm b) ltac:(lia)) as N.
  assert (M : 0 <= resign_offer b * 2 ^ cube_in_logarithm b) by (apply Z.mul_nonneg_nonneg; lia).
  destruct P as [->| ->]; cbn -[Z.pow Z.add Z.mul]; apply good_end; try exact G; unfold RESIGNED; cbn -[Z.pow Z.mul]; lia.
Qed.
Lemma good_offer w k b : good_fields b -> good_fields (fst (offer_resign w k b)).
Proof.
  intros G. unfold offer_resign. destruct (is_leagal_to_resign b w); cbn [negb]; [|exact G].
  destruct (zmem k RESIGN_TYPES) eqn:K; cbn [negb]; [|exact G].
  assert (R : 0 <= k <= 3) by (unfold zmem, RESIGN_TYPES, RESIGN_SINGLE, RESIGN_GAMMON, RESIGN_BACKGAMMON in K; cbn [existsb] in K; lia).
  destruct (get_opp w) as [o|] eqn:E; [apply opp_player in E|]; destruct G as (A1 & A2 & A3 & A4 & A5 & A6 & A7 & A8 & A9 & A10); unfold good_fields; cbn; tauto.
Qed.
Lemma good_reject w b : good_fields b -> good_fields (fst (reject_resign w b)).
Proof.
  intros G. unfold reject_resign. destruct (is_to_accept_resign b w); cbn [negb]; [|exact G].
  destruct (get_opp w) as [o|] eqn:E; [apply opp_player in E|exact G]; destruct G as (A1 & A2 & A3 & A4 & A5 & A6 & A7 & A8 & A9 & A10); unfold good_fields; cbn.
  assert (0 <= RESIGN_NONE <= 3) by (unfold RESIGN_NONE; lia). tauto.
Qed.
Lemma good_pickup b : good_fields b -> good_fields (fst (pickupdice b)).
Proof.
  intros (A1 & A2 & A3 & A4 & A5 & A6 & A7 & A8 & A9 & A10). unfold pickupdice. cbv zeta. cbn [on_action set_rolled].
  assert (Z0 : 0 <= 0 <= 7 /\ 0 <= 0 <= 7) by lia.
  destruct (get_opp (on_action b)) as [o|] eqn:E; [apply opp_player in E; cbn [on_inner_action set_on_action]; destruct (get_opp _) as [i|] eqn:E'; [apply opp_player in E'|]|];
    unfold good_fields; cbn [fst snd]; cbn; tauto.
Qed.
Lemma good_roll d b : 0 <= fst d <= 6 /\ 0 <= snd d <= 6 -> good_fields b -> good_fields (set_rolled d b).
Proof. intros D (A1 & A2 & A3 & A4 & A5 & A6 & A7 & A8 & A9 & A10). unfold good_fields; cbn. intuition lia. Qed.
Lemma good_position p b : good_fields b -> good_fields (set_position p b).
Proof. intros G. exact G. Qed.
Lemma good_move pm b : good_fields b -> good_fields (fst (make_partial_move pm b)).
Proof.
  intros G. unfold make_partial_move. destruct (sides b) as [[x y]|]; [|exact G]. destruct (move_sides pm x y) as [[u v]|]; [|exact G].
  destruct (on_action b =? YOU); exact G.
Qed.
Lemma good_act a b : real_dice a -> good_fields b -> good_fields (fst (act a b)).
Proof.
  intros D G. destruct a; cbn [act].
  - apply good_double, G.
  - exact G.
  - apply good_take, G.
  - apply good_drop, G.
  - apply good_offer, G.
  - apply good_accept, G.
  - apply good_reject, G.
  - apply good_pickup, G.
  - apply good_roll; assumption.
  - apply good_move, G.
Qed.
Lemma good_acts l : forall b, Forall real_dice l -> good_fields b -> good_fields (acts l b).
Proof.
  induction l as [|a l IH]; intros b D G; [exact G|]. inversion D; subst. cbn [acts]. apply IH; [assumption|]. apply good_act; assumption.
Qed.

Lemma fits_good m : fits m -> ~ scored_money m -> good_fields m.
Proof. intros (A1 & A2 & A3 & A4 & A5 & A6 & A7 & A8 & A9) S. unfold good_fields. unfold scored_money in S. intuition lia. Qed.
Lemma good_saved b : good_fields b -> score_fits b -> wf_side (fst (position b)) -> wf_side (snd (position b)) ->
  forall ov, exists pid mid, encode ov b = Ok (pid, mid) /\
    forall od fuel x, (3 <= fuel)%nat -> decode od fuel x pid mid = (b, Ok tt).
Proof.
  intros (A1 & A2 & A3 & A4 & A5 & A6 & A7 & A8 & A9 & A10) Sc W1 W2 ov.
  assert (Fb : fits b) by (unfold fits; unfold score_fits in Sc; intuition lia).
  assert (Sb : ~ scored_money b) by (unfold scored_money; intuition lia).
  destruct (full_board ov (fun _ => Exc TypeError) b b 3 Fb W1 W2 (le_n 3)) as (pid & mid & E & _). exists pid, mid. split; [exact E|].
  intros od fuel x Hf. destruct (full_board ov od b x fuel Fb W1 W2 Hf) as (pid' & mid' & E' & K & _). rewrite E in E'. injection E' as <- <-. apply K, Sb.
Qed.
Lemma session_saved : forall m l, fits m -> ~ scored_money m -> Forall real_dice l ->
  let b := acts l m in
  score_fits b -> wf_side (fst (position b)) -> wf_side (snd (position b)) ->
  forall ov, exists pid mid, encode ov b = Ok (pid, mid) /\
    forall od fuel x, (3 <= fuel)%nat -> decode od fuel x pid mid = (b, Ok tt).
Proof. intros m l F S D b. apply good_saved. apply good_acts; [exact D|]. apply fits_good; assumption. Qed.
