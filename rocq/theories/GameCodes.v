(* Positions reached in play survive the three encodings. *)
From Coq Require Import ZifyBool ZifyNat.
From Verif Require Import Py PyFacts UtilModel BoardModel BoardSpec BoardProofs MoveModel MoveSpec PickupProofs.
From Verif Require Import GameModel GameSpec GameProofs.
From Verif Require GnuModel GnuMatchProofs DbModel DbSpec DbProofs XgidModel XgidSpec XgidProofs.

Lemma total_bound l : Forall (fun x => 0 <= x) l -> Forall (fun x => 0 <= x <= total l) l.
Proof.
  induction 1 as [|x l H F IH]; constructor; cbn.
  - assert (0 <= fold_right Z.add 0 l) by (clear -F; induction F; cbn; lia). lia.
  - eapply Forall_impl; [|exact IH]. unfold total. cbn; intros; lia.
Qed.
Lemma proper_counts b : proper b -> Forall (fun x => 0 <= x <= 15) (fst (position b)) /\ Forall (fun x => 0 <= x <= 15) (snd (position b)).
Proof.
  intros ((_ & A) & (_ & B) & (C & D) & _).
  split; [apply total_bound in A|apply total_bound in B]; (eapply Forall_impl; [|eassumption]); cbn; intros; lia.
Qed.

(* what no call of a game touches *)
Definition kept (b0 : board) (b : board) : Prop :=
  cube_owner b = cube_owner b0 /\ match_length b = match_length b0 /\ crawford b = crawford b0 /\
  0 <= fst (rolled b) <= 6 /\ 0 <= snd (rolled b) <= 6.
Lemma kept_agree b0 b b' : (forall x, x <> FPosition -> agree x b b') -> kept b0 b -> kept b0 b'.
Proof.
  intros H. pose proof (H FOwner ltac:(discriminate)) as A. pose proof (H FLength ltac:(discriminate)) as B.
  pose proof (H FCrawford ltac:(discriminate)) as C. pose proof (H FRolled ltac:(discriminate)) as D. cbn in *.
  unfold kept. rewrite A, B, C, D. auto.
Qed.
Lemma set_position_agree p b x : x <> FPosition -> agree x b (set_position p b).
Proof. destruct x; cbn; congruence. Qed.
Section Kept.
Variable lim : Z -> Z.
Variable b0 : board.
Lemma pickup_kept f : sound_turn lim f -> replays lim f -> kept b0 (fboard f) -> kept b0 (fst (fac_pickupdice f)).
Proof.
  intros (PR & (P1 & P2) & D1 & D2 & WP & FW) RP K. pose proof RP as (pos & PP & I & ST & A).
  destruct (pickup_query (set_position pos (fboard f)) (fmove f) f (proper_wf lim (set_position pos (fboard f)) P1 PP) D1 D2 I ST A (proper_wf lim _ P1 PR))
    as (b' & r & E & B & _).
  assert (K' : kept b0 b').
  { destruct B as [->|[-> _]]; auto. }
  unfold fac_pickupdice. rewrite E. destruct r; auto. unfold pickupdice.
  destruct (get_opp (on_action (set_rolled (0, 0) b'))); [|cbn; unfold kept in *; cbn; intuition lia].
  match goal with |- context [get_opp ?x] => destruct (get_opp x) end; cbn; unfold kept in *; cbn; intuition lia.
Qed.
Lemma deal_kept d t sp : fair d -> (d = DPickup -> sp = false) -> sound_table lim sp t -> kept b0 (board_of t) ->
  kept b0 (board_of (deal d t)).
Proof.
  intros F Q ST K. destruct d as [r|q| |a], t as [b|f]; cbn [deal fair board_of] in *; auto.
  - destruct (is_leagal_to_roll b (on_action b)); auto. cbn [board_of new_factory fboard]. unfold kept, a_die in *.
    cbn. intuition lia.
  - destruct ST as [(PR & (P1 & P2) & D1 & D2 & WP & FW) _].
    destruct (answer_run lim q f F (proper_wf lim _ P1 PR) WP FW) as (r & b' & p' & E & R & _). rewrite E. cbn [fboard].
    eapply kept_agree; [|exact K]. intros x. apply run_frame with (1 := R).
  - destruct ST as [S1 S2]. rewrite (Q eq_refl) in *. pose proof (pickup_kept f S1 (S2 eq_refl) K) as G.
    destruct (fac_pickupdice f) as [b [u|e]]; auto.
  - destruct (talk_frame a b F) as (_ & _ & E3 & _ & E5 & E6 & E7). unfold kept. rewrite E3, E5, E6, E7. auto.
  - destruct (talk_frame a (fboard f) F) as (_ & _ & E3 & _ & E5 & E6 & E7). unfold kept, on_board. cbn [fboard]. rewrite E3, E5, E6, E7. auto.
Qed.
Lemma game_kept ds : forall t sp, Forall fair ds -> quiet sp ds t -> sound_table lim sp t -> kept b0 (board_of t) ->
  (exists sp', sound_table lim sp' (game ds t)) /\ kept b0 (board_of (game ds t)).
Proof.
  induction ds as [|d ds IH]; cbn [game quiet]; intros t sp F Q ST K; [eauto|].
  inversion F; subst. destruct Q as [Q1 Q2]. eapply IH; eauto; [apply deal_sound; auto|eapply deal_kept; eauto].
Qed.
End Kept.

Lemma reached_facts b : reached b -> proper b /\ seated b /\ 0 <= fst (rolled b) <= 6 /\ 0 <= snd (rolled b) <= 6 /\
  seat (cube_owner b) /\ 0 <= match_length b /\ (crawford b = true -> 0 < match_length b).
Proof.
  intros (b0 & ds & (PR & SE & R0 & CO & ML & CR) & F & Q & ->).
  destruct (game_kept (fun _ => 15) b0 ds (Waiting b0) false F Q) as [(sp & G) K].
  { split; auto. } { cbn. unfold kept. rewrite R0. cbn. auto 10 with zarith. }
  destruct K as (K1 & K2 & K3 & K4). rewrite K1, K2, K3.
  assert (PS : proper (board_of (game ds (Waiting b0))) /\ seated (board_of (game ds (Waiting b0)))).
  { destruct (game ds (Waiting b0)); [apply G|]. destruct G as [(A & B & _) _]. split; auto. }
  destruct PS. intuition.
Qed.
Lemma reached_codes :
  (forall b, reached b ->
     GnuModel.decode_position 3 (GnuModel.encode_position (position b)) = Ok (position b) /\
     (exists e, DbModel.db_new b = Ok e /\ DbModel.db_tomodel e = Ok b) /\
     (game_state b = 1 -> on_inner_action b = on_action b -> forall m max, ~ In XgidSpec.colon max ->
        XgidModel.decode m (XgidSpec.x_text b max) = (set_doubled (doubled m) (set_resign_offer (resign_offer m) b), Ok tt))) /\
  (forall b b', reached b -> reached b' ->
     GnuModel.encode_position (position b) = GnuModel.encode_position (position b') -> position b = position b').
Proof.
  split.
  - intros b RE. destruct (reached_facts b RE) as (PR & (P1 & P2) & R1 & R2 & CO & ML & CR).
    destruct (proper_counts b PR) as [C1 C2]. pose proof PR as ((L1 & N1) & (L2 & N2) & _ & NS).
    split; [apply (proj1 GnuMatchProofs.position_id); [split; auto..|lia]|]. split.
    + apply (proj1 DbProofs.db_roundtrip); auto. unfold mover, side, other, DbSpec.codable. cbn [fst snd].
      assert (B1 : forall l, Forall (fun x => 0 <= x <= 15) l -> Forall (fun x => 0 <= x <= 127) l /\ Forall (fun x => 0 <= x <= 128) l).
      { intros l H; split; (eapply Forall_impl; [|exact H]); cbn; intros; lia. }
      destruct (B1 _ C1) as [X1 X2], (B1 _ C2) as [Y1 Y2].
      destruct P1 as [-> | ->]; cbn [Z.eqb Pos.eqb Z.sub Z.add Z.opp Z.pos_sub Pos.pred_double]; cbn; auto.
      refine (conj L2 (conj L1 (conj Y1 (conj X2 _)))). intros n Hn.
      destruct (NS (23 - n) ltac:(lia)) as [E|E]; [right; exact E|left]. replace (23 - (23 - n)) with n in E by lia. auto.
    + intros GS OI m max NC. apply XgidProofs.xgid_roundtrip; auto. unfold XgidSpec.x_expressible.
      split; auto. split; auto. split.
      { intros k Hk. destruct (NS (Z.of_nat (23 - k)) ltac:(lia)) as [E|E]; unfold count in E.
        - right. rewrite Nat2Z.id in E. auto.
        - left. replace (Z.to_nat (23 - Z.of_nat (23 - k))) with k in E by lia. auto. }
      split; [unfold seat in CO; tauto|]. split; auto. split; auto. split; [lia|]. auto.
  - intros b b' R1 R2 E. destruct (reached_facts b R1) as ((A & B & _) & _). destruct (reached_facts b' R2) as ((A' & B' & _) & _).
    apply (proj1 (proj2 GnuMatchProofs.position_id)); auto.
Qed.
