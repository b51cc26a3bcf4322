(* C164: whole games by the suggestions of the library *)
From Coq Require Import Lia.
From Verif Require Import Py PyFacts UtilModel BoardModel BoardSpec BoardProofs MoveModel MoveSpec PickupProofs.
From Verif Require Import GameModel GameSpec GameProofs GameCodes.
From Verif Require GnuModel GnuMatchProofs.
From Verif Require Import GnuSpec SaveSpec SaveProofs.

Lemma good_agree b b' : (forall x, x <> FPosition -> agree x b b') -> good_fields b -> good_fields b'.
Proof.
  intros H. pose proof (H FOwner ltac:(discriminate)) as A. pose proof (H FLength ltac:(discriminate)) as B.
  pose proof (H FCube ltac:(discriminate)) as C. pose proof (H FRolled ltac:(discriminate)) as D. pose proof (H FOnAction ltac:(discriminate)) as E.
  pose proof (H FInner ltac:(discriminate)) as F. pose proof (H FState ltac:(discriminate)) as G. pose proof (H FResign ltac:(discriminate)) as I.
  pose proof (H FScore ltac:(discriminate)) as J. cbn in *. unfold good_fields. rewrite A, B, C, D, E, F, G, I, J. auto.
Qed.
Section Saved.
Variable lim : Z -> Z.
Lemma good_turn f : sound_turn lim f -> replays lim f -> good_fields (fboard f) -> good_fields (fst (fac_pickupdice f)).
Proof.
  intros (PR & (P1 & P2) & D1 & D2 & WP & FW) RP K. pose proof RP as (pos & PP & I & ST & A).
  destruct (pickup_query (set_position pos (fboard f)) (fmove f) f (proper_wf lim (set_position pos (fboard f)) P1 PP) D1 D2 I ST A (proper_wf lim _ P1 PR))
    as (b' & r & E & B & _).
  assert (K' : good_fields b').
  { destruct B as [->|[-> _]]; auto. }
  unfold fac_pickupdice. rewrite E. destruct r; auto. apply good_pickup, K'.
Qed.
Lemma talk_real a : talk a = true -> real_dice a.
Proof. destruct a; cbn; try discriminate; auto. Qed.
Lemma good_deal d t sp : fair d -> (d = DPickup -> sp = false) -> sound_table lim sp t -> good_fields (board_of t) -> good_fields (board_of (deal d t)).
Proof.
  intros F Q ST K. destruct d as [r|q| |a], t as [b|f]; cbn [deal fair board_of] in *; auto.
  - destruct (is_leagal_to_roll b (on_action b)); auto. cbn [board_of new_factory fboard]. apply good_roll; [unfold a_die in F; lia|exact K].
  - destruct ST as [(PR & (P1 & P2) & D1 & D2 & WP & FW) _].
    destruct (answer_run lim q f F (proper_wf lim _ P1 PR) WP FW) as (r & b' & p' & E & R & _). rewrite E. cbn [fboard].
    eapply good_agree; [|exact K]. intros x. apply run_frame with (1 := R).
  - destruct ST as [S1 S2]. rewrite (Q eq_refl) in *. pose proof (good_turn f S1 (S2 eq_refl) K) as G.
    destruct (fac_pickupdice f) as [b [u|e]]; auto.
  - apply good_act; [apply talk_real, F|exact K].
  - cbn [on_board fboard]. apply good_act; [apply talk_real, F|exact K].
Qed.
Lemma good_game ds : forall t sp, Forall fair ds -> quiet sp ds t -> sound_table lim sp t -> good_fields (board_of t) ->
  (exists sp', sound_table lim sp' (game ds t)) /\ good_fields (board_of (game ds t)).
Proof.
  induction ds as [|d ds IH]; cbn [game quiet]; intros t sp F Q ST K; [eauto|].
  inversion F; subst. destruct Q as [Q1 Q2]. eapply IH; eauto; [apply deal_sound; auto|eapply good_deal; eauto].
Qed.
End Saved.

Lemma game_saved : forall b0 ds, proper b0 -> fits b0 -> ~ scored_money b0 -> Forall fair ds -> quiet false ds (Waiting b0) ->
  let b := board_of (game ds (Waiting b0)) in score_fits b ->
  forall ov, exists pid mid, GnuModel.encode ov b = Ok (pid, mid) /\
    forall od fuel x, (3 <= fuel)%nat -> GnuModel.decode od fuel x pid mid = (b, Ok tt).
Proof.
  intros b0 ds P Fb S F Q b Sc ov.
  assert (SE : seated b0) by (split; apply Fb).
  destruct (good_game (fun _ => 15) ds (Waiting b0) false F Q) as [(sp & G) K].
  { split; auto. } { cbn [board_of]. apply fits_good; assumption. }
  apply good_saved; [exact K|exact Sc| |]; destruct (game ds (Waiting b0)); try apply G; destruct G as [(A & _) _]; apply A.
Qed.
