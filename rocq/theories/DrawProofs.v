(* C166: games drawn by the themes *)
From Coq Require Import Lia.
From Verif Require Import Py PyFacts UtilModel BoardModel BoardSpec BoardProofs MoveModel MoveSpec PickupProofs.
From Verif Require Import GameModel GameSpec GameProofs GameCodes.
From Verif Require Import ImageModel ImageSpec ImageProofs ImageReach.
From Verif Require ThemeSpec ThemeProofs ThemeModel ImageModel.
From Verif Require Import DrawSpec.

Lemma laid_agree b b' : (forall x, x <> FPosition -> agree x b b') -> sides_ok b' -> laid_out b -> laid_out b'.
Proof.
  intros H. pose proof (H FOwner ltac:(discriminate)) as A. pose proof (H FCube ltac:(discriminate)) as C.
  pose proof (H FRolled ltac:(discriminate)) as D. pose proof (H FOnAction ltac:(discriminate)) as E.
  pose proof (H FInner ltac:(discriminate)) as F. pose proof (H FDoubled ltac:(discriminate)) as G. pose proof (H FResign ltac:(discriminate)) as I.
  cbn in *. unfold laid_out, at_rest, in_play. rewrite A, C, D, E, F, G, I. intuition.
Qed.
Lemma laid_fields a b : laid_out b -> (forall d, a <> ARoll d) -> laid_out (fst (act a b)).
Proof.
  intros (R & D & C) N. split; [apply act_at_rest, R|]. clear R.
  destruct a as [w| |w|w|w k|w|w| |d|pm]; cbn [act]; try (exfalso; eapply N; reflexivity).
  all: unfold double, redouble, take, drop, offer_resign, accept_resign, reject_resign, pickupdice, make_partial_move.
  all: repeat match goal with
    | |- context [match ?x with _ => _ end] => destruct x eqn:?; cbn in *
    | |- context [if ?x then _ else _] => destruct x eqn:?; cbn in * end.
  all: try (split; [assumption|lia]); try (split; [left; reflexivity|lia]); auto.
Qed.
Section Drawn.
Variable lim : Z -> Z.
Lemma within_sides b : GameSpec.within lim b -> sides_ok b.
Proof. intros ((A & _) & (B & _) & _). split; assumption. Qed.
Lemma laid_turn f : sound_turn lim f -> replays lim f -> laid_out (fboard f) -> laid_out (fst (fac_pickupdice f)).
Proof.
  intros (PR & (P1 & P2) & D1 & D2 & WP & FW) RP K. pose proof RP as (pos & PP & I & ST & A).
  destruct (pickup_query (set_position pos (fboard f)) (fmove f) f (proper_wf lim (set_position pos (fboard f)) P1 PP) D1 D2 I ST A (proper_wf lim _ P1 PR))
    as (b' & r & E & B & _).
  assert (K' : laid_out b').
  { destruct B as [->|[-> _]]; auto. eapply laid_agree; [|apply within_sides, PP|exact K]. intros x N. destruct x; cbn; auto; congruence. }
  unfold fac_pickupdice. rewrite E. destruct r; auto. apply (laid_fields APickup); [exact K'|discriminate].
Qed.
Lemma laid_talk a b : talk a = true -> laid_out b -> laid_out (fst (act a b)).
Proof. intros T K. apply laid_fields; [exact K|]. intros d ->. discriminate T. Qed.
Lemma laid_deal d t sp : fair d -> (d = DPickup -> sp = false) -> sound_table lim sp t -> laid_out (board_of t) -> laid_out (board_of (deal d t)).
Proof.
  intros F Q ST K. pose proof (deal_sound lim d t sp F Q ST) as ST'. destruct d as [r|q| |a], t as [b|f]; cbn [deal fair board_of] in *; auto.
  - destruct (is_leagal_to_roll b (on_action b)); auto. cbn [board_of new_factory fboard]. destruct K as (K & _ & C).
    split; [exact (act_at_rest (ARoll r) b K)|]. split; [right; unfold a_die in F; exact F|exact C].
  - destruct ST as [(PR & (P1 & P2) & D1 & D2 & WP & FW) _].
    destruct (answer_run lim q f F (proper_wf lim _ P1 PR) WP FW) as (r & b' & p' & E & R & _). rewrite E in *. cbn [fboard] in *.
    eapply laid_agree; [intros x; apply run_frame with (1 := R)| |exact K]. apply within_sides. destruct ST' as [(W & _) _]. exact W.
  - destruct ST as [S1 S2]. rewrite (Q eq_refl) in *. pose proof (laid_turn f S1 (S2 eq_refl) K) as G.
    destruct (fac_pickupdice f) as [b [u|e]]; auto.
  - apply laid_talk; [apply F|exact K].
  - cbn [on_board fboard]. apply laid_talk; [apply F|exact K].
Qed.
Lemma laid_game ds : forall t sp, Forall fair ds -> quiet sp ds t -> sound_table lim sp t -> laid_out (board_of t) ->
  (exists sp', sound_table lim sp' (game ds t)) /\ laid_out (board_of (game ds t)).
Proof.
  induction ds as [|d ds IH]; cbn [game quiet]; intros t sp F Q ST K; [eauto|].
  inversion F; subst. destruct Q as [Q1 Q2]. eapply IH; eauto; [apply deal_sound; auto|eapply laid_deal; eauto].
Qed.
End Drawn.
Lemma laid_proper b : proper b -> laid_out b -> ThemeSpec.proper b.
Proof.
  intros ((A & A') & (B & B') & (T1 & T2) & _) ((P & _) & D & C). rewrite Forall_forall in A', B'.
  split; [intros s [->| ->]; auto|]. split; [exact D|]. split; [exact C|]. apply in_play_drawable, P.
Qed.
Lemma laid_seated b : laid_out b -> seated b.
Proof. intros (((_ & _ & A & B & _) & _) & _). unfold player_no in A, B. split; unfold player; [destruct A as [->| ->]|destruct B as [->| ->]]; vm_compute; auto. Qed.
Lemma game_drawn : forall b0 ds, proper b0 -> laid_out b0 -> Forall fair ds -> quiet false ds (Waiting b0) ->
  let b := board_of (game ds (Waiting b0)) in
  (exists t, board_tree b = Ok t /\ shows_chequers b t /\ shows_cube b t /\ shows_dice b t /\ shows_resign b t /\ shows_match b t) /\
  forall name w h, In (name, (w, h)) ThemeSpec.theme_sizes -> exists rs cs, ThemeSpec.ships name rs w h /\ ImageModel.draw rs b (w, h) = Ok cs /\ cs <> [].
Proof.
  intros b0 ds P Lb F Q b.
  destruct (laid_game (fun _ => 15) ds (Waiting b0) false F Q) as [(sp & G) K].
  { split; [exact P|apply laid_seated, Lb]. } { exact Lb. }
  assert (W : proper b).
  { subst b. destruct (game ds (Waiting b0)); [apply G|]. destruct G as [(A & _) _]. exact A. }
  fold b in K. pose proof (laid_proper b W K) as TP. pose proof (proj1 (proj1 (proj1 K))) as S. split.
  - destruct (reach_shown [] b (proj1 K)) as (t & E). exists t. split; [exact E|]. apply (tree_shows_board b t S E).
  - intros name w h I. destruct (ThemeProofs.themes_draw name w h I) as (rs & Sh & D). destruct (D b TP) as ((cs & E) & _). exists rs, cs. auto.
Qed.
