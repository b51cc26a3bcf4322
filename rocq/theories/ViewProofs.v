(* C162: which boards have the same identifiers *)
From Coq Require Import Lia.
From Verif Require Import Py UtilModel BoardModel BoardSpec GnuModel GnuSpec GnuProofs GnuMatchProofs ViewSpec.

Lemma same_match_ids (ov : list bool -> Z -> Z -> Z -> res (list bool)) m n : fits m -> fits n -> encode_match (match_bits m) = encode_match (match_bits n) <-> same_match m n.
Proof.
  intros F G. split.
  - intros E. destruct (match_id ov (fun _ => Exc TypeError) m 3 F (le_n 3)) as (d & _ & -> & _ & _ & Rd & Bd).
    destruct (match_id ov (fun _ => Exc TypeError) n 3 G (le_n 3)) as (e & _ & -> & _ & _ & Re & Be).
    rewrite E in Rd. assert (Q : match_bits m = match_bits n) by congruence. specialize (Bd n). specialize (Be n). rewrite Q, Be in Bd.
    unfold same_match. rewrite <- Bd. destruct n; reflexivity.
  - unfold same_match. intros <-. reflexivity.
Qed.
Lemma view_same (p q : list Z * list Z) : fst p = fst q -> snd p = snd q -> p = q.
Proof. destruct p, q. cbn. congruence. Qed.
Lemma identifiers : forall ov m n pid mid pid' mid', fits m -> fits n ->
  wf_side (fst (position m)) -> wf_side (snd (position m)) -> wf_side (fst (position n)) -> wf_side (snd (position n)) ->
  encode ov m = Ok (pid, mid) -> encode ov n = Ok (pid', mid') ->
  (pid = pid' <-> view m = view n) /\ (mid = mid' <-> same_match m n) /\ (pid = pid' /\ mid = mid' <-> m = n).
Proof.
  intros ov m n pid mid pid' mid' F G A B C D E E'. rewrite encode_fits in E by exact F. rewrite encode_fits in E' by exact G.
  injection E as <- <-. injection E' as <- <-. fold (view m) (view n).
  assert (W : forall b, wf_side (fst (position b)) -> wf_side (snd (position b)) -> wf_side (fst (view b)) /\ wf_side (snd (view b))).
  { intros b X Y. unfold view. destruct (on_action b =? 0); split; assumption. }
  destruct (W m A B) as [W1 W2]. destruct (W n C D) as [W3 W4].
  assert (P : encode_position (view m) = encode_position (view n) <-> view m = view n).
  { split; [|intros ->; reflexivity]. apply (proj1 (proj2 position_id)); assumption. }
  pose proof (same_match_ids ov m n F G) as M. split; [exact P|]. split; [exact M|]. split; [|intros ->; auto].
  intros [H1 H2]. apply P in H1. apply M in H2. unfold same_match in H2.
  assert (O : on_action m = on_action n) by (rewrite <- H2; reflexivity). unfold view in H1. rewrite O in H1.
  assert (Q : position m = position n).
  { destruct (on_action n =? 0); [|exact H1]. injection H1 as X Y. apply view_same; assumption. }
  rewrite <- H2, <- Q. destruct m; reflexivity.
Qed.
Lemma turned_view m : fits m -> view (turned m) = view m /\ fits (turned m).
Proof.
  intros F. split.
  - destruct F as (_ & _ & P & _). unfold view, turned. destruct m as [[f g] ? ? o ? ? ? ? ? ? ? ?]. cbn in *. destruct P as [->| ->]; reflexivity.
  - destruct F as (F1 & F2 & F3 & F4). split; [exact F1|]. split; [exact F2|]. split; [|exact F4]. change (player (1 - on_action m)). unfold player in *. lia.
Qed.
Lemma which_board :
  (forall ov m n pid mid pid' mid', fits m -> fits n ->
     wf_side (fst (position m)) -> wf_side (snd (position m)) -> wf_side (fst (position n)) -> wf_side (snd (position n)) ->
     encode ov m = Ok (pid, mid) -> encode ov n = Ok (pid', mid') ->
     (pid = pid' <-> view m = view n) /\ (mid = mid' <-> same_match m n) /\ (pid = pid' /\ mid = mid' <-> m = n)) /\
  (forall ov m pid mid, fits m -> encode ov m = Ok (pid, mid) -> exists mid', encode ov (turned m) = Ok (pid, mid') /\ mid' <> mid).
Proof.
  split; [exact identifiers|]. intros ov m pid mid F E. destruct (turned_view m F) as [V T]. rewrite encode_fits in E by exact F. injection E as <- <-.
  rewrite encode_fits by exact T. fold (view m) (view (turned m)). rewrite V. eexists. split; [reflexivity|].
  intros H. apply (same_match_ids ov (turned m) m T F) in H. unfold same_match in H. apply (f_equal on_action) in H. change (1 - on_action m = on_action m) in H. lia.
Qed.
(* the editor's flip *)
Lemma flip_keeps : forall ov m pid mid, fits m -> cube_owner m <> 2 -> encode ov m = Ok (pid, mid) ->
  exists m' mid', flip m = (m', Ok tt) /\ encode ov m' = Ok (pid, mid') /\ mid' <> mid.
Proof.
  intros ov m pid mid F N E.
  assert (S : exists m', flip m = (m', Ok tt) /\ fits m' /\ view m' = view m /\ on_action m' = 1 - on_action m).
  { destruct F as (F1 & F2 & F3 & F4 & F5 & F6 & F7 & F8 & F9). destruct m as [[f g] c o a cr gs i d r rl ml [s t]].
    cbn [on_action on_inner_action cube_owner cube_in_logarithm game_state resign_offer rolled match_length score fst snd] in *.
    assert (O : o = 0 \/ o = 1 \/ o = 3) by lia. unfold fits, player, view.
    destruct O as [->|[->| ->]], F3 as [->| ->], F5 as [->| ->]; eexists; (split; [unfold flip; cbn; reflexivity|]); cbn [set_on_action set_on_inner_action set_position set_score set_cube_owner fst snd position on_action on_inner_action cube_owner cube_in_logarithm game_state resign_offer rolled match_length score]; (split; [repeat match goal with |- _ /\ _ => split end; unfold HIM, YOU, CENTER; auto; lia|split; reflexivity]). }
  destruct S as (m' & Ef & F' & V & A). exists m'. rewrite encode_fits in E by exact F. injection E as <- <-. rewrite encode_fits by exact F'.
  fold (view m) (view m'). rewrite V. eexists. split; [exact Ef|]. split; [reflexivity|].
  intros H. apply (same_match_ids ov m' m F' F) in H. unfold same_match in H. apply (f_equal on_action) in H. change (on_action m' = on_action m) in H. lia.
Qed.
