(* Lemmas for C135 to C137 *)
From Verif Require Import Py PyFacts UtilModel BoardModel BoardSpec BoardProofs TalkSpec.

Lemma acts_app l1 l2 b : acts (l1 ++ l2) b = acts l2 (acts l1 b).
Proof. revert b. induction l1 as [|a l1 IH]; intro b; [reflexivity|]. apply IH. Qed.
Lemma opp w : player w -> get_opp w = Ok (other w) /\ player (other w) /\ other w <> w.
Proof. intros [-> | ->]; vm_compute; repeat split; auto; discriminate. Qed.

Lemma opp_player w o : get_opp w = Ok o -> player o.
Proof. unfold get_opp. intro E. repeat match goal with H : context [if ?c then _ else _] |- _ => destruct c end; try discriminate E; apply (f_equal (fun r => match r with Ok x => x | Exc _ => 0 end)) in E; subst o; first [left; reflexivity | right; reflexivity]. Qed.

(* somebody has an offer to answer, or it is the turn of the player on action; a resignation that came back to who made it needs a double *)
Definition live (b : board) : Prop :=
  player (on_action b) /\ player (on_inner_action b) /\ 0 <= resign_offer b <= 3 /\
  (on_inner_action b = on_action b \/ doubled b = true \/ resign_offer b <> 0) /\
  (on_inner_action b = on_action b -> resign_offer b = 0 \/ doubled b = true).
Lemma resign_types z : zmem z RESIGN_TYPES = true <-> 1 <= z <= 3.
Proof.
  unfold zmem, RESIGN_TYPES. cbn [existsb]. unfold RESIGN_SINGLE, RESIGN_GAMMON, RESIGN_BACKGAMMON. split; [|intros H; assert (z = 1 \/ z = 2 \/ z = 3) as [-> | [-> | ->]] by lia; reflexivity].
  intro H. repeat (apply orb_prop in H; destruct H as [H|H]; [apply Z.eqb_eq in H; lia|]). discriminate.
Qed.
Lemma live_act a b : live b -> live (fst (act a b)).
Proof.
  intros (P & Q & R & I & J). destruct (opp _ P) as (EP & PP & NP). destruct (opp _ Q) as (EQ & PQ & NQ).
  assert (Keep : forall b', on_action b' = on_action b -> on_inner_action b' = on_inner_action b -> resign_offer b' = resign_offer b -> doubled b' = doubled b -> live b').
  { intros b' E1 E2 E3 E4. unfold live. rewrite E1, E2, E3, E4. auto. }
  destruct a as [w| |w|w|w k|w|w| |d|pm]; cbn [act].
  - unfold double. destruct (is_leagal_to_double b w) as [[|]|e] eqn:E; try (apply Keep; reflexivity). destruct (get_opp w) as [o|e] eqn:Eo; [|apply Keep; reflexivity]. cbn [fst].
    assert (Po : player o) by (exact (opp_player w o Eo)).
    unfold live. cbn. repeat split; auto; apply R.
  - apply Keep; reflexivity.
  - unfold take. destruct (is_cube_take_or_pass b w) eqn:E; [|apply Keep; reflexivity]. unfold is_cube_take_or_pass in E. repeat (apply andb_prop in E; destruct E as [E ?]). cbn [fst]. unfold live. cbn. repeat split; auto; apply R.
  - unfold drop. destruct (negb (is_cube_take_or_pass b w)); [apply Keep; reflexivity|]. match goal with |- context [match ?r with Ok _ => _ | Exc _ => _ end] => destruct r end; apply Keep; reflexivity.
  - unfold offer_resign. destruct (negb (is_leagal_to_resign b w)) eqn:E; [apply Keep; reflexivity|]. destruct (zmem k RESIGN_TYPES) eqn:K; [|apply Keep; reflexivity]. cbn [negb].
    apply negb_false_iff in E. unfold is_leagal_to_resign in E. apply andb_prop in E. destruct E as [E1 E2]. apply Z.eqb_eq in E1, E2. subst w. apply resign_types in K. rewrite EP. cbn [fst]. unfold live. cbn. repeat split; auto; try lia; try apply PP; try (intro X; rewrite X in NP; congruence).
  - unfold accept_resign. destruct (negb (is_to_accept_resign b w)); [apply Keep; reflexivity|]. match goal with |- context [match ?r with Ok _ => _ | Exc _ => _ end] => destruct r end; apply Keep; reflexivity.
  - unfold reject_resign. destruct (negb (is_to_accept_resign b w)) eqn:E; [apply Keep; reflexivity|]. apply negb_false_iff in E. unfold is_to_accept_resign in E. apply andb_prop in E. destruct E as [E1 E2]. apply Z.eqb_eq in E2. subst w. rewrite EQ. cbn [fst].
    apply resign_types in E1. unfold live. cbn. split; [exact P|]. split; [exact PQ|]. unfold RESIGN_NONE. split; [lia|]. split; [|auto].
    destruct (Z.eq_dec (on_inner_action b) (on_action b)) as [X|X]; [right; left; destruct (J X) as [J1|J1]; [exfalso; rewrite J1 in E1; destruct E1 as [E1 _]; apply E1; reflexivity|exact J1]|]. left. assert (Y : other (on_inner_action b) = on_action b) by (clear - P Q X; unfold other, player in *; lia). exact Y.
  - unfold pickupdice. cbn [set_rolled on_action on_inner_action set_on_action]. rewrite EP. cbn. rewrite EQ. cbn. unfold live. cbn. repeat split; auto; try apply PP; try apply PQ; try apply R.
    + destruct I as [I|I]; [left; rewrite I; reflexivity|right; exact I].
    + intro X. apply J. assert (Y : other (on_inner_action b) = other (on_action b)) by exact X. unfold other in Y. lia.
  - apply Keep; reflexivity.
  - unfold make_partial_move. destruct (sides b) as [[m h]|]; [|apply Keep; reflexivity]. destruct (move_sides pm m h) as [[m' h']|e]; [|apply Keep; reflexivity]. destruct (on_action b =? YOU); apply Keep; reflexivity.
Qed.
Lemma live_acts l : forall b, live b -> live (acts l b).
Proof. induction l as [|a l IH]; intros b H; [exact H|]. apply IH, live_act, H. Qed.
Lemma live_new b : new_game b -> live b.
Proof. intros (P & I & _ & D & R). unfold live. rewrite I, R. repeat split; auto; lia. Qed.

Lemma somebody_goes_on : forall b l, new_game b -> game_state (acts l b) = 1 ->
  exists w, player w /\ can_go_on (acts l b) w /\ forall v, can_go_on (acts l b) v -> v = w.
Proof.
  intros b l N G. pose proof (live_acts l b (live_new b N)) as (P & Q & R & I & _). set (c := acts l b) in *. clearbody c. exists (on_inner_action c). split; [exact Q|].
  split.
  - unfold can_go_on. destruct (Z.eq_dec (resign_offer c) 0) as [R0|R0].
    + destruct (Z.eq_dec (on_inner_action c) (on_action c)) as [X|X].
      * unfold is_leagal_to_roll, is_leagal_to_move. rewrite G, R0, X. change (1 =? ON_GOING) with true. change (0 =? RESIGN_NONE) with true. rewrite !Z.eqb_refl. cbn [andb]. destruct (zpair_eqb (rolled c) (0, 0)); cbn; auto.
      * right; right; left. unfold is_cube_take_or_pass. destruct I as [I|[I|I]]; try congruence. rewrite I, Z.eqb_refl. cbn [andb]. apply Z.eqb_neq in X. rewrite X. reflexivity.
    + right; right; right. unfold is_to_accept_resign. rewrite Z.eqb_refl. replace (zmem (resign_offer c) RESIGN_TYPES) with true; [reflexivity|]. symmetry. apply resign_types. lia.
  - intros v [H|[H|[H|H]]]; unfold is_leagal_to_roll, is_leagal_to_move, is_cube_take_or_pass, is_to_accept_resign in H; repeat (apply andb_prop in H; destruct H as [H ?]);
      repeat match goal with X : (_ =? _) = true |- _ => apply Z.eqb_eq in X end; congruence.
Qed.

(* ---- the end of a game ---- *)
Lemma cube_act a b : cube_in_logarithm (fst (act a b)) = cube_in_logarithm b.
Proof.
  destruct a as [w| |w|w|w k|w|w| |d|pm]; cbn [act]; try reflexivity.
  - unfold double. destruct (is_leagal_to_double b w) as [[|]|e]; try reflexivity. destruct (get_opp w); reflexivity.
  - unfold take. destruct (is_cube_take_or_pass b w); reflexivity.
  - unfold drop. destruct (negb (is_cube_take_or_pass b w)); [reflexivity|]. match goal with |- context [match ?r with Ok _ => _ | Exc _ => _ end] => destruct r end; reflexivity.
  - unfold offer_resign. destruct (negb (is_leagal_to_resign b w)), (negb (zmem k RESIGN_TYPES)); try reflexivity. destruct (get_opp w); reflexivity.
  - unfold accept_resign. destruct (negb (is_to_accept_resign b w)); [reflexivity|]. match goal with |- context [match ?r with Ok _ => _ | Exc _ => _ end] => destruct r end; reflexivity.
  - unfold reject_resign. destruct (negb (is_to_accept_resign b w)); [reflexivity|]. destruct (get_opp w); reflexivity.
  - unfold pickupdice. cbn. destruct (get_opp (on_action b)); [|reflexivity]. cbn. destruct (get_opp (on_inner_action b)); reflexivity.
  - unfold make_partial_move. destruct (sides b) as [[m h]|]; [|reflexivity]. destruct (move_sides pm m h) as [[m' h']|e]; [|reflexivity]. destruct (on_action b =? YOU); reflexivity.
Qed.
Lemma drop_ok b w : live b -> cube_shown b -> is_cube_take_or_pass b w = true -> exists b', drop w b = (b', Ok tt) /\ game_state b' = 4.
Proof.
  intros (P & Q & R & _) C E. destruct bookkeeping as (D & _). unfold is_cube_take_or_pass in E. apply andb_prop in E. destruct E as [E E3]. apply andb_prop in E. destruct E as [E1 E2]. apply Z.eqb_eq in E3. apply negb_true_iff in E2. apply Z.eqb_neq in E2.
  destruct (D b w) as (b' & X & _ & _ & G & _); [congruence|exact C|unfold may_answer_double; repeat split; congruence|]. exists b'. auto.
Qed.
Lemma accept_ok b w : live b -> cube_shown b -> is_to_accept_resign b w = true -> exists b', accept_resign w b = (b', Ok tt) /\ game_state b' = 3.
Proof.
  intros (P & Q & R & _) C E. destruct bookkeeping as (_ & A & _). unfold is_to_accept_resign in E. apply andb_prop in E. destruct E as [E1 E2]. apply Z.eqb_eq in E2. apply resign_types in E1.
  destruct (A b w) as (b' & X & _ & _ & G & _); [congruence|exact C|unfold may_answer_resign; split; congruence || lia|]. exists b'. auto.
Qed.
Lemma scoring_act a b : live b -> cube_shown b -> scoring a = true ->
  (snd (act a b) = Ok tt /\ game_state (fst (act a b)) = match a with ADrop _ => 4 | _ => 3 end) \/ (snd (act a b) = Exc AssertionError /\ fst (act a b) = b).
Proof.
  intros V C S. destruct a as [| | |w| |w| | | |]; try discriminate S; cbn [act].
  - destruct (is_cube_take_or_pass b w) eqn:E; [left; destruct (drop_ok b w V C E) as (b' & -> & G); auto|right; unfold drop; rewrite E; auto].
  - destruct (is_to_accept_resign b w) eqn:E; [left; destruct (accept_ok b w V C E) as (b' & -> & G); auto|right; unfold accept_resign; rewrite E; auto].
Qed.
Lemma state_act a b : live b -> cube_shown b -> game_state b = 1 ->
  game_state (fst (act a b)) = 1 \/ (scoring a = true /\ snd (act a b) = Ok tt /\ game_state (fst (act a b)) = match a with ADrop _ => 4 | _ => 3 end).
Proof.
  intros V C G. destruct (scoring a) eqn:S; [|left; rewrite act_other_state by exact S; exact G]. destruct (scoring_act a b V C S) as [[X Y]|[X Y]]; [right; auto|left; rewrite Y; exact G].
Qed.
Lemma game_ends : forall b l, new_game b -> cube_shown b ->
  (game_state (acts l b) <> 1 <-> exists l1 a l2, l = l1 ++ a :: l2 /\ scoring a = true /\ snd (act a (acts l1 b)) = Ok tt).
Proof.
  intros b l N C. pose proof (live_new b N) as V. destruct N as (_ & _ & G & _). revert b V C G. induction l as [|a l IH]; intros b V C G.
  - cbn. split; [congruence|]. intros (l1 & a & l2 & E & _). destruct l1; discriminate E.
  - cbn [acts]. destruct (state_act a b V C G) as [G'|(S & X & Y)].
    + assert (C' : cube_shown (fst (act a b))) by (unfold cube_shown; rewrite cube_act; exact C). rewrite (IH _ (live_act a b V) C' G'). split.
      * intros (l1 & x & l2 & E & S & X). exists (a :: l1), x, l2. split; [rewrite E; reflexivity|]. split; [exact S|exact X].
      * intros (l1 & x & l2 & E & S & X). destruct l1 as [|y l1]; cbn [app] in E; injection E as -> E.
        -- exfalso. destruct (scoring_act x b V C S) as [[_ Y]|[Y _]]; [|cbn [acts] in X; congruence]. rewrite G' in Y. destruct x; discriminate.
        -- exists l1, x, l2. split; [exact E|]. split; [exact S|exact X].
    + split; [intros _; exists [], a, l; auto|]. intros _ E. assert (En : ended (fst (act a b))) by (unfold ended; rewrite Y; destruct a; lia). apply (acts_ended l) in En. unfold ended in En. lia.
Qed.
Lemma borne_off_goes_on : exists b pm, new_game b /\ is_leagal_to_move b 0 = true /\ total (side (acts [AMove pm] b) 0) = 0 /\
  (forall l, forallb (fun a => negb (scoring a)) l = true -> game_state (acts (AMove pm :: l) b) = 1) /\
  is_leagal_to_move (acts [AMove pm] b) 0 = true /\ is_leagal_to_roll (acts [AMove pm; APickup] b) 1 = true.
Proof.
  exists (set_rolled (1, 2) last_chequer), (mkPM 1 0 (-1) false). split; [repeat split; vm_compute; auto|]. split; [reflexivity|]. split; [reflexivity|]. split; [|split; reflexivity].
  intros l F. set (c := set_rolled _ _). assert (E : forall l c, forallb (fun a => negb (scoring a)) l = true -> game_state (acts l c) = game_state c).
  { clear. induction l as [|a l IH]; intros c F; [reflexivity|]. cbn [forallb] in F. apply andb_prop in F. destruct F as [Fa F]. cbn [acts]. rewrite IH by exact F. apply act_other_state. apply negb_true_iff. exact Fa. }
  rewrite E by exact F. reflexivity.
Qed.

(* ---- answers ---- *)
Lemma own_offers : 
  (exists b, new_game b /\ cube_shown b /\ let l := [ADouble 0; ATake 1; AOffer 0 1] in
     open_offers l b = mkoffers None (Some 0) /\ snd (act (ADrop 1) (acts l b)) = Ok tt /\ points (acts (l ++ [ADrop 1]) b) 0 > points b 0) /\
  (exists b, new_game b /\ cube_shown b /\ let l := [ADouble 0; ATake 1; AOffer 0 1; ATake 1] in
     open_offers l b = mkoffers None (Some 0) /\ snd (act (AAccept 0) (acts l b)) = Ok tt /\ points (acts (l ++ [AAccept 0]) b) 0 > points b 0) /\
  (exists b, new_game b /\ cube_shown b /\ is_leagal_to_move b 0 = true /\ let l := [AOffer 0 3; APickup] in
     open_offers l b = mkoffers None (Some 0) /\ snd (act (AAccept 0) (acts l b)) = Ok tt /\ points (acts (l ++ [AAccept 0]) b) 0 = points b 0 + 3).
Proof.
  split; [|split].
  - exists ongoing. split; [repeat split; vm_compute; auto|]. split; [vm_compute; discriminate|]. repeat split; vm_compute; reflexivity.
  - exists ongoing. split; [repeat split; vm_compute; auto|]. split; [vm_compute; discriminate|]. repeat split; vm_compute; reflexivity.
  - exists (set_rolled (3, 1) ongoing). split; [repeat split; vm_compute; auto|]. split; [vm_compute; discriminate|]. repeat split; vm_compute; reflexivity.
Qed.
(* what is offered, as the board has it *)
Definition agrees (b : board) (o : offers) : Prop :=
  player (on_action b) /\
  match of_double o, of_resign o with
  | None, None => on_inner_action b = on_action b /\ resign_offer b = 0
  | Some w, None => w = on_action b /\ on_inner_action b = other w /\ doubled b = true /\ resign_offer b = 0
  | None, Some w => w = on_action b /\ on_inner_action b = other w /\ doubled b = false /\ 1 <= resign_offer b <= 3
  | Some _, Some _ => False
  end.
Lemma other_neq w : player w -> other w <> w. Proof. intro H. apply (opp w H). Qed.
Lemma other_other w : other (other w) = w. Proof. unfold other. lia. Qed.
Lemma agrees_live b o : agrees b o -> live b.
Proof.
  intros (P & H). unfold live. destruct (opp _ P) as (_ & PO & NO). destruct (of_double o) as [w|], (of_resign o) as [v|]; try destruct H as (-> & -> & D & R); try (destruct H as [-> R]); try destruct H; rewrite ?D; repeat split; auto; try lia; try congruence; try (intro; contradiction).
Qed.
Lemma answer_iff a b o : agrees b o -> cube_shown b -> is_answer a = true -> (snd (act a b) = Ok tt <-> answers_offer a o).
Proof.
  intros (P & H) C A. pose proof (opp _ P) as (EP & PO & NO).
  assert (T : forall w, is_cube_take_or_pass b w = true <-> of_double o = Some (other w)).
  { intro w. unfold is_cube_take_or_pass. destruct (of_double o) as [v|], (of_resign o) as [u|]; try (destruct H; fail).
    - destruct H as (-> & -> & -> & _). replace (other (on_action b) =? on_action b) with false by (symmetry; apply Z.eqb_neq; exact NO). cbn [negb andb]. rewrite Z.eqb_eq. split; [intros <-; rewrite other_other; reflexivity|]. intro X. injection X as X. rewrite X. apply other_other.
    - destruct H as (-> & -> & -> & _). split; discriminate.
    - destruct H as (-> & _). rewrite Z.eqb_refl. rewrite andb_false_r. split; discriminate. }
  assert (S : forall w, is_to_accept_resign b w = true <-> of_resign o = Some (other w)).
  { intro w. unfold is_to_accept_resign. destruct (of_double o) as [v|], (of_resign o) as [u|]; try (destruct H; fail).
    - destruct H as (_ & _ & _ & ->). split; discriminate.
    - destruct H as (-> & -> & _ & R). replace (zmem (resign_offer b) RESIGN_TYPES) with true by (symmetry; apply resign_types; exact R). cbn [andb]. rewrite Z.eqb_eq. split; [intros <-; rewrite other_other; reflexivity|]. intro X. injection X as X. rewrite X. apply other_other.
    - destruct H as (_ & ->). split; discriminate. }
  pose proof (agrees_live b o (conj P H)) as V.
  destruct a as [| |w|w| |w|w| | |]; try discriminate A; cbn [answers_offer].
  - rewrite <- T. cbn [act]. unfold take. destruct (is_cube_take_or_pass b w); split; auto; discriminate.
  - rewrite <- T. cbn [act]. destruct (is_cube_take_or_pass b w) eqn:E; [destruct (drop_ok b w V C E) as (b' & -> & _); split; reflexivity|]. unfold drop. rewrite E. split; discriminate.
  - rewrite <- S. cbn [act]. destruct (is_to_accept_resign b w) eqn:E; [destruct (accept_ok b w V C E) as (b' & -> & _); split; reflexivity|]. unfold accept_resign. rewrite E. split; discriminate.
  - rewrite <- S. cbn [act]. unfold reject_resign. destruct (is_to_accept_resign b w) eqn:E; [|split; discriminate]. cbn [negb]. unfold is_to_accept_resign in E. apply andb_prop in E. destruct E as [_ E]. apply Z.eqb_eq in E. subst w.
    destruct V as (_ & Q & _). destruct (opp _ Q) as (-> & _). split; reflexivity.
Qed.
Lemma agrees_same b b' o : agrees b o -> on_action b' = on_action b -> on_inner_action b' = on_inner_action b -> resign_offer b' = resign_offer b -> doubled b' = doubled b -> agrees b' o.
Proof. intros (P & H) E1 E2 E3 E4. unfold agrees. rewrite E1, E2, E3, E4. auto. Qed.
Lemma agrees_act a b o : agrees b o -> cube_shown b -> in_turn [a] b -> game_state (fst (act a b)) = 1 ->
  agrees (fst (act a b)) (match snd (act a b) with Ok _ => hear a o | Exc _ => o end).
Proof.
  intros Ag C [T _] G. pose proof Ag as (P & H). pose proof (opp _ P) as (EP & PO & NO). pose proof (agrees_live b o Ag) as V.
  destruct a as [w| |w|w|w k|w|w| |d|pm]; cbn [act] in *.
  - unfold double. destruct (is_leagal_to_double b w) as [[|]|e] eqn:E; try exact Ag.
    assert (X : w = on_action b /\ on_inner_action b = w /\ doubled b = false).
    { unfold is_leagal_to_double in E. repeat match type of E with context [if ?c then _ else _] => destruct c eqn:? | context [passert ?c] => destruct c eqn:?; cbn [passert bind] in E end; try discriminate E;
        repeat match goal with Y : (_ =? _) = true |- _ => apply Z.eqb_eq in Y | Y : negb (_ =? _) = false |- _ => apply negb_false_iff in Y; apply Z.eqb_eq in Y end; repeat split; congruence. }
    destruct X as (-> & X & D). rewrite EP. cbn [fst snd hear]. unfold agrees. cbn. split; [exact P|].
    destruct (of_double o) as [u|], (of_resign o) as [v|]; try (destruct H; fail); try (destruct H as (-> & H & _); congruence). destruct H as [_ R]. auto.
  - exact Ag.
  - pose proof (answer_iff (ATake w) b o Ag C eq_refl) as A. cbn [act] in A. unfold take in *. destruct (is_cube_take_or_pass b w); [|exact Ag]. cbn [fst snd hear] in *. destruct A as [A _]. specialize (A eq_refl). cbn [answers_offer] in A.
    unfold agrees. cbn. split; [exact P|]. rewrite A in H. destruct (of_resign o) as [v|]; [destruct H|]. destruct H as (_ & _ & _ & R). auto.
  - destruct (is_cube_take_or_pass b w) eqn:E; [destruct (drop_ok b w V C E) as (b' & X & Y); rewrite X in G; cbn [fst] in G; congruence|]. unfold drop. rewrite E. exact Ag.
  - unfold offer_resign. destruct (negb (is_leagal_to_resign b w)) eqn:E; [exact Ag|]. destruct (zmem k RESIGN_TYPES) eqn:K; [|exact Ag]. cbn [negb]. apply negb_false_iff in E. unfold is_leagal_to_resign in E. apply andb_prop in E. destruct E as [E1 E2]. apply Z.eqb_eq in E1, E2. subst w. apply resign_types in K.
    rewrite EP. cbn [fst snd hear]. unfold agrees. cbn. split; [exact P|]. destruct (of_double o) as [u|], (of_resign o) as [v|]; try (destruct H; fail); try (destruct H as (-> & H & _); congruence). split; [reflexivity|]. split; [reflexivity|]. split; [exact T|exact K].
  - destruct (is_to_accept_resign b w) eqn:E; [destruct (accept_ok b w V C E) as (b' & X & Y); rewrite X in G; cbn [fst] in G; congruence|]. unfold accept_resign. rewrite E. exact Ag.
  - pose proof (answer_iff (AReject w) b o Ag C eq_refl) as A. cbn [act] in A. unfold reject_resign in *. destruct (is_to_accept_resign b w) eqn:E; [|exact Ag]. cbn [negb] in *. unfold is_to_accept_resign in E. apply andb_prop in E. destruct E as [_ E]. apply Z.eqb_eq in E. subst w.
    destruct V as (_ & Q & _). destruct (opp _ Q) as (EQ & _). rewrite EQ in *. cbn [fst snd hear] in *. destruct A as [A _]. specialize (A eq_refl). cbn [answers_offer] in A. unfold agrees. cbn. split; [exact P|]. rewrite A in H.
    destruct (of_double o) as [u|]; [destruct H|]. destruct H as (X & Y & _). split; [exact X|reflexivity].
  - unfold is_leagal_to_move in T. repeat (apply andb_prop in T; destruct T as [T ?]). repeat match goal with Y : (_ =? _) = true |- _ => apply Z.eqb_eq in Y end.
    unfold pickupdice. cbn [set_rolled on_action on_inner_action set_on_action]. rewrite EP. cbn. destruct (of_double o) as [u|] eqn:Eu, (of_resign o) as [v|] eqn:Ev; try (destruct H; fail); try (exfalso; destruct H as (-> & H & _); congruence).
    destruct H as [H R]. rewrite H, EP. cbn. unfold agrees. rewrite Eu, Ev. cbn. auto.
  - exact (agrees_same b _ o Ag eq_refl eq_refl eq_refl eq_refl).
  - unfold make_partial_move. destruct (sides b) as [[m h]|]; [|exact Ag]. destruct (move_sides pm m h) as [[m' h']|e]; [|exact Ag]. destruct (on_action b =? YOU); exact (agrees_same b _ o Ag eq_refl eq_refl eq_refl eq_refl).
Qed.
Lemma heard_agrees : forall l b o, agrees b o -> cube_shown b -> game_state b = 1 -> in_turn l b -> game_state (acts l b) = 1 -> agrees (acts l b) (heard l b o).
Proof.
  induction l as [|a l IH]; intros b o A C G0 T G; [exact A|]. cbn [acts heard in_turn] in *. destruct T as [T1 T2].
  assert (G1 : game_state (fst (act a b)) = 1).
  { destruct (state_act a b (agrees_live b o A) C G0) as [X|(_ & _ & X)]; [exact X|]. assert (En : ended (fst (act a b))) by (unfold ended; rewrite X; destruct a; lia). apply (acts_ended l) in En. unfold ended in En. lia. }
  apply IH; [|unfold cube_shown; rewrite cube_act; exact C|exact G1|exact T2|exact G]. apply agrees_act; try assumption. split; [exact T1|exact I].
Qed.
Lemma answers_belong : forall b l a, new_game b -> cube_shown b -> in_turn l b -> game_state (acts l b) = 1 -> is_answer a = true ->
  (snd (act a (acts l b)) = Ok tt <-> answers_offer a (open_offers l b)).
Proof.
  intros b l a N C T G A. assert (A0 : agrees b (mkoffers None None)) by (destruct N as (P & I & _ & _ & R); split; [exact P|]; cbn; auto). destruct N as (_ & _ & G0 & _).
  apply answer_iff; [apply heard_agrees; assumption| |exact A]. unfold cube_shown. clear - C. revert b C. induction l as [|x l IH]; intros b C; [exact C|]. cbn [acts]. apply IH. unfold cube_shown. rewrite cube_act. exact C.
Qed.
