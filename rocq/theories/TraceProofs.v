(* Proofs for C122 to C124 *)
From Verif Require Import Py PyFacts UtilModel BoardModel BoardSpec GnuModel GnuSpec GnuProofs GnuMatchProofs TraceModel TraceSpec.
From Verif Require XgidProofs.

Lemma b64_no_colon s : Forall (fun c => is_b64 c = true) s -> ~ In colon s.
Proof. intros H I. rewrite Forall_forall in H. apply H in I. discriminate I. Qed.
Lemma split_two s : List.length (split_on colon s) = S (occurs colon s).
Proof.
  induction s as [|c s IH]; [reflexivity|]. unfold occurs in *. cbn [split_on filter]. rewrite (Ascii.eqb_sym colon c).
  destruct (Ascii.eqb c colon); cbn [List.length]; [rewrite IH; reflexivity|].
  destruct (split_on colon s) as [|a l]; [discriminate IH|]. exact IH.
Qed.
Lemma encode_chars ov m pid mid : fits m -> encode ov m = Ok (pid, mid) -> ~ In colon pid /\ ~ In colon mid.
Proof.
  intros H E. rewrite encode_fits in E by exact H. injection E as <- <-.
  assert (3 <= 3)%nat as F by lia. split; apply b64_no_colon.
  - unfold encode_position. apply (b64_roundtrip _ 3 F).
  - unfold encode_match. apply (b64_roundtrip _ 3 F).
Qed.

(* C122 *)
Lemma tracer_start : forall ov od fuel, (3 <= fuel)%nat ->
  (forall m, fits m -> wf_side (fst (position m)) -> wf_side (snd (position m)) -> exists pid mid, encode ov m = Ok (pid, mid) /\
    (~ scored_money m -> new_tracer od fuel (Some (pid ++ colon :: mid)) None = Ok (mkTracer m None)) /\
    (scored_money m -> new_tracer od fuel (Some (pid ++ colon :: mid)) None = Exc InconsistentData)) /\
  (forall s, occurs colon s <> 1%nat -> new_tracer od fuel (Some s) None = Exc ValueError) /\
  (forall s b, new_tracer od fuel s (Some b) = Ok (mkTracer b None)) /\
  new_tracer od fuel None None = Ok (mkTracer default_board None).
Proof.
  intros ov od fuel F. split; [|split; [|split; reflexivity]].
  - intros m H A B. destruct (full_board ov od m default_board fuel H A B F) as (pid & mid & E & G1 & G2).
    exists pid, mid. split; [exact E|]. destruct (encode_chars ov m pid mid H E) as [N1 N2].
    unfold new_tracer. change ":"%char with colon. rewrite XgidProofs.split_clean_app by exact N1. rewrite XgidProofs.split_clean_one by exact N2.
    split; intros S; [rewrite (G1 S)|rewrite (G2 S)]; reflexivity.
  - intros s N. unfold new_tracer. change ":"%char with colon. pose proof (split_two s) as T.
    destruct (split_on colon s) as [|a [|b [|c l]]]; try reflexivity. cbn in T. lia.
Qed.

(* C123 *)
Lemma key_says k s d : key_of k d = Some (VText s) <-> says k s d.
Proof.
  unfold says. split.
  - induction d as [|[k' v] d IH]; [discriminate|]. cbn [key_of]. destruct (str_eqb k k') eqn:E.
    + apply str_eqb_eq in E. subst k'. intros H. injection H as ->. exists [], d. split; [reflexivity|]. intros [].
    + intros H. destruct (IH H) as (d1 & d2 & -> & N). exists ((k', v) :: d1), d2. split; [reflexivity|].
      cbn [map fst]. intros [Q|Q]; [|exact (N Q)]. subst k'. rewrite str_eqb_refl in E. discriminate E.
  - intros (d1 & d2 & -> & N). induction d1 as [|[k' v] d1 IH]; cbn [app key_of].
    + rewrite str_eqb_refl. reflexivity.
    + cbn [map fst] in N. destruct (str_eqb k k') eqn:E; [exfalso; apply N; left; apply str_eqb_eq in E; auto|].
      apply IH. intros Q. apply N. right. exact Q.
Qed.
Lemma key_in k d : (exists v, key_of k d = Some v) <-> In k (map fst d).
Proof.
  induction d as [|[k' v] d IH]; cbn [key_of map fst In]; [split; [intros (? & ?); discriminate|intros []]|].
  destruct (str_eqb k k') eqn:E.
  - apply str_eqb_eq in E. subst. split; [left; reflexivity|]. intros _. exists v. reflexivity.
  - rewrite IH. split; [right; assumption|]. intros [Q|Q]; [|exact Q]. subst. rewrite str_eqb_refl in E. discriminate.
Qed.
Lemma text_eq v s : is_text (Some v) s = true <-> v = VText s.
Proof.
  destruct v as [t|n]; cbn; [rewrite str_eqb_eq|]; split; intros H; try discriminate H; congruence.
Qed.
Lemma action_eq v : existsb (is_text (Some v)) actions = true <-> exists a, v = VText a /\ is_action a.
Proof.
  rewrite existsb_exists. unfold is_action. split.
  - intros (s & I & H). apply text_eq in H. exists s. split; [exact H|]. cbn [actions In] in I.
    destruct I as [I|[I|[I|[I|[I|[]]]]]]; auto 6.
  - intros (a & -> & H). exists a. split; [|apply text_eq; reflexivity]. cbn [actions In]. destruct H as [->|[->|[->|[->| ->]]]]; auto 6.
Qed.
Lemma set_action_exact b r : (set_action (mkTracer b None) r = Ok tt <-> acts (on_action b) r) /\
  (set_action (mkTracer b None) r = Ok tt \/ set_action (mkTracer b None) r = Exc AssertionError).
Proof.
  unfold set_action. cbn [t_action t_board]. destruct r as [d|].
  2:{ split; [|right; reflexivity]. split; [discriminate|]. intros (d & a & p & Q & _). discriminate Q. }
  destruct (key_of (L "action") d) as [a|] eqn:KA.
  2:{ split; [|right; reflexivity]. split; [discriminate|]. intros (d' & a & p & Q & S1 & _). injection Q as <-.
      apply key_says in S1. congruence. }
  destruct (existsb (is_text (Some a)) actions) eqn:EA; cbn [negb].
  2:{ split; [|right; reflexivity]. split; [discriminate|]. intros (d' & a' & p & Q & S1 & S2 & _). injection Q as <-.
      apply key_says in S1. assert (a = VText a') by congruence. rewrite <- not_true_iff_false in EA. exfalso. apply EA, action_eq. eauto. }
  apply action_eq in EA. destruct EA as (a' & -> & IA).
  destruct (key_of (L "player") d) as [p|] eqn:KP.
  2:{ split; [|right; reflexivity]. split; [discriminate|]. intros (d' & ? & p & Q & _ & _ & _ & S1 & _). injection Q as <-.
      apply key_says in S1. congruence. }
  destruct (key_of (L "board") d) as [v|] eqn:KB.
  2:{ split; [|right; reflexivity]. split; [discriminate|]. intros (d' & ? & ? & Q & _ & _ & S1 & _). injection Q as <-.
      apply key_in in S1. destruct S1 as (? & S1). congruence. }
  assert (IB : In (L "board") (map fst d)) by (apply key_in; eauto).
  unfold YOU, HIM. destruct (is_text (Some p) (L "X")) eqn:EX; [|destruct (is_text (Some p) (L "O")) eqn:EO].
  - apply text_eq in EX. subst p. destruct (Z.eqb_spec (on_action b) 0) as [E|E].
    + split; [|left; reflexivity]. split; [intros _|reflexivity]. exists d, a', (L "X").
      split; [reflexivity|]. split; [apply key_says; exact KA|]. split; [exact IA|]. split; [exact IB|].
      split; [apply key_says; exact KP|]. left. auto.
    + split; [|right; reflexivity]. split; [discriminate|]. intros (d' & ? & p & Q & _ & _ & _ & S1 & S2). injection Q as <-.
      apply key_says in S1. assert (p = L "X") by congruence. subst p. destruct S2 as [[_ ?]|[? _]]; [contradiction|discriminate].
  - apply text_eq in EO. subst p. destruct (Z.eqb_spec (on_action b) 1) as [E|E].
    + split; [|left; reflexivity]. split; [intros _|reflexivity]. exists d, a', (L "O").
      split; [reflexivity|]. split; [apply key_says; exact KA|]. split; [exact IA|]. split; [exact IB|].
      split; [apply key_says; exact KP|]. right. auto.
    + split; [|right; reflexivity]. split; [discriminate|]. intros (d' & ? & p & Q & _ & _ & _ & S1 & S2). injection Q as <-.
      apply key_says in S1. assert (p = L "O") by congruence. subst p. destruct S2 as [[? _]|[_ ?]]; [discriminate|contradiction].
  - split; [|right; reflexivity]. split; [discriminate|]. intros (d' & ? & p' & Q & _ & _ & _ & S1 & S2). injection Q as <-.
    apply key_says in S1. assert (p = VText p') by congruence. subst p.
    destruct S2 as [[-> _]|[-> _]]; [rewrite (proj2 (text_eq _ _) eq_refl) in EX; discriminate EX|rewrite (proj2 (text_eq _ _) eq_refl) in EO; discriminate EO].
Qed.
Lemma traced_same b t : traced b t -> t = mkTracer b None.
Proof. intros (cs & ->). induction cs as [|[r|q] cs IH]; [reflexivity|exact IH|exact IH]. Qed.
Lemma tracer_idle : forall b t, traced b t -> t_board t = b /\
  (forall r, (snd (call_tracer (TSet r) t) = Ok None <-> acts (on_action b) r) /\
             (snd (call_tracer (TSet r) t) = Ok None \/ snd (call_tracer (TSet r) t) = Exc AssertionError)) /\
  forall q, snd (call_tracer (TAsk q) t) = Exc AssertionError.
Proof.
  intros b t H. apply traced_same in H. subst t. split; [reflexivity|]. split; [|reflexivity].
  intros r. destruct (set_action_exact b r) as [E1 E2]. cbn [call_tracer snd]. split.
  - rewrite <- E1. destruct (set_action (mkTracer b None) r) as [[]|e]; cbn [bind]; split; intros Q; try discriminate Q; reflexivity.
  - destruct E2 as [-> | ->]; auto.
Qed.
(* decode_1_test of gnubg_test.py *)
Definition opening_31 : board := set_rolled (1, 3) (set_match_length 17 (set_game_state 1 (set_on_action 1 (set_on_inner_action 1 default_board)))).
Definition record_31 : record := ADict [(L "action", VText (L "move")); (L "player", VText (L "O"));
  (L "move", VThing 0); (L "dice", VThing 1); (L "board", VText (L "4HPwATDgc/ABMA"))].
Lemma tracer_refuted : exists b r t, traced b t /\ acts (on_action b) r /\
  snd (call_tracer (TSet r) t) = Ok None /\
  forall q, snd (call_tracer (TAsk q) (fst (call_tracer (TSet r) t))) = Exc AssertionError.
Proof.
  exists opening_31, record_31, (mkTracer opening_31 None). split; [exists []; reflexivity|].
  split; [apply set_action_exact; vm_compute; reflexivity|]. split; [vm_compute; reflexivity|]. intros q. reflexivity.
Qed.

(* C124 *)
Lemma board_ext m m' : position m = position m' -> match_bits m = match_bits m' -> fits m -> fits m' -> m = m'.
Proof.
  intros P B H H'. pose proof (board_of_match_bits m m H) as A. pose proof (board_of_match_bits m' m H') as A'.
  rewrite B, A' in A. clear B A' H H'. destruct m, m'. unfold set_position in A. cbn in A, P. subst. injection A. intros. subst. reflexivity.
Qed.
Lemma fields_same p m m' : set_position p m' = set_position p m -> changes_only [FPosition] m m'.
Proof.
  destruct m, m'. unfold set_position. cbn. intros H. injection H. intros. subst.
  intros [] N; cbn; try reflexivity. exfalso. apply N. left. reflexivity.
Qed.
Lemma encode_ok ov m : fits m -> exists pid mid, encode ov m = Ok (pid, mid).
Proof. intros H. rewrite encode_fits by exact H. eauto. Qed.
Lemma ids_tell : forall ov, 
  (forall m m', fits m -> fits m' -> wf_side (fst (position m)) -> wf_side (snd (position m)) ->
    wf_side (fst (position m')) -> wf_side (snd (position m')) -> (encode ov m = encode ov m' <-> m = m')) /\
  (forall m m' pid mid pid' mid', fits m -> fits m' -> encode ov m = Ok (pid, mid) -> encode ov m' = Ok (pid', mid') ->
    (agree FPosition m m' -> agree FOnAction m m' -> pid = pid') /\
    (changes_only [FPosition] m m' <-> mid = mid')) /\
  (forall m pid mid pid' mid', fits m -> encode ov m = Ok (pid, mid) -> encode ov (turned m) = Ok (pid', mid') -> pid' = pid).
Proof.
  intros ov. split; [|split].
  - intros m m' H H' W1 W2 W3 W4. split; [|intros ->; reflexivity].
    rewrite !encode_fits by assumption. intros E. injection E as E1 E2.
    assert (B : match_bits m = match_bits m').
    { assert (R : Ok (match_bits m) = Ok (match_bits m')); [|congruence].
      rewrite <- (match_roundtrip (fun _ => Exc Unmodelled) (match_bits m) 3) by (auto using match_bits_length).
      rewrite <- (match_roundtrip (fun _ => Exc Unmodelled) (match_bits m') 3) by (auto using match_bits_length).
      rewrite E2. reflexivity. }
    assert (T : on_action m = on_action m').
    { pose proof (board_of_match_bits m m H) as A. pose proof (board_of_match_bits m' m H') as A'. rewrite B, A' in A.
      apply (fields_same _ m m' A FOnAction). intros [Q|[]]; discriminate Q. }
    apply board_ext; auto. rewrite <- T in E1. apply (f_equal (decode_position 3)) in E1.
    assert (wf_side (fst (snd (position m), fst (position m)))) by exact W2.
    destruct (on_action m =? 0).
    + rewrite !decode_encode_position in E1 by (cbn [fst snd]; auto). injection E1 as Q1 Q2.
      destruct (position m), (position m'). cbn in *. congruence.
    + rewrite !decode_encode_position in E1 by auto. congruence.
  - intros m m' pid mid pid' mid' H H'. rewrite !encode_fits by assumption. intros E E'. injection E as <- <-. injection E' as <- <-.
    split; [intros P T; cbn in P, T; rewrite P, T; reflexivity|]. split.
    + intros C. f_equal. assert (D : forall f, f <> FPosition -> agree f m m') by (intros f N; apply C; intros [Q|[]]; congruence).
      pose proof (D FCube) as D1. pose proof (D FOwner) as D2. pose proof (D FOnAction) as D3. pose proof (D FCrawford) as D4.
      pose proof (D FState) as D5. pose proof (D FInner) as D6. pose proof (D FDoubled) as D7. pose proof (D FResign) as D8.
      pose proof (D FRolled) as D9. pose proof (D FLength) as D10. pose proof (D FScore) as D11. cbn [agree] in *. unfold match_bits.
      rewrite D1, D2, D3, D4, D5, D6, D7, D8, D9, D10, D11 by discriminate. reflexivity.
    + intros E2. assert (B : match_bits m = match_bits m').
      { assert (R : Ok (match_bits m) = Ok (match_bits m')); [|congruence].
        rewrite <- (match_roundtrip (fun _ => Exc Unmodelled) (match_bits m) 3) by (auto using match_bits_length).
        rewrite <- (match_roundtrip (fun _ => Exc Unmodelled) (match_bits m') 3) by (auto using match_bits_length).
        rewrite E2. reflexivity. }
      pose proof (board_of_match_bits m m H) as A. pose proof (board_of_match_bits m' m H') as A'. rewrite B, A' in A.
      exact (fields_same _ m m' A).
  - intros m pid mid pid' mid' H. assert (H' : fits (turned m)).
    { destruct H as (H1 & H2 & H3 & H4). split; [exact H1|]. split; [exact H2|]. split; [|exact H4].
      change (player (1 - on_action m)). unfold player in *. lia. }
    rewrite !encode_fits by assumption. intros E E'. injection E as <- <-. injection E' as <- _.
    change (on_action (turned m)) with (1 - on_action m).
    change (position (turned m)) with (snd (position m), fst (position m)). cbn [fst snd].
    destruct H as (_ & _ & [T|T] & _); rewrite T.
    + change (1 - 0 =? 0) with false. change (0 =? 0) with true. cbv iota. reflexivity.
    + change (1 - 1 =? 0) with true. change (1 =? 0) with false. cbv iota. rewrite <- surjective_pairing. reflexivity.
Qed.
