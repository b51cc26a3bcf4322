From Coq Require Import ZifyBool ZifyNat.
From Verif Require Import Py PyFacts UtilModel UtilSpec UtilProofs BoardModel BoardSpec.

(* ---------- C04 ---------- *)
Lemma board_eqb_eq a b : board_eqb a b = true <-> a = b.
Proof.
  destruct a as [[p1 p2] a1 a2 a3 a4 a5 a6 a7 a8 a9 a10 a11], b as [[q1 q2] b1 b2 b3 b4 b5 b6 b7 b8 b9 b10 b11].
  unfold board_eqb; cbn [fst snd position cube_in_logarithm cube_owner on_action crawford
    game_state on_inner_action doubled resign_offer rolled match_length score].
  rewrite !andb_true_iff, !zlist_eqb_eq, !Z.eqb_eq, !zpair_eqb_eq, !Bool.eqb_true_iff.
  split.
  - intros H; decompose [and] H; subst; reflexivity.
  - injection 1; intros; subst; repeat split; auto.
Qed.
Lemma board_eq_fields a b : a = b <-> forall f, agree f a b.
Proof.
  split; [intros -> []; reflexivity|]. intros H; destruct a, b.
  pose proof (H FPosition); pose proof (H FCube); pose proof (H FOwner); pose proof (H FOnAction);
  pose proof (H FCrawford); pose proof (H FState); pose proof (H FInner); pose proof (H FDoubled);
  pose proof (H FResign); pose proof (H FRolled); pose proof (H FLength); pose proof (H FScore).
  cbn in *; subst; reflexivity.
Qed.
Lemma board_eqb_fields a b : board_eqb a b = true <-> forall f, agree f a b.
Proof. rewrite board_eqb_eq; apply board_eq_fields. Qed.


Lemma equality_fieldwise :
  (forall x y, same_class x y ->
     exists r, obj_eq x y = Ok r /\ obj_ne x y = Ok (negb r) /\
               (r = true <-> forall f, agree f (fields_of x) (fields_of y))) /\
  (forall x y, ~ same_class x y -> obj_eq x y = Exc TypeError /\ obj_ne x y = Exc TypeError) /\
  (forall x, obj_eq x x = Ok true) /\
  (forall x y, obj_eq x y = obj_eq y x) /\
  (forall x y z, obj_eq x y = Ok true -> obj_eq y z = Ok true -> obj_eq x z = Ok true).
Proof.
  repeat split.
  - intros [a|a ea] [b|b eb]; cbn; try contradiction; intros _;
      exists (board_eqb a b); repeat split; try apply board_eqb_fields.
  - destruct x, y; cbn in *; tauto.
  - destruct x, y; cbn in *; tauto.
  - intros [a|a ea]; cbn; f_equal; apply board_eqb_eq; reflexivity.
  - assert (S : forall a b, board_eqb a b = board_eqb b a).
    { intros a b; apply eq_true_iff_eq; rewrite !board_eqb_eq; split; congruence. }
    intros [a|a ea] [b|b eb]; cbn; try reflexivity; rewrite S; reflexivity.
  - intros [a|a ea] [b|b eb] [c|c ec]; cbn; try discriminate; intros [= H1] [= H2];
      apply board_eqb_eq in H1, H2; subst; f_equal; apply board_eqb_eq; reflexivity.
Qed.

(* ---------- C06 ---------- *)
Lemma assign_carries a b : field_of a <> None -> carries a (assign_field a b).
Proof. destruct a; cbn; auto. Qed.
Lemma assign_frame a b f : field_of a <> Some f -> agree f b (assign_field a b).
Proof. destruct a, f; cbn; intros H; try reflexivity; congruence. Qed.
Lemma agree_trans f x y z : agree f x y -> agree f y z -> agree f x z.
Proof. destruct f; cbn; congruence. Qed.
Lemma agree_sym f x y : agree f x y -> agree f y x.
Proof. destruct f; cbn; congruence. Qed.
Lemma carries_agree a f x y : field_of a = Some f -> agree f x y -> carries a x -> carries a y.
Proof. destruct a; cbn; intros [= <-]; cbn; congruence. Qed.

Lemma fold_assign kw b :
  (forall f, ~ In (Some f) (map field_of kw) ->
     agree f b (fold_left (fun b a => assign_field a b) kw b)) /\
  (NoDup (map field_of (filter (fun a => negb (is_other a)) kw)) ->
   forall a, In a kw -> carries a (fold_left (fun b a => assign_field a b) kw b)).
Proof.
  revert b; induction kw as [|a kw IH]; intros b; cbn [fold_left map].
  { split; [intros f _; destruct f; reflexivity | intros _ a []]. }
  destruct (IH (assign_field a b)) as [F C]. split.
  - intros f H; eapply agree_trans; [apply (assign_frame a)|apply F]; intros E; apply H; cbn; auto.
  - cbn [filter]. destruct (is_other a) eqn:O; cbn [negb map].
    + intros ND x [<-|Hx]; [destruct a; cbn in O |- *; try discriminate; auto|]. apply C; auto.
    + intros ND; inversion ND as [|? ? NI ND']; subst. intros x [<-|Hx]; [|apply C; auto].
      destruct (field_of a) as [f|] eqn:Ef; [|destruct a; discriminate].
      eapply carries_agree; [exact Ef| |apply assign_carries; congruence].
      apply F. intros Hin. apply NI. apply in_map_iff in Hin. destruct Hin as (y & Ey & Hy).
      apply in_map_iff; exists y; split; [auto|]. apply filter_In; split; auto.
      destruct y; cbn in Ey |- *; congruence.
Qed.

Lemma freeze_lossless :
  (forall b, obj_freeze (new_editor (Some (OBoard b)) []) = Ok (OBoard b)) /\
  (forall b kw, NoDup (map field_of (filter (fun a => negb (is_other a)) kw)) ->
     exists b', obj_freeze (new_editor (Some (OBoard b)) kw) = Ok (OBoard b') /\
       (forall a, In a kw -> carries a b') /\
       (forall f, ~ In (Some f) (map field_of kw) -> agree f b b')) /\
  (forall b a, field_of a <> None -> exists b', new_board [a] = Ok (OBoard b') /\ carries a b' /\
      fst (obj_setattr (new_editor (Some (OBoard b)) []) a) = new_editor (Some (OBoard b)) [a]).
Proof.
  repeat split.
  - intros b kw ND. destruct (fold_assign kw b) as [F C].
    eexists; split; [reflexivity|]. split; [apply C; auto|apply F].
  - intros b a H. exists (assign_field a default_board).
    split; [destruct a; cbn in *; auto; congruence|].
    split; [apply assign_carries; auto|]. destruct a; cbn in *; auto; congruence.
Qed.

(* ---------- C05 ---------- *)
Definition HInv (h : heap) : Prop :=
  nth_error (dicts h) 0 = Some (default_board, []) /\
  (forall i k, nth_error (objs h) i = Some (HEditor k) -> (0 < k < List.length (dicts h))%nat) /\
  (forall i j k, nth_error (objs h) i = Some (HEditor k) -> nth_error (objs h) j = Some (HEditor k) -> i = j).

Lemma HInv_init : HInv heap_init.
Proof. split; [reflexivity|]. split; intros [|i]; cbn; intros; congruence. Qed.

Lemma nth_error_snoc {A} (l : list A) x i y :
  nth_error (l ++ [x]) i = Some y ->
  (nth_error l i = Some y /\ (i < List.length l)%nat) \/ (i = List.length l /\ y = x).
Proof.
  intros H. destruct (Nat.lt_ge_cases i (List.length l)) as [Hi|Hi].
  - rewrite nth_error_app1 in H by auto; auto.
  - rewrite nth_error_app2 in H by auto. destruct (i - List.length l)%nat eqn:E; cbn in H.
    + right; split; [lia|congruence].
    + destruct n; discriminate.
Qed.

Lemma HInv_new_editor h d kw : HInv h -> HInv (fst (h_new_editor h d kw)).
Proof.
  intros (D & R & U); unfold h_new_editor; cbn [fst]; split; [|split]; cbn [objs dicts].
  - rewrite nth_error_app1; auto. apply nth_error_Some; congruence.
  - intros i k H. rewrite app_length; cbn [List.length].
    apply nth_error_snoc in H as [[H _]|[_ [= ->]]]; [apply R in H; lia|].
    assert (nth_error (dicts h) 0 <> None) as Hd by congruence. apply nth_error_Some in Hd. lia.
  - intros i j k Hi Hj.
    apply nth_error_snoc in Hi as [[Hi _]|[-> Ei]]; apply nth_error_snoc in Hj as [[Hj _]|[-> Ej]].
    + eapply U; eauto.
    + injection Ej as ->. apply R in Hi; lia.
    + injection Ei as ->. apply R in Hj; lia.
    + reflexivity.
Qed.
Lemma HInv_new_frozen h b : HInv h -> HInv (mkHeap (objs h ++ [HBoard b]) (dicts h)).
Proof.
  intros (D & R & U); split; [|split]; cbn [objs dicts]; auto.
  - intros i k H; apply nth_error_snoc in H as [[H _]|[_ H]]; [eauto|discriminate].
  - intros i j k Hi Hj.
    apply nth_error_snoc in Hi as [[Hi _]|[_ Hi]]; [|discriminate].
    apply nth_error_snoc in Hj as [[Hj _]|[_ Hj]]; [|discriminate]. eauto.
Qed.
Lemma HInv_upd h i e f : HInv h -> HInv (fst (h_upd h i e f)).
Proof.
  intros (D & R & U); unfold h_upd. destruct (nth_error (objs h) i) as [[b|k]|] eqn:E; [split; auto| |split; auto].
  destruct (nth_error (dicts h) k) as [d|] eqn:Ek; [|split; auto].
  destruct (f d) as [d' r]; cbn [fst]. pose proof (R _ _ E) as Hk. split; [|split]; cbn [objs dicts].
  - rewrite nth_error_list_set by lia. destruct (Nat.eqb_spec 0 k); [lia|auto].
  - intros j k' H; rewrite list_set_length; eauto.
  - auto.
Qed.
Lemma HInv_step h op : HInv h -> HInv (fst (hstep h op)).
Proof.
  intros I; destruct op as [kw|[i|] kw|i a|i|i a|i]; cbn [hstep].
  - unfold h_new_board. destruct (nth_error (dicts h) 0) as [[d x]|]; [|auto].
    destruct (existsb is_other kw); [auto|]. apply HInv_new_frozen; auto.
  - destruct (view h i) as [[b|b x]|]; auto; apply HInv_new_editor; auto.
  - destruct (nth_error (dicts h) 0); auto; apply HInv_new_editor; auto.
  - apply HInv_upd; auto.
  - destruct (view h i) as [o|]; auto. destruct (obj_freeze o) as [[b|b x]|e]; auto.
    apply HInv_new_frozen; auto.
  - apply HInv_upd; auto.
  - apply HInv_upd; auto.
Qed.
Lemma HInv_run h ops : HInv h -> HInv (hrun h ops).
Proof. revert h; induction ops as [|op ops IH]; cbn; auto using HInv_step. Qed.

Lemma view_lt h i o : view h i = Some o -> (i < List.length (objs h))%nat.
Proof.
  unfold view. destruct (nth_error (objs h) i) eqn:E; [|discriminate]. intros _.
  apply nth_error_Some; congruence.
Qed.
Lemma view_app h i x ds : HInv h -> (i < List.length (objs h))%nat ->
  view (mkHeap (objs h ++ [x]) (dicts h ++ ds)) i = view h i.
Proof.
  intros (D & R & U) Hi; unfold view; cbn [objs dicts]. rewrite nth_error_app1 by auto.
  destruct (nth_error (objs h) i) as [[b|k]|] eqn:E; auto.
  rewrite nth_error_app1; auto. apply R in E; lia.
Qed.
Lemma view_upd h i j e f : HInv h -> j <> i -> view (fst (h_upd h i e f)) j = view h j.
Proof.
  intros (D & R & U) Hij; unfold h_upd.
  destruct (nth_error (objs h) i) as [[b|k]|] eqn:E; auto.
  destruct (nth_error (dicts h) k) as [d|] eqn:Ek; auto. destruct (f d) as [d' r]; cbn [fst].
  unfold view; cbn [objs dicts]. destruct (nth_error (objs h) j) as [[b|k']|] eqn:Ej; auto.
  pose proof (R _ _ E). rewrite nth_error_list_set by lia.
  destruct (Nat.eqb_spec k' k) as [->|]; auto. exfalso; eauto.
Qed.
Lemma view_step h op i : HInv h -> (i < List.length (objs h))%nat -> aim op <> Some i ->
  view (fst (hstep h op)) i = view h i.
Proof.
  intros I Hi HA. assert (A0 : forall x, view (mkHeap (objs h ++ [x]) (dicts h)) i = view h i).
  { intros x; rewrite <- (app_nil_r (dicts h)) at 1; apply view_app; auto. }
  destruct op as [kw|[j|] kw|j a|j|j a|j]; cbn [hstep aim] in *.
  - unfold h_new_board. destruct (nth_error (dicts h) 0) as [[d x]|]; [|auto].
    destruct (existsb is_other kw); [auto|]. apply A0.
  - destruct (view h j) as [[b|b x]|]; auto; apply view_app; auto.
  - destruct (nth_error (dicts h) 0); auto; apply view_app; auto.
  - apply view_upd; auto; congruence.
  - destruct (view h j) as [o|]; auto. destruct (obj_freeze o) as [[b|b x]|e]; auto. apply A0.
  - apply view_upd; auto; congruence.
  - apply view_upd; auto; congruence.
Qed.
Lemma objs_grow h op : (List.length (objs h) <= List.length (objs (fst (hstep h op))))%nat.
Proof.
  assert (U : forall i e f, List.length (objs (fst (h_upd h i e f))) = List.length (objs h)).
  { intros; unfold h_upd. destruct (nth_error (objs h) i) as [[b|k]|]; auto.
    destruct (nth_error (dicts h) k); auto. destruct (f _); auto. }
  destruct op as [kw|[j|] kw|j a|j|j a|j]; cbn [hstep]; rewrite ?U; auto.
  - unfold h_new_board. destruct (nth_error (dicts h) 0) as [[d x]|]; [|auto].
    destruct (existsb is_other kw); [auto|]. cbn; rewrite app_length; lia.
  - destruct (view h j) as [[b|b x]|]; auto; cbn; rewrite app_length; lia.
  - destruct (nth_error (dicts h) 0); auto; cbn; rewrite app_length; lia.
  - destruct (view h j) as [o|]; auto. destruct (obj_freeze o) as [[b|b x]|e]; auto.
    cbn; rewrite app_length; lia.
Qed.
Lemma frozen_step h op i b : HInv h -> view h i = Some (OBoard b) ->
  view (fst (hstep h op)) i = Some (OBoard b).
Proof.
  intros I V. pose proof (view_lt _ _ _ V) as Hi.
  assert (N : nth_error (objs h) i = Some (HBoard b)).
  { unfold view in V. destruct (nth_error (objs h) i) as [[b'|k]|]; [congruence| |discriminate].
    destruct (nth_error (dicts h) k) as [[? ?]|]; discriminate. }
  assert (U : forall e f, view (fst (h_upd h i e f)) i = Some (OBoard b)).
  { intros; unfold h_upd; rewrite N; auto. }
  destruct op as [kw|fr kw|j a|j|j a|j]; try (rewrite view_step; [exact V|auto|auto|cbn; congruence]);
   (destruct (Nat.eq_dec j i) as [->|];
     [cbn [hstep]; apply U | rewrite view_step; [exact V|auto|auto|cbn; congruence]]).
Qed.

Lemma immutability : forall ops,
  let h := hrun heap_init ops in
  (forall i b later, view h i = Some (OBoard b) -> view (hrun h later) i = Some (OBoard b)) /\
  (forall op i, (i < List.length (objs h))%nat -> aim op <> Some i ->
     view (fst (hstep h op)) i = view h i) /\
  (forall i b a, view h i = Some (OBoard b) -> hstep h (HSet i a) = (h, Exc TypeError)) /\
  (forall i b x a, view h i = Some (OEditor b x) -> field_of a <> None ->
     exists b', view (fst (hstep h (HSet i a))) i = Some (OEditor b' x) /\ carries a b' /\
       forall f, field_of a <> Some f -> agree f b b') /\
  (exists k, hstep h (HNewBoard []) = (k, Ok (List.length (objs h))) /\
     view k (List.length (objs h)) = Some (OBoard default_board)).
Proof.
  intros ops h. assert (I : HInv h) by apply HInv_run, HInv_init. clearbody h.
  repeat split.
  - intros i b later; revert h I; induction later as [|op l IH]; cbn; auto.
    intros h I V. apply IH; [apply HInv_step; auto|apply frozen_step; auto].
  - intros op i Hi HA; apply view_step; auto.
  - intros i b a V; cbn [hstep]; unfold h_upd, view in *.
    destruct (nth_error (objs h) i) as [[b'|k]|]; [auto| |discriminate].
    destruct (nth_error (dicts h) k) as [[? ?]|]; discriminate.
  - intros i b x a V Ha. exists (assign_field a b).
    split; [|split; [apply assign_carries; auto|intros f; apply assign_frame]].
    cbn [hstep]; unfold h_upd, view in *.
    destruct (nth_error (objs h) i) as [[b'|k]|] eqn:E; [discriminate| |discriminate].
    destruct (nth_error (dicts h) k) as [[? ?]|] eqn:Ek; [|discriminate]. injection V as -> ->.
    assert (S : d_setattr a (b, x) = ((assign_field a b, x), Ok tt)).
    { destruct a; cbn in *; auto; congruence. }
    rewrite S; cbn [fst objs dicts]. rewrite E.
    rewrite nth_error_list_set by (apply nth_error_Some; congruence).
    rewrite Nat.eqb_refl; auto.
  - destruct I as (D & _). cbn [hstep]; unfold h_new_board; rewrite D; cbn.
    eexists; split; [reflexivity|]. unfold view; cbn [objs dicts].
    rewrite nth_error_app2, Nat.sub_diag; auto.
Qed.

(* ---------- C07 ---------- *)
Lemma is_side_inv v : is_side v = true -> v = 0 \/ v = 1 \/ v = 3.
Proof. unfold is_side, YOU, HIM, CENTER; lia. Qed.
Lemma flip_owner_invol v : flip_owner (flip_owner v) = v.
Proof.
  unfold flip_owner, YOU, HIM. destruct (v =? 0) eqn:A; cbn; [lia|].
  destruct (v =? 1) eqn:B; cbn; [lia|]. rewrite A, B; auto.
Qed.
Lemma flip_owner_side v : is_side (flip_owner v) = is_side v.
Proof.
  unfold flip_owner, is_side, YOU, HIM, CENTER.
  destruct (v =? 0) eqn:A; cbn; [lia|]. destruct (v =? 1) eqn:B; cbn; lia.
Qed.

Lemma flip_ok_iff b : snd (flip b) = Ok tt <->
  is_side (cube_owner b) = true /\ is_side (on_inner_action b) = true /\ is_side (on_action b) = true.
Proof.
  unfold flip. destruct (is_side (cube_owner b)) eqn:A; cbn -[is_side flip_owner];
    [|split; [discriminate|intros (? & ? & ?); discriminate]].
  destruct (is_side (on_inner_action b)) eqn:B; cbn -[is_side flip_owner];
    [|split; [discriminate|intros (? & ? & ?); discriminate]].
  destruct (is_side (on_action b)) eqn:C; cbn -[is_side flip_owner]; split; auto; try discriminate.
  intros (? & ? & ?); discriminate.
Qed.
Definition flipped (b : board) : board :=
  mkBoard (snd (position b), fst (position b)) (cube_in_logarithm b) (flip_owner (cube_owner b))
    (flip_owner (on_action b)) (crawford b) (game_state b) (flip_owner (on_inner_action b))
    (doubled b) (resign_offer b) (rolled b) (match_length b) (snd (score b), fst (score b)).
Lemma flip_ok b b' : flip b = (b', Ok tt) -> b' = flipped b.
Proof.
  unfold flip. destruct (is_side (cube_owner b)) eqn:A; cbn -[is_side flip_owner]; [|discriminate].
  destruct (is_side (on_inner_action b)) eqn:B; cbn -[is_side flip_owner]; [|discriminate].
  destruct (is_side (on_action b)) eqn:C; cbn -[is_side flip_owner]; [|discriminate].
  injection 1 as <-; reflexivity.
Qed.
Lemma seat_side v : seat v <-> is_side v = true.
Proof. unfold seat, is_side, YOU, HIM, CENTER; lia. Qed.
Lemma flip_total b : seat (cube_owner b) -> seat (on_inner_action b) -> seat (on_action b) ->
  flip b = (flipped b, Ok tt).
Proof.
  rewrite !seat_side; intros A B C. destruct (flip b) as [b' r] eqn:E.
  assert (snd (flip b) = Ok tt) as H by (apply flip_ok_iff; auto). rewrite E in H; cbn in H; subst r.
  apply flip_ok in E; subst; auto.
Qed.
Lemma flip_involution :
  (forall b, seat (cube_owner b) -> seat (on_inner_action b) -> seat (on_action b) ->
     exists b', flip b = (b', Ok tt) /\ flip b' = (b, Ok tt) /\
       position b' = (snd (position b), fst (position b)) /\
       score b' = (snd (score b), fst (score b)) /\
       cube_owner b' = swap_seat (cube_owner b) /\
       on_action b' = swap_seat (on_action b) /\
       on_inner_action b' = swap_seat (on_inner_action b) /\
       changes_only [FPosition; FScore; FOwner; FOnAction; FInner] b b') /\
  (forall b, ~ seat (cube_owner b) -> flip b = (b, Exc AssertionError)) /\
  (forall b b' r, flip b = (b', r) -> seat (cube_owner b) -> ~ seat (on_inner_action b) ->
     r = Exc AssertionError /\ changes_only [FOwner; FScore; FPosition] b b') /\
  (forall b b' r, flip b = (b', r) -> seat (cube_owner b) -> seat (on_inner_action b) ->
     ~ seat (on_action b) -> r = Exc AssertionError /\
     changes_only [FOwner; FScore; FPosition; FInner] b b').
Proof.
  repeat split.
  - intros b A B C. exists (flipped b). split; [apply flip_total; auto|]. split.
    + rewrite flip_total; [|apply seat_side; unfold flipped; cbn -[is_side flip_owner];
        rewrite flip_owner_side; apply seat_side; auto..].
      f_equal. unfold flipped; destruct b; cbn -[flip_owner]. rewrite !flip_owner_invol.
      destruct position, score; auto.
    + repeat split; auto. intros []; cbn; auto; tauto.
  - intros b H. unfold flip. rewrite seat_side in H. destruct (is_side (cube_owner b)); [tauto|auto].
  - revert H; unfold flip. rewrite seat_side in H0, H1. rewrite H0; cbn -[is_side flip_owner].
    destruct (is_side (on_inner_action b)); [tauto|]. cbn -[is_side flip_owner]. congruence.
  - revert H; unfold flip. rewrite seat_side in H0, H1. rewrite H0; cbn -[is_side flip_owner].
    destruct (is_side (on_inner_action b)); [tauto|]. cbn -[is_side flip_owner]. injection 1 as <- <-.
    intros []; cbn; auto; tauto.
  - revert H; unfold flip. rewrite seat_side in H0, H1, H2. rewrite H0; cbn -[is_side flip_owner].
    rewrite H1; cbn -[is_side flip_owner].
    destruct (is_side (on_action b)); [tauto|]. cbn -[is_side flip_owner]. congruence.
  - revert H; unfold flip. rewrite seat_side in H0, H1, H2. rewrite H0; cbn -[is_side flip_owner].
    rewrite H1; cbn -[is_side flip_owner].
    destruct (is_side (on_action b)); [tauto|]. cbn -[is_side flip_owner]. injection 1 as <- <-.
    intros []; cbn; auto; tauto.
Qed.

(* ---------- C08 ---------- *)
Lemma exclusive_actions : forall b w v,
  (is_leagal_to_roll b w = true -> is_leagal_to_roll b v = true -> w = v) /\
  (is_leagal_to_move b w = true -> is_leagal_to_move b v = true -> w = v) /\
  ~ (is_leagal_to_roll b w = true /\ is_leagal_to_move b v = true) /\
  (is_cube_take_or_pass b w = true ->
     is_leagal_to_roll b v = false /\ is_leagal_to_move b v = false /\ is_leagal_to_resign b v = false) /\
  (is_to_accept_resign b w = true ->
     is_leagal_to_roll b v = false /\ is_leagal_to_move b v = false).
Proof.
  intros b w v. unfold is_leagal_to_roll, is_leagal_to_move, is_cube_take_or_pass,
    is_to_accept_resign, is_leagal_to_resign, RESIGN_NONE.
  destruct (zpair_eqb (rolled b) (0, 0)) eqn:R; cbn [negb];
  assert (M : zmem (resign_offer b) RESIGN_TYPES = true -> resign_offer b <> 0)
    by (unfold zmem, RESIGN_TYPES, RESIGN_SINGLE, RESIGN_GAMMON, RESIGN_BACKGAMMON; cbn [existsb]; lia);
  destruct (zmem (resign_offer b) RESIGN_TYPES); cbn [andb]; repeat split; lia.
Qed.

(* ---------- C09, C10 ---------- *)
Definition eff (l : list Z) (i : Z) : Z :=
  if count l 24 =? 0 then count l i else if i =? 24 then count l 24 else 0.
Lemma sides_player b : player (on_action b) ->
  sides b = Some (side b (on_action b), side b (other (on_action b))).
Proof.
  unfold player, sides, side, other, YOU, HIM. intros [-> | ->]; cbn; auto.
Qed.
Lemma has_chequer_eff b i : player (on_action b) -> List.length (mover b) = 25%nat ->
  0 <= i <= 24 -> has_chequer_to_move b i = Ok (eff (mover b) i).
Proof.
  intros P H Hi. unfold has_chequer_to_move. rewrite sides_player by auto. fold (mover b).
  assert (Z25 : zlen (mover b) = 25) by (unfold zlen; lia).
  rewrite (pyget_in _ BAR 0) by (unfold BAR; lia). cbn [bind].
  rewrite (pyget_in _ i 0) by lia. unfold eff, count, BAR.
  destruct (nth (Z.to_nat 24) (mover b) 0 =? 0) eqn:E; auto.
  destruct (i =? 24) eqn:E2; auto. replace i with 24 by lia; auto.
Qed.
Lemma first_chequer_find b l : player (on_action b) -> List.length (mover b) = 25%nat ->
  (forall i, In i l -> 0 <= i <= 24) ->
  first_chequer b l = Ok (find (fun i => negb (eff (mover b) i =? 0)) l).
Proof.
  intros P H; induction l as [|i l IH]; cbn [first_chequer find]; intros R; auto.
  rewrite has_chequer_eff by (auto; apply R; cbn; auto). cbn [bind].
  destruct (eff (mover b) i =? 0); cbn [negb]; auto. apply IH; intros; apply R; cbn; auto.
Qed.
Lemma count_nonneg l i : wf_side l -> 0 <= count l i.
Proof.
  intros [_ F]; unfold count. destruct (Nat.lt_ge_cases (Z.to_nat i) (List.length l)).
  - rewrite Forall_forall in F; apply F, nth_In; auto.
  - rewrite nth_overflow by auto; lia.
Qed.
Lemma find_eff_none l r : find (fun i => negb (eff l i =? 0)) r = None <->
  forall i, In i r -> eff l i = 0.
Proof.
  split.
  - intros H i Hi. pose proof (find_none _ _ H i Hi); cbn in *; lia.
  - intros H. destruct (find _ r) eqn:E; auto. apply find_some in E as [E1 E2].
    apply H in E1; rewrite E1 in E2; discriminate.
Qed.
Lemma eff_home l : (forall i, In i NONE_BEAROFF_POINTS -> eff l i = 0) <-> all_home l.
Proof.
  unfold NONE_BEAROFF_POINTS, all_home. setoid_rewrite In_zrange. split.
  - intros H k Hk. pose proof (H 24 ltac:(lia)) as H24. pose proof (H k ltac:(lia)) as Hk'.
    unfold eff in *. destruct (count l 24 =? 0) eqn:E; [auto|]. cbn in H24. lia.
  - intros H i Hi. unfold eff. rewrite (H 24) by lia. cbn. apply H; lia.
Qed.
Lemma eff_above l n : n < 24 -> (forall i, In i (zrange (n + 1) (BAR + 1)) -> eff l i = 0) <->
  (forall k, n < k <= 24 -> count l k = 0).
Proof.
  intros Hn. unfold BAR. setoid_rewrite In_zrange. split.
  - intros H k Hk. pose proof (H 24 ltac:(lia)) as H24. pose proof (H k ltac:(lia)) as Hk'.
    unfold eff in *. destruct (count l 24 =? 0) eqn:E; [auto|]. cbn in H24. lia.
  - intros H i Hi. unfold eff. rewrite (H 24) by lia. cbn. apply H; lia.
Qed.
Lemma bearoff_from_exact b n d : player (on_action b) -> wf_side (mover b) ->
  0 <= n <= 24 -> 1 <= d <= 6 ->
  exists r, is_ok_to_bearoff_from b n d = Ok r /\
    (r = true <-> may_bear_off (mover b) n d \/
       (n + 1 < d /\ count (mover b) n = 0 /\ forall k, n < k <= 24 -> count (mover b) k = 0)).
Proof.
  intros P W Hn Hd. unfold is_ok_to_bearoff_from. destruct W as [W1 W2].
  destruct (n + 1 <? d) eqn:E1.
  - rewrite first_chequer_find; auto; [|intros i Hi; apply In_zrange in Hi; unfold BAR in Hi; lia].
    cbn [bind]. eexists; split; [reflexivity|].
    destruct (find _ _) eqn:F.
    + split; [discriminate|]. intros H. exfalso.
      assert (forall k, n < k <= 24 -> count (mover b) k = 0) as A.
      { destruct H as [(_ & _ & _ & [?|[_ H]])|(_ & _ & H)]; auto; lia. }
      rewrite <- eff_above in A by lia. rewrite <- find_eff_none in A. congruence.
    + split; auto. intros _. rewrite find_eff_none, eff_above in F by lia.
      pose proof (count_nonneg (mover b) n (conj W1 W2)).
      destruct (Z.eq_dec (count (mover b) n) 0); [right|left].
      * repeat split; auto; lia.
      * split; [auto|]. split; [lia|]. split; [intros k Hk; apply F; lia|]. right; split; [lia|auto].
  - destruct (n + 1 =? d) eqn:E2.
    + rewrite first_chequer_find; auto; [|intros i Hi; apply In_zrange in Hi; lia].
      cbn [bind]. destruct (find _ _) eqn:F.
      * eexists; split; [reflexivity|]. split; [discriminate|].
        intros [(_ & _ & A & _)|]; [|lia]. rewrite <- eff_home, <- find_eff_none in A; congruence.
      * rewrite find_eff_none, eff_home in F.
        rewrite has_chequer_eff by auto. cbn [bind]. eexists; split; [reflexivity|].
        unfold eff. rewrite (F 24) by lia. cbn [Z.eqb].
        pose proof (count_nonneg (mover b) n (conj W1 W2)).
        split; [|intros [(_ & A & _)|]; lia].
        intros A; left; repeat split; auto; try lia.
    + eexists; split; [reflexivity|]. split; [discriminate|].
      intros [(_ & _ & A & [?|?])|]; lia.
Qed.

Lemma find_first {A} (f : A -> bool) l x : find f l = Some x ->
  exists l1 l2, l = l1 ++ x :: l2 /\ f x = true /\ forall y, In y l1 -> f y = false.
Proof.
  induction l as [|a l IH]; cbn; [discriminate|]. destruct (f a) eqn:E.
  - intros [= <-]. exists [], l; repeat split; auto. intros y [].
  - intros H; destruct (IH H) as (l1 & l2 & -> & ? & ?). exists (a :: l1), l2; repeat split; auto.
    intros y [<-|]; auto.
Qed.
Lemma zrange_down_split a c l1 x l2 : zrange_down a c = l1 ++ x :: l2 ->
  forall y, x < y <= a -> In y l1.
Proof.
  unfold zrange_down. remember (Z.to_nat (a - c)) as k eqn:Hk. clear Hk.
  intros H y Hy.
  assert (Hn : forall i z, nth_error (map (fun k => a - Z.of_nat k) (seq 0 k)) i = Some z -> z = a - Z.of_nat i).
  { intros i z Hz. rewrite nth_error_map in Hz. destruct (nth_error (seq 0 k) i) eqn:E; [|discriminate].
    cbn in Hz. injection Hz as <-. assert (i < k)%nat as Hi.
    { assert (nth_error (seq 0 k) i <> None) as Q by congruence. apply nth_error_Some in Q.
      rewrite seq_length in Q; auto. }
    apply nth_error_nth with (d := O) in E. rewrite seq_nth in E by auto. lia. }
  rewrite H in Hn. assert (x = a - Z.of_nat (List.length l1)) as Hx.
  { apply Hn. rewrite nth_error_app2, Nat.sub_diag; auto. }
  assert (Z.to_nat (a - y) < List.length l1)%nat as Hi by lia.
  destruct (nth_error l1 (Z.to_nat (a - y))) as [z|] eqn:E.
  - assert (z = a - Z.of_nat (Z.to_nat (a - y))) as Hz.
    { apply Hn. rewrite nth_error_app1; auto. }
    apply nth_error_In in E. replace y with z by lia; auto.
  - apply nth_error_None in E; lia.
Qed.

Lemma may_bear_off_unique l i j d : may_bear_off l i d -> may_bear_off l j d -> i = j.
Proof.
  intros (Hi & Ci & _ & Ri) (Hj & Cj & _ & Rj).
  destruct (Z.lt_trichotomy i j) as [Hlt|[|Hlt]]; auto.
  - destruct Ri as [|[_ Ri]]; [destruct Rj as [|[? _]]; lia|]. rewrite Ri in Cj by lia; lia.
  - destruct Rj as [|[_ Rj]]; [destruct Ri as [|[? _]]; lia|]. rewrite Rj in Ci by lia; lia.
Qed.

Lemma find_src_exact b d : player (on_action b) -> wf_side (mover b) -> 1 <= d <= 6 ->
  exists r, find_src_of_bearoff_with b d = Ok r /\
    (forall i, r = Some i <-> may_bear_off (mover b) i d /\ (i <> 0 \/ d = 1)).
Proof.
  intros P [W1 W2] Hd. unfold find_src_of_bearoff_with.
  rewrite first_chequer_find; auto; [|intros i Hi; apply In_zrange in Hi; lia]. cbn [bind].
  destruct (find _ NONE_BEAROFF_POINTS) eqn:F.
  { eexists; split; [reflexivity|]. intros i; split; [discriminate|].
    intros [(_ & _ & A & _) _]. rewrite <- eff_home, <- find_eff_none in A; congruence. }
  rewrite find_eff_none, eff_home in F.
  assert (EF : forall i, eff (mover b) i = count (mover b) i).
  { intros i. unfold eff. rewrite (F 24) by lia. auto. }
  rewrite has_chequer_eff by (auto; lia). cbn [bind]. rewrite EF.
  assert (NN : forall i, 0 <= count (mover b) i) by (intros; apply count_nonneg; split; auto).
  destruct (count (mover b) (d - 1) =? 0) eqn:E; cbn [negb].
  2:{ assert (M : may_bear_off (mover b) (d - 1) d).
      { pose proof (NN (d - 1)). repeat split; auto; try lia. }
      eexists; split; [reflexivity|]. intros i; split.
      - intros [= <-]; split; auto; lia.
      - intros [A _]. f_equal. eapply may_bear_off_unique; eauto. }
  rewrite first_chequer_find; auto; [|intros i Hi; apply In_zrange in Hi; lia]. cbn [bind].
  destruct (find _ (zrange (d - 1) 6)) as [j|] eqn:G.
  { apply find_some in G as [G1 G2]. apply In_zrange in G1. rewrite EF in G2.
    eexists; split; [reflexivity|]. intros i; split; [discriminate|].
    intros [(A & B & _ & [C|[C D]]) _]; exfalso.
    - replace (d - 1) with i in E by lia. lia.
    - rewrite (D j) in G2 by lia. discriminate. }
  assert (HI : forall k, d - 1 <= k <= 24 -> count (mover b) k = 0).
  { intros k Hk. destruct (Z_lt_ge_dec k 6) as [L6|]; [|apply F; lia].
    rewrite <- EF. eapply find_eff_none in G; eauto. apply In_zrange; lia. }
  rewrite first_chequer_find; auto; [|intros i Hi; apply In_zrange_down in Hi; lia].
  eexists; split; [reflexivity|]. intros i; split.
  - intros Fi. apply find_first in Fi as (l1 & l2 & S & Q & N).
    assert (In i (zrange_down d 0)) as Ii by (rewrite S; apply in_or_app; cbn; auto).
    apply In_zrange_down in Ii. rewrite EF in Q.
    assert (i < d - 1) as Hid by (destruct (Z_lt_ge_dec i (d - 1)); auto; rewrite HI in Q by lia; discriminate).
    pose proof (NN i). split; [|lia]. repeat split; auto; try lia.
    right; split; [lia|]. intros k Hk. destruct (Z_lt_ge_dec k (d - 1)); [|apply HI; lia].
    assert (In k l1) as Ik by (eapply zrange_down_split; [exact S|lia]).
    apply N in Ik. rewrite EF in Ik. lia.
  - intros [M O]. destruct (find _ (zrange_down d 0)) as [j|] eqn:Fj.
    + f_equal. apply find_first in Fj as (l1 & l2 & S & Q & N).
      assert (In j (zrange_down d 0)) as Ij by (rewrite S; apply in_or_app; cbn; auto).
      apply In_zrange_down in Ij. rewrite EF in Q.
      destruct M as (A & B & _ & [C|[C D]]); [rewrite HI in B by lia; lia|].
      destruct (Z.lt_trichotomy i j) as [Hlt|[|Hlt]]; auto.
      * rewrite D in Q by lia; discriminate.
      * assert (In i l1) as Ik by (eapply zrange_down_split; [exact S|lia]).
        apply N in Ik. rewrite EF in Ik. lia.
    + exfalso. destruct M as (A & B & _ & [C|[C D]]); [rewrite HI in B by lia; lia|].
      rewrite <- EF in B. pose proof (proj1 (find_eff_none _ _) Fj i) as K.
      rewrite K in B; [lia|]. apply In_zrange_down; lia.
Qed.

(* ---------- C11 ---------- *)
Lemma flip_owner_YOU v : (flip_owner v =? YOU) = (v =? HIM).
Proof. unfold flip_owner, YOU, HIM. destruct (v =? 0) eqn:A; cbn; [lia|]. destruct (v =? 1) eqn:B; cbn; lia. Qed.
Lemma flip_owner_HIM v : (flip_owner v =? HIM) = (v =? YOU).
Proof. unfold flip_owner, YOU, HIM. destruct (v =? 0) eqn:A; cbn; [lia|]. destruct (v =? 1) eqn:B; cbn; lia. Qed.
Lemma sides_flipped b : sides (flipped b) = sides b.
Proof.
  unfold sides, flipped; cbn -[flip_owner YOU HIM]. rewrite flip_owner_YOU, flip_owner_HIM.
  destruct (on_action b =? YOU) eqn:A, (on_action b =? HIM) eqn:B; auto.
  unfold YOU, HIM in *; lia.
Qed.
Lemma has_chequer_flipped b n : has_chequer_to_move (flipped b) n = has_chequer_to_move b n.
Proof. unfold has_chequer_to_move; rewrite sides_flipped; auto. Qed.
Lemma first_chequer_flipped b l : first_chequer (flipped b) l = first_chequer b l.
Proof.
  induction l as [|i l IH]; cbn [first_chequer]; auto. rewrite has_chequer_flipped, IH; auto.
Qed.
Lemma seat_independent : forall b b', flip b = (b', Ok tt) ->
  (forall n, is_open_to_land b' n = is_open_to_land b n) /\
  (forall n, is_hitting_to_land b' n = is_hitting_to_land b n) /\
  (forall n, has_chequer_to_move b' n = has_chequer_to_move b n) /\
  (forall n d, is_ok_to_bearoff_from b' n d = is_ok_to_bearoff_from b n d) /\
  (forall d, find_src_of_bearoff_with b' d = find_src_of_bearoff_with b d).
Proof.
  intros b b' H; apply flip_ok in H; subst. repeat split; intros.
  - unfold is_open_to_land; rewrite sides_flipped; auto.
  - unfold is_hitting_to_land; rewrite sides_flipped; auto.
  - apply has_chequer_flipped.
  - unfold is_ok_to_bearoff_from; rewrite !first_chequer_flipped, has_chequer_flipped; auto.
  - unfold find_src_of_bearoff_with; rewrite !first_chequer_flipped, has_chequer_flipped; auto.
Qed.

(* ---------- C12 ---------- *)
Lemma double_exact b who : before_roll b -> player (on_action b) -> 0 <= cube_in_logarithm b ->
  exists r, is_leagal_to_double b who = Ok r /\
   (r = true <-> who = on_action b /\ who = on_inner_action b /\ crawford b = false /\ doubled b = false /\
      (match_length b = 0 \/
       (who = 0 /\ points b 0 + 2 ^ cube_in_logarithm b <= match_length b) \/
       (who = 1 /\ points b 1 + 2 ^ cube_in_logarithm b < match_length b))).
Proof.
  intros [R G] P C. unfold is_leagal_to_double, pypow2, points, ON_GOING, YOU, HIM, MONEY_GAME.
  rewrite R, G. cbn [zpair_eqb fst snd Z.eqb andb negb Pos.eqb].
  destruct (crawford b); [eexists; split; [reflexivity|]; split; [discriminate|]; intros (_ & _ & ? & _); discriminate|].
  destruct (doubled b); [eexists; split; [reflexivity|]; split; [discriminate|]; intros (_ & _ & _ & ? & _); discriminate|].
  replace (cube_in_logarithm b <? 0) with false by lia. cbn [bind].
  unfold player in P. destruct (on_action b =? 0) eqn:A.
  - destruct (who =? 0) eqn:W; cbn [negb]; [|eexists; split; [reflexivity|]; split; [discriminate|]; intros (? & _); lia].
    destruct (on_inner_action b =? 0) eqn:I; [|eexists; split; [reflexivity|]; split; [discriminate|]; intros (_ & ? & _); lia].
    destruct (match_length b =? 0) eqn:M; eexists; (split; [reflexivity|]); lia.
  - destruct (on_action b =? 1) eqn:B; [|lia].
    destruct (who =? 1) eqn:W; cbn [negb]; [|eexists; split; [reflexivity|]; split; [discriminate|]; intros (? & _); lia].
    destruct (on_inner_action b =? 1) eqn:I; [|eexists; split; [reflexivity|]; split; [discriminate|]; intros (_ & ? & _); lia].
    destruct (match_length b =? 0) eqn:M; eexists; (split; [reflexivity|]); lia.
Qed.

(* ---------- C13, C14 ---------- *)
Definition padd (l : list Z) (k : nat) (d : Z) : list Z := list_set l k (nth k l 0 + d).
Lemma pyadd_pyix l i d :
  pyadd l i d = match pyix l i with Some k => Ok (padd l k d) | None => Exc IndexError end.
Proof.
  unfold pyadd, pyget, pyset. destruct (pyix l i) as [k|] eqn:E; [|reflexivity].
  pose proof (pyix_lt _ _ _ E) as H. rewrite (nth_error_nth' l 0 H). reflexivity.
Qed.
Lemma padd_length l k d : List.length (padd l k d) = List.length l.
Proof. apply list_set_length. Qed.
Lemma pyix_padd l k d i : pyix (padd l k d) i = pyix l i.
Proof. apply pyix_list_set. Qed.
Lemma nth_padd l k d j : (k < List.length l)%nat ->
  nth j (padd l k d) 0 = nth j l 0 + (if Nat.eqb j k then d else 0).
Proof.
  intros H; unfold padd; rewrite nth_list_set.
  destruct (Nat.eqb_spec j k) as [->|]; cbn [andb]; [|lia].
  replace (k <? List.length l)%nat with true by (symmetry; apply Nat.ltb_lt; auto). lia.
Qed.
Lemma padd_comm l j k c d : padd (padd l j c) k d = padd (padd l k d) j c.
Proof.
  destruct (Nat.eq_dec j k) as [->|N].
  - unfold padd. rewrite !list_set_set, !nth_list_set, Nat.eqb_refl. cbn [andb].
    destruct (k <? List.length l)%nat eqn:E; [f_equal; lia|].
    apply Nat.ltb_ge in E. rewrite !nth_overflow by auto.
    assert (Q : forall v, list_set l k v = l).
    { clear -E. revert k E; induction l as [|x l IH]; intros [|k] E v; cbn in *; auto; try lia. rewrite IH; auto; lia. }
    rewrite !Q; auto.
  - unfold padd. rewrite !nth_list_set.
    replace (Nat.eqb k j) with false by lia. replace (Nat.eqb j k) with false by lia. cbn [andb].
    apply list_set_comm; auto.
Qed.
Lemma padd_cancel l k d : padd (padd l k d) k (- d) = l.
Proof.
  unfold padd. rewrite list_set_set, nth_list_set, Nat.eqb_refl; cbn [andb].
  destruct (k <? List.length l)%nat eqn:E.
  - apply Nat.ltb_lt in E. replace (nth k l 0 + d + - d) with (nth k l 0) by lia.
    apply list_set_app_nth; auto.
  - apply Nat.ltb_ge in E. clear -E.
    generalize (nth k l 0 + - d). intros v. revert k E; induction l as [|x l IH]; intros [|k] E; cbn in *; auto; try lia.
    rewrite IH; auto; lia.
Qed.
Lemma zsum_padd l k d : (k < List.length l)%nat -> zsum (padd l k d) = zsum l + d.
Proof. intros H; unfold padd; rewrite zsum_list_set by auto; lia. Qed.

(* the effect of a partial move as up to two additions on each side *)
Definition padd_opt (l : list Z) (o : option nat) (d : Z) : list Z :=
  match o with Some k => padd l k d | None => l end.
Definition add_on (cond : bool) (l : list Z) (i d : Z) : res (list Z) :=
  if cond then pyadd l i d else Ok l.
Lemma add_on_ok cond l i d r : add_on cond l i d = Ok r ->
  exists o, r = padd_opt l o d /\ (if cond then pyix l i = o /\ o <> None else o = None).
Proof.
  unfold add_on. destruct cond; [|intros [= <-]; exists None; auto].
  rewrite pyadd_pyix. destruct (pyix l i) as [k|] eqn:E; [|discriminate].
  intros [= <-]. exists (Some k); repeat split; auto; discriminate.
Qed.
Lemma pyix_padd_opt l o d i : pyix (padd_opt l o d) i = pyix l i.
Proof. destruct o; cbn [padd_opt]; auto using pyix_padd. Qed.
Lemma add_on_intro (cond : bool) l i d o :
  (if cond then pyix l i = o /\ o <> None else o = None) -> add_on cond l i d = Ok (padd_opt l o d).
Proof.
  unfold add_on; destruct cond; [|intros ->; auto]. rewrite pyadd_pyix.
  intros [-> H]; destruct o; [auto|congruence].
Qed.
Lemma padd_opt_comm l o p c d : padd_opt (padd_opt l o c) p d = padd_opt (padd_opt l p d) o c.
Proof. destruct o, p; cbn [padd_opt]; auto using padd_comm. Qed.
Lemma padd_opt_cancel l o d : padd_opt (padd_opt l o d) o (- d) = l.
Proof. destruct o; cbn [padd_opt]; auto using padd_cancel. Qed.

Lemma move_sides_eq pm m h : move_sides pm m h =
  let! m1 := add_on (OFF <? src pm) m (src pm) (-1) in
  let! m2 := add_on (OFF <? dest pm) m1 (dest pm) 1 in
  if is_hitting pm then
    let d := if is_undo pm then 1 else -1 in
    let! h1 := pyadd h (flip_point (if is_undo pm then src pm else dest pm)) d in
    let! h2 := pyadd h1 BAR (- d) in Ok (m2, h2)
  else Ok (m2, h).
Proof.
  unfold move_sides, add_on.
  destruct (OFF <? src pm); [destruct (pyadd m (src pm) (-1)) as [m1|e]; [|auto]|]; cbn [bind];
  (destruct (OFF <? dest pm); [destruct (pyadd _ (dest pm) 1); [|auto]|]; cbn [bind];
   destruct (is_hitting pm); auto; destruct (is_undo pm); auto).
Qed.

Lemma move_sides_undo pm m h m' h' : src pm <> dest pm ->
  move_sides pm m h = Ok (m', h') -> move_sides (inverse pm) m' h' = Ok (m, h).
Proof.
  intros NE. rewrite !move_sides_eq. unfold inverse, is_undo in *; cbn [src dest is_hitting die].
  intros H. apply bind_ok in H as (m1 & H1 & H). apply bind_ok in H as (m2 & H2 & H).
  apply add_on_ok in H1 as (o1 & -> & C1). apply add_on_ok in H2 as (o2 & -> & C2).
  rewrite pyix_padd_opt in C2.
  set (m2 := padd_opt (padd_opt m o1 (-1)) o2 1) in *.
  assert (Em : m' = m2).
  { destruct (is_hitting pm); [|congruence]. apply bind_ok in H as (h1 & G1 & H).
    apply bind_ok in H as (h2 & G2 & H). congruence. }
  subst m'. unfold m2 at 1.
  rewrite (add_on_intro _ _ _ _ o2) by (rewrite !pyix_padd_opt; exact C2). cbn [bind].
  rewrite (add_on_intro _ _ _ _ o1) by (rewrite !pyix_padd_opt; exact C1). cbn [bind].
  rewrite (padd_opt_cancel _ o2 1), (padd_opt_cancel _ o1 (-1)).
  destruct (is_hitting pm); [|congruence].
  replace (dest pm <? src pm) with (negb (src pm <? dest pm)) by lia.
  apply bind_ok in H as (h1 & G1 & H). apply bind_ok in H as (h2 & G2 & H). injection H as <-.
  rewrite pyadd_pyix in G1, G2.
  destruct (pyix h _) as [k1|] eqn:K1 in G1; [|discriminate]. injection G1 as <-.
  rewrite pyix_padd in G2. destruct (pyix h BAR) as [k2|] eqn:K2; [|discriminate]. injection G2 as <-.
  replace (if negb (src pm <? dest pm) then dest pm else src pm)
    with (if src pm <? dest pm then src pm else dest pm) by (destruct (src pm <? dest pm); auto).
  rewrite pyadd_pyix, !pyix_padd, K1. cbn [bind]. rewrite pyadd_pyix, !pyix_padd, K2. cbn [bind].
  do 2 f_equal. rewrite (padd_comm (padd h k1 _) k2 k1 _ _).
  destruct (src pm <? dest pm); cbn [negb].
  - etransitivity; [|apply (padd_cancel h k2 (-1))]. do 2 f_equal. apply (padd_cancel h k1 1).
  - etransitivity; [|apply (padd_cancel h k2 1)]. do 2 f_equal. apply (padd_cancel h k1 (-1)).
Qed.

Lemma set_position_idem b : set_position (position b) b = b.
Proof. destruct b; auto. Qed.
Lemma partial_move_sides pm b b' : make_partial_move pm b = (b', Ok tt) <->
  player (on_action b) /\ exists m h,
    move_sides pm (side b (on_action b)) (side b (other (on_action b))) = Ok (m, h) /\
    b' = set_position (if on_action b =? 0 then (m, h) else (h, m)) b.
Proof.
  unfold make_partial_move. split.
  - destruct (sides b) as [[x y]|] eqn:S; [|discriminate].
    assert (P : player (on_action b)).
    { unfold sides, player, YOU, HIM in *. destruct (on_action b =? 0) eqn:A; [lia|].
      destruct (on_action b =? 1) eqn:B; [lia|discriminate]. }
    rewrite sides_player in S by auto. injection S as <- <-.
    destruct (move_sides _ _ _) as [[m h]|e]; [|discriminate].
    intros H; split; auto. exists m, h; split; auto. unfold YOU in H.
    destruct (on_action b =? 0); injection H as <-; auto.
  - intros (P & m & h & E & ->). rewrite sides_player by auto. rewrite E. unfold YOU.
    destruct (on_action b =? 0); auto.
Qed.

Lemma undo_restores b b' pm : src pm <> dest pm ->
  make_partial_move pm b = (b', Ok tt) -> make_partial_move (inverse pm) b' = (b, Ok tt).
Proof.
  intros NE H. apply partial_move_sides in H as (P & m & h & E & ->).
  apply partial_move_sides. cbn [set_position on_action]. split; auto.
  exists (side b (on_action b)), (side b (other (on_action b))).
  unfold side, other in *; cbn [set_position position].
  apply (move_sides_undo _ _ _ _ _ NE) in E.
  destruct P as [P|P]; rewrite P in *; cbn [Z.eqb Z.sub Z.add Z.opp Pos.eqb fst snd] in *;
    (split; [exact E|]); destruct b as [[? ?] ? ? ? ? ? ? ? ? ? ? ?]; cbn in *; auto.
Qed.

Lemma zsum_padd_opt l o d :
  (forall k, o = Some k -> (k < List.length l)%nat) ->
  zsum (padd_opt l o d) = zsum l + (match o with Some _ => d | None => 0 end).
Proof. destruct o as [k|]; cbn [padd_opt]; intros H; [rewrite zsum_padd; auto|lia]. Qed.
Lemma move_sides_sum pm m h m' h' : move_sides pm m h = Ok (m', h') ->
  zsum m' = zsum m + (if -1 <? dest pm then 1 else 0) - (if -1 <? src pm then 1 else 0) /\
  zsum h' = zsum h /\ List.length m' = List.length m /\ List.length h' = List.length h.
Proof.
  rewrite move_sides_eq. intros H.
  apply bind_ok in H as (m1 & H1 & H). apply bind_ok in H as (m2 & H2 & H).
  apply add_on_ok in H1 as (o1 & -> & C1). apply add_on_ok in H2 as (o2 & -> & C2).
  rewrite pyix_padd_opt in C2. unfold OFF in *.
  assert (L1 : forall k, o1 = Some k -> (k < List.length m)%nat).
  { intros k ->; destruct (-1 <? src pm); [destruct C1 as [C1 _]|discriminate]. eapply pyix_lt; eauto. }
  assert (LP : forall l o d, List.length (padd_opt l o d) = List.length l).
  { intros l [k|] d; cbn [padd_opt]; auto using padd_length. }
  assert (L2 : forall k, o2 = Some k -> (k < List.length (padd_opt m o1 (-1)))%nat).
  { intros k ->; rewrite LP. destruct (-1 <? dest pm); [destruct C2 as [C2 _]|discriminate]. eapply pyix_lt; eauto. }
  assert (SM : zsum (padd_opt (padd_opt m o1 (-1)) o2 1) =
     zsum m + (if -1 <? dest pm then 1 else 0) - (if -1 <? src pm then 1 else 0)).
  { rewrite zsum_padd_opt, zsum_padd_opt by auto.
    destruct (-1 <? src pm), (-1 <? dest pm); cbn in C1, C2; destruct o1, o2; cbn; try lia;
      try (destruct C1; congruence); try (destruct C2; congruence); congruence. }
  assert (H' : exists h1, m' = padd_opt (padd_opt m o1 (-1)) o2 1 /\ h' = h1 /\ zsum h1 = zsum h /\ List.length h1 = List.length h).
  { destruct (is_hitting pm).
    - cbv zeta in H. set (d := if is_undo pm then 1 else -1) in *.
      apply bind_ok in H as (h1 & G1 & H). apply bind_ok in H as (h2 & G2 & H). injection H as <- <-.
      rewrite pyadd_pyix in G1, G2.
      destruct (pyix h _) as [k1|] eqn:K1; [|discriminate]. injection G1 as <-.
      rewrite pyix_padd in G2. destruct (pyix h BAR) as [k2|] eqn:K2; [|discriminate]. injection G2 as <-.
      eexists; split; [reflexivity|]; split; [reflexivity|]. rewrite !padd_length. split; auto.
      rewrite zsum_padd by (rewrite padd_length; eapply pyix_lt; eauto).
      rewrite zsum_padd by (eapply pyix_lt; eauto). lia.
    - injection H as <- <-. exists h; auto. }
  destruct H' as (h1 & -> & -> & Hs & Hl). rewrite !LP; auto.
Qed.

Lemma nth_padd_opt25 l o d i : List.length l = 25%nat -> -1 <= i <= 24 ->
  (if -1 <? i then pyix l i = o /\ o <> None else o = None) ->
  forall k, 0 <= k <= 24 -> count (padd_opt l o d) k = count l k + d * here i k.
Proof.
  intros H Hi C k Hk. unfold count, here. destruct (-1 <? i) eqn:E.
  - destruct C as [C _]. rewrite pyix_in in C by (unfold zlen; lia). subst o. cbn [padd_opt].
    rewrite nth_padd by lia. destruct (i =? k) eqn:F.
    + replace (Nat.eqb (Z.to_nat k) (Z.to_nat i)) with true by lia. lia.
    + replace (Nat.eqb (Z.to_nat k) (Z.to_nat i)) with false by lia. lia.
  - subst o; cbn. replace (i =? k) with false by lia. lia.
Qed.
Lemma move_sides_pointwise pm m h : pm_ok pm -> List.length m = 25%nat -> List.length h = 25%nat ->
  exists m' h', move_sides pm m h = Ok (m', h') /\
    (forall k, 0 <= k <= 24 -> count m' k = count m k + mover_delta pm k) /\
    (forall k, 0 <= k <= 24 -> count h' k = count h k + opp_delta pm k).
Proof.
  intros (Hs & Hd & Hh) Lm Lh. rewrite move_sides_eq. unfold OFF.
  assert (PO : forall i, -1 <= i <= 24 -> exists o, if -1 <? i then pyix m i = o /\ o <> None else o = None).
  { intros i Hi. destruct (-1 <? i) eqn:E; [|eauto]. rewrite pyix_in by (unfold zlen; lia).
    eexists; split; [reflexivity|discriminate]. }
  destruct (PO _ Hs) as (o1 & C1). destruct (PO _ Hd) as (o2 & C2).
  rewrite (add_on_intro _ _ _ _ o1) by auto. cbn [bind].
  rewrite (add_on_intro _ _ _ _ o2) by (rewrite pyix_padd_opt; auto). cbn [bind].
  assert (LP : forall l o d, List.length (padd_opt l o d) = List.length l).
  { intros l [k|] d; cbn [padd_opt]; auto using padd_length. }
  assert (M : forall k, 0 <= k <= 24 ->
     count (padd_opt (padd_opt m o1 (-1)) o2 1) k = count m k + mover_delta pm k).
  { intros k Hk. rewrite (nth_padd_opt25 _ _ _ (dest pm)) by (rewrite ?LP, ?pyix_padd_opt; auto).
    rewrite (nth_padd_opt25 _ _ _ (src pm)) by auto. unfold mover_delta. lia. }
  destruct (is_hitting pm) eqn:HH.
  - specialize (Hh eq_refl). unfold is_undo. cbv zeta.
    set (i := flip_point (if src pm <? dest pm then src pm else dest pm)).
    assert (Hi : 0 <= i <= 23) by (unfold i, flip_point; destruct (src pm <? dest pm); lia).
    rewrite pyadd_pyix, pyix_in by (unfold zlen; lia). cbn [bind].
    rewrite pyadd_pyix, pyix_padd, pyix_in by (unfold zlen, BAR; lia). cbn [bind].
    eexists _, _; split; [reflexivity|]; split; [exact M|].
    intros k Hk. unfold opp_delta; rewrite HH. unfold count.
    rewrite nth_padd by (rewrite padd_length; unfold BAR; lia). rewrite nth_padd by lia.
    unfold here, i, flip_point, BAR.
    destruct (src pm <? dest pm); repeat match goal with |- context [Nat.eqb ?a ?b] => destruct (Nat.eqb_spec a b) end;
      repeat match goal with |- context [?a =? ?b] => destruct (Z.eqb_spec a b) end; try lia.
  - eexists _, _; split; [reflexivity|]; split; [exact M|].
    intros k Hk; unfold opp_delta; rewrite HH; lia.
Qed.

Lemma move_conserves :
  (forall b pm b', make_partial_move pm b = (b', Ok tt) ->
     let w := on_action b in
     total (side b' w) = total (side b w) + (if -1 <? dest pm then 1 else 0) - (if -1 <? src pm then 1 else 0) /\
     total (side b' (other w)) = total (side b (other w)) /\
     changes_only [FPosition] b b') /\
  (forall b pm, player (on_action b) -> List.length (fst (position b)) = 25%nat ->
     List.length (snd (position b)) = 25%nat -> pm_ok pm ->
     exists b', make_partial_move pm b = (b', Ok tt) /\
       (forall w, List.length (side b' w) = 25%nat) /\
       forall k, 0 <= k <= 24 ->
         count (side b' (on_action b)) k = count (side b (on_action b)) k + mover_delta pm k /\
         count (side b' (other (on_action b))) k = count (side b (other (on_action b))) k + opp_delta pm k) /\
  (forall b pm b' e, make_partial_move pm b = (b', Exc e) -> b' = b).
Proof.
  refine (conj _ (conj _ _)).
  - intros b pm b' H w. unfold w; clear w. apply partial_move_sides in H as (P & m & h & E & ->).
    apply move_sides_sum in E as (S1 & S2 & _). unfold total, side, other in *. fold (zsum m).
    split; [|split].
    + destruct P as [P|P]; rewrite P in *; cbn in *; auto.
    + destruct P as [P|P]; rewrite P in *; cbn in *; auto.
    + intros []; cbn; auto; tauto.
  - intros b pm P L1 L2 HP.
    destruct (move_sides_pointwise pm (side b (on_action b)) (side b (other (on_action b)))) as (m & h & E & M & H); auto.
    { unfold side; destruct (on_action b =? 0); auto. }
    { unfold side; destruct (other (on_action b) =? 0); auto. }
    pose proof (move_sides_sum _ _ _ _ _ E) as (_ & _ & LM & LH).
    exists (set_position (if on_action b =? 0 then (m, h) else (h, m)) b).
    split; [apply partial_move_sides; split; auto; exists m, h; auto|].
    split.
    + intros w. unfold side, other in LM, LH; unfold side; cbn [set_position position].
      destruct P as [P|P]; rewrite P in *; cbn in *; destruct (w =? 0); cbn; lia.
    + unfold side, other in M, H; intros k Hk; specialize (M k Hk); specialize (H k Hk);
      unfold side, other in *; destruct P as [P|P]; rewrite P in *; cbn [Z.eqb Z.sub Z.add Z.opp Pos.eqb fst snd set_position position on_action] in *; auto.
  - intros b pm b' e. unfold make_partial_move. destruct (sides b) as [[x y]|]; [|congruence].
    destruct (move_sides pm x y) as [[? ?]|]; [|congruence]. destruct (_ =? YOU); congruence.
Qed.

(* ---------- C15 ---------- *)
Lemma take_or_pass_spec b w : is_cube_take_or_pass b w = true <-> may_answer_double b w.
Proof. unfold is_cube_take_or_pass, may_answer_double. destruct (doubled b); cbn; split; intros; try lia; destruct H; discriminate. Qed.
Lemma resign_spec b w : is_leagal_to_resign b w = true <-> may_resign b w.
Proof. unfold is_leagal_to_resign, may_resign; lia. Qed.
Lemma accept_spec b w : is_to_accept_resign b w = true <-> may_answer_resign b w.
Proof.
  unfold is_to_accept_resign, may_answer_resign, zmem, RESIGN_TYPES, RESIGN_SINGLE, RESIGN_GAMMON, RESIGN_BACKGAMMON.
  cbn [existsb]; lia.
Qed.
Lemma opp_player w : player w -> get_opp w = Ok (other w).
Proof. intros [-> | ->]; reflexivity. Qed.

Lemma drop_effect b w : player w -> 0 <= cube_in_logarithm b -> may_answer_double b w ->
  drop w b = (set_score (if w =? 0 then (fst (score b), snd (score b) + 2 ^ cube_in_logarithm b)
                         else (fst (score b) + 2 ^ cube_in_logarithm b, snd (score b)))
                (set_game_state DOUBLED_OUT b), Ok tt).
Proof.
  intros P C M. unfold drop. apply take_or_pass_spec in M; rewrite M; cbn [negb].
  unfold score_get, pypow2. cbn [set_game_state score cube_in_logarithm].
  replace (cube_in_logarithm b <? 0) with false by lia.
  destruct P as [-> | ->]; reflexivity.
Qed.
Lemma accept_effect b w : player w -> 0 <= cube_in_logarithm b -> may_answer_resign b w ->
  accept_resign w b = (set_score (if w =? 0 then (fst (score b) + resign_offer b * 2 ^ cube_in_logarithm b, snd (score b))
                         else (fst (score b), snd (score b) + resign_offer b * 2 ^ cube_in_logarithm b))
                (set_game_state RESIGNED b), Ok tt).
Proof.
  intros P C M. unfold accept_resign. apply accept_spec in M; rewrite M; cbn [negb].
  unfold score_get, pypow2. cbn [set_game_state score cube_in_logarithm resign_offer].
  replace (cube_in_logarithm b <? 0) with false by lia.
  destruct P as [-> | ->]; reflexivity.
Qed.

Lemma bookkeeping :
  (* who scores and how much *)
  (forall b w, player w -> 0 <= cube_in_logarithm b -> may_answer_double b w ->
     exists b', drop w b = (b', Ok tt) /\
       points b' (other w) = points b (other w) + 2 ^ cube_in_logarithm b /\
       points b' w = points b w /\ game_state b' = 4 /\ changes_only [FScore; FState] b b') /\
  (forall b w, player w -> 0 <= cube_in_logarithm b -> may_answer_resign b w ->
     exists b', accept_resign w b = (b', Ok tt) /\
       points b' w = points b w + resign_offer b * 2 ^ cube_in_logarithm b /\
       points b' (other w) = points b (other w) /\ game_state b' = 3 /\ changes_only [FScore; FState] b b') /\
  (* the remaining actions *)
  (forall b w, may_answer_double b w ->
     exists b', take w b = (b', Ok tt) /\ on_inner_action b' = on_action b /\ changes_only [FInner] b b') /\
  (forall b w, is_leagal_to_double b w = Ok true ->
     exists b', double w b = (b', Ok tt) /\ on_inner_action b' = other w /\ doubled b' = true /\
       changes_only [FInner; FDoubled] b b') /\
  (forall b w k, player w -> 1 <= k <= 3 -> may_resign b w ->
     exists b', offer_resign w k b = (b', Ok tt) /\ on_inner_action b' = other w /\ resign_offer b' = k /\
       changes_only [FInner; FResign] b b') /\
  (forall b w, player w -> may_answer_resign b w ->
     exists b', reject_resign w b = (b', Ok tt) /\ on_inner_action b' = other w /\ resign_offer b' = 0 /\
       changes_only [FInner; FResign] b b') /\
  (forall b, player (on_action b) -> player (on_inner_action b) ->
     exists b', pickupdice b = (b', Ok tt) /\ rolled b' = (0, 0) /\ on_action b' = other (on_action b) /\
       on_inner_action b' = other (on_inner_action b) /\ changes_only [FRolled; FOnAction; FInner] b b') /\
  (* out of turn: refused and unchanged *)
  (forall b w, ~ may_answer_double b w ->
     take w b = (b, Exc AssertionError) /\ drop w b = (b, Exc AssertionError)) /\
  (forall b w, is_leagal_to_double b w <> Ok true -> fst (double w b) = b /\ snd (double w b) <> Ok tt) /\
  (forall b w k, ~ may_resign b w -> offer_resign w k b = (b, Exc AssertionError)) /\
  (forall b w k, ~ 1 <= k <= 3 -> offer_resign w k b = (b, Exc AssertionError)) /\
  (forall b w, ~ may_answer_resign b w ->
     accept_resign w b = (b, Exc AssertionError) /\ reject_resign w b = (b, Exc AssertionError)) /\
  (* nothing else scores or moves chequers *)
  (forall b a, (forall w, a <> ADrop w) -> (forall w, a <> AAccept w) -> score (fst (act a b)) = score b) /\
  (forall b a, (forall pm, a <> AMove pm) -> position (fst (act a b)) = position b).
Proof.
  repeat match goal with |- _ /\ _ => split end.
  - intros b w P C M. rewrite drop_effect by auto. eexists; split; [reflexivity|].
    unfold points; destruct P as [-> | ->]; cbn -[Z.pow]; repeat split; auto; intros []; cbn; auto; tauto.
  - intros b w P C M. rewrite accept_effect by auto. eexists; split; [reflexivity|].
    unfold points; destruct P as [-> | ->]; cbn -[Z.pow Z.mul]; repeat split; auto; intros []; cbn; auto; tauto.
  - intros b w M. apply take_or_pass_spec in M. unfold take; rewrite M. eexists; split; [reflexivity|].
    split; auto. intros []; cbn; auto; tauto.
  - intros b w D. unfold double; rewrite D.
    assert (P : player w).
    { unfold is_leagal_to_double, YOU, HIM in D. destruct (negb _); [discriminate|]. destruct (negb _); [discriminate|].
      destruct (crawford b); [discriminate|]. destruct (doubled b); [discriminate|].
      destruct (on_action b =? 0); [destruct (w =? 0) eqn:E; [left; lia|discriminate]|].
      destruct (on_action b =? 1); [destruct (w =? 1) eqn:E; [right; lia|discriminate]|discriminate]. }
    rewrite opp_player by auto. eexists; split; [reflexivity|]. repeat split; auto. intros []; cbn; auto; tauto.
  - intros b w k P K M. apply resign_spec in M. unfold offer_resign; rewrite M; cbn [negb].
    replace (zmem k RESIGN_TYPES) with true by
      (symmetry; unfold zmem, RESIGN_TYPES, RESIGN_SINGLE, RESIGN_GAMMON, RESIGN_BACKGAMMON; cbn [existsb]; lia).
    cbn [negb]. rewrite opp_player by auto. eexists; split; [reflexivity|]. repeat split; auto. intros []; cbn; auto; tauto.
  - intros b w P M. apply accept_spec in M. unfold reject_resign; rewrite M; cbn [negb].
    rewrite opp_player by auto. eexists; split; [reflexivity|]. repeat split; auto. intros []; cbn; auto; tauto.
  - intros b P Q. unfold pickupdice. cbn [set_rolled on_action set_on_action on_inner_action].
    rewrite (opp_player (on_action b)) by auto. cbn [set_on_action on_inner_action].
    rewrite opp_player by auto. eexists; split; [reflexivity|]. repeat split; auto. intros []; cbn; auto; tauto.
  - intros b w M. rewrite <- take_or_pass_spec in M. unfold take, drop.
    destruct (is_cube_take_or_pass b w); [tauto|auto].
  - intros b w D. unfold double. destruct (is_leagal_to_double b w) as [[|]|e]; [tauto| |]; cbn; split; auto; discriminate.
  - intros b w k M. rewrite <- resign_spec in M. unfold offer_resign. destruct (is_leagal_to_resign b w); [tauto|auto].
  - intros b w k K. unfold offer_resign. destruct (is_leagal_to_resign b w); [|auto]. cbn [negb].
    replace (zmem k RESIGN_TYPES) with false; [auto|].
    symmetry; unfold zmem, RESIGN_TYPES, RESIGN_SINGLE, RESIGN_GAMMON, RESIGN_BACKGAMMON; cbn [existsb]; lia.
  - intros b w M. rewrite <- accept_spec in M. unfold accept_resign, reject_resign.
    destruct (is_to_accept_resign b w); [tauto|auto].
  - intros b a D A. destruct a as [w| |w|w|w k|w|w| |d|pm]; cbn [act]; auto.
    + unfold double. destruct (is_leagal_to_double b w) as [[|]|]; auto. destruct (get_opp w); auto.
    + unfold take. destruct (is_cube_take_or_pass b w); auto.
    + exfalso; eapply D; reflexivity.
    + unfold offer_resign. destruct (is_leagal_to_resign b w); auto. destruct (zmem k RESIGN_TYPES); auto.
      cbn [negb]. destruct (get_opp w); auto.
    + exfalso; eapply A; reflexivity.
    + unfold reject_resign. destruct (is_to_accept_resign b w); auto. cbn [negb]. destruct (get_opp w); auto.
    + unfold pickupdice. cbn [set_rolled on_action]. destruct (get_opp (on_action b)); auto.
      cbn [set_rolled set_on_action on_inner_action]. destruct (get_opp (on_inner_action b)); auto.
    + unfold make_partial_move. destruct (sides b) as [[x y]|]; auto.
      destruct (move_sides pm x y) as [[? ?]|]; auto. destruct (_ =? YOU); auto.
  - intros b a D. destruct a as [w| |w|w|w k|w|w| |d|pm]; cbn [act]; auto.
    + unfold double. destruct (is_leagal_to_double b w) as [[|]|]; auto. destruct (get_opp w); auto.
    + unfold take. destruct (is_cube_take_or_pass b w); auto.
    + unfold drop. destruct (is_cube_take_or_pass b w); auto. cbn [negb]. destruct (bind _ _); auto.
    + unfold offer_resign. destruct (is_leagal_to_resign b w); auto. destruct (zmem k RESIGN_TYPES); auto.
      cbn [negb]. destruct (get_opp w); auto.
    + unfold accept_resign. destruct (is_to_accept_resign b w); auto. cbn [negb]. destruct (bind _ _); auto.
    + unfold reject_resign. destruct (is_to_accept_resign b w); auto. cbn [negb]. destruct (get_opp w); auto.
    + unfold pickupdice. cbn [set_rolled on_action]. destruct (get_opp (on_action b)); auto.
      cbn [set_rolled set_on_action on_inner_action]. destruct (get_opp (on_inner_action b)); auto.
    + exfalso; eapply D; reflexivity.
Qed.

(* ---------- C16 ---------- *)
Lemma act_other_state a b : scoring a = false -> game_state (fst (act a b)) = game_state b.
Proof.
  destruct a as [w| |w|w|w k|w|w| |d|pm]; cbn [act scoring]; try discriminate; intros _; auto.
  - unfold double. destruct (is_leagal_to_double b w) as [[|]|]; auto. destruct (get_opp w); auto.
  - unfold take. destruct (is_cube_take_or_pass b w); auto.
  - unfold offer_resign. destruct (is_leagal_to_resign b w); auto. destruct (zmem k RESIGN_TYPES); auto.
    cbn [negb]. destruct (get_opp w); auto.
  - unfold reject_resign. destruct (is_to_accept_resign b w); auto. cbn [negb]. destruct (get_opp w); auto.
  - unfold pickupdice. cbn [set_rolled on_action]. destruct (get_opp (on_action b)); auto.
    cbn [set_rolled set_on_action on_inner_action]. destruct (get_opp (on_inner_action b)); auto.
  - unfold make_partial_move. destruct (sides b) as [[x y]|]; auto.
    destruct (move_sides pm x y) as [[? ?]|]; auto. destruct (_ =? YOU); auto.
Qed.
Lemma act_ended a b : ended b -> ended (fst (act a b)).
Proof.
  intros H. destruct (scoring a) eqn:E; [|unfold ended; rewrite act_other_state; auto].
  destruct a; try discriminate; cbn [act].
  - unfold drop. destruct (is_cube_take_or_pass b who); cbn [negb]; auto. destruct (bind _ _); cbn; unfold ended, DOUBLED_OUT; cbn; lia.
  - unfold accept_resign. destruct (is_to_accept_resign b who); cbn [negb]; auto. destruct (bind _ _); cbn; unfold ended, RESIGNED; cbn; lia.
Qed.
Lemma acts_ended l b : ended b -> ended (acts l b).
Proof. revert b; induction l as [|a l IH]; cbn; auto using act_ended. Qed.
Lemma acts_score l b : forallb (fun a => negb (scoring a)) l = true -> score (acts l b) = score b.
Proof.
  revert b; induction l as [|a l IH]; cbn [forallb acts]; auto; intros b H.
  apply andb_true_iff in H as [Ha Hl]. rewrite IH by auto.
  destruct bookkeeping as (_ & _ & _ & _ & _ & _ & _ & _ & _ & _ & _ & _ & S & _).
  apply S; intros w ->; discriminate.
Qed.
Lemma ended_frozen : forall b l, ended b ->
  ended (acts l b) /\
  (forall w, is_leagal_to_roll (acts l b) w = false /\ is_leagal_to_move (acts l b) w = false /\
             is_leagal_to_double (acts l b) w <> Ok true) /\
  (forallb (fun a => negb (scoring a)) l = true -> score (acts l b) = score b).
Proof.
  intros b l H. pose proof (acts_ended l b H) as E. split; [exact E|].
  split; [|apply acts_score]. intros w. unfold ended in E.
  unfold is_leagal_to_roll, is_leagal_to_move, is_leagal_to_double, ON_GOING.
  replace (game_state (acts l b) =? 1) with false by lia. repeat split.
  destruct (negb _); cbn; discriminate.
Qed.

(* ---------- C17 ---------- *)
Lemma act_doubled a b : doubled b = true -> doubled (fst (act a b)) = true.
Proof.
  intros H; destruct a as [w| |w|w|w k|w|w| |d|pm]; cbn [act]; auto.
  - unfold double. destruct (is_leagal_to_double b w) as [[|]|]; auto. destruct (get_opp w); auto.
  - unfold take. destruct (is_cube_take_or_pass b w); auto.
  - unfold drop. destruct (is_cube_take_or_pass b w); auto. cbn [negb]. destruct (bind _ _); auto.
  - unfold offer_resign. destruct (is_leagal_to_resign b w); auto. destruct (zmem k RESIGN_TYPES); auto.
    cbn [negb]. destruct (get_opp w); auto.
  - unfold accept_resign. destruct (is_to_accept_resign b w); auto. cbn [negb]. destruct (bind _ _); auto.
  - unfold reject_resign. destruct (is_to_accept_resign b w); auto. cbn [negb]. destruct (get_opp w); auto.
  - unfold pickupdice. cbn [set_rolled on_action]. destruct (get_opp (on_action b)); auto.
    cbn [set_rolled set_on_action on_inner_action]. destruct (get_opp (on_inner_action b)); auto.
  - unfold make_partial_move. destruct (sides b) as [[x y]|]; auto.
    destruct (move_sides pm x y) as [[? ?]|]; auto. destruct (_ =? YOU); auto.
Qed.
Lemma acts_doubled l b : doubled b = true -> doubled (acts l b) = true.
Proof. revert b; induction l as [|a l IH]; cbn; auto using act_doubled. Qed.
Lemma take_keeps_stake : forall b w b1 b2,
  double w b = (b1, Ok tt) -> take (other w) b1 = (b2, Ok tt) ->
  cube_in_logarithm b2 = cube_in_logarithm b /\ cube_owner b2 = cube_owner b /\
  forall l who, is_leagal_to_double (acts l b2) who <> Ok true /\ snd (double who (acts l b2)) <> Ok tt.
Proof.
  intros b w b1 b2 D T. unfold double in D.
  destruct (is_leagal_to_double b w) as [[|]|] eqn:E; try discriminate.
  destruct (get_opp w); [|discriminate]. injection D as <-.
  unfold take in T. destruct (is_cube_take_or_pass _ _); [|discriminate]. injection T as <-.
  split; [reflexivity|]. split; [reflexivity|]. intros l who.
  assert (N : is_leagal_to_double (acts l (set_on_inner_action
     (on_action (set_doubled true (set_on_inner_action a b))) (set_doubled true (set_on_inner_action a b)))) who <> Ok true).
  { unfold is_leagal_to_double. rewrite acts_doubled by reflexivity.
    destruct (negb _); [discriminate|]. destruct (negb _); [discriminate|]. destruct (crawford _); discriminate. }
  split; [exact N|]. unfold double. destruct (is_leagal_to_double _ who) as [[|]|]; cbn; [tauto|discriminate|discriminate].
Qed.

(* ---------- C18 ---------- *)
Lemma offer_reject : forall b w k b1, player w ->
  offer_resign w k b = (b1, Ok tt) ->
  exists b2, reject_resign (other w) b1 = (b2, Ok tt) /\ resign_offer b2 = 0 /\
    changes_only [FResign] b b2 /\ (resign_offer b = 0 -> b2 = b).
Proof.
  intros b w k b1 P. unfold offer_resign.
  destruct (is_leagal_to_resign b w) eqn:R; cbn [negb]; [|discriminate].
  destruct (zmem k RESIGN_TYPES) eqn:K; cbn [negb]; [|discriminate].
  rewrite opp_player by auto. injection 1 as <-.
  unfold reject_resign, is_to_accept_resign. cbn [set_on_inner_action set_resign_offer resign_offer on_inner_action].
  rewrite K, Z.eqb_refl. cbn [andb negb].
  rewrite opp_player by (destruct P as [-> | ->]; unfold other, player; cbn; auto).
  eexists; split; [reflexivity|]. split; [reflexivity|].
  apply resign_spec in R as [R1 R2].
  assert (O : other (other w) = w) by (unfold other; lia). rewrite O.
  split; [intros []; cbn; auto; tauto|].
  intros R0. destruct b; cbn in *. subst. reflexivity.
Qed.

(* ---------- counterexamples ---------- *)
Lemma wf_last_chequer : player (on_action last_chequer) /\ wf_side (mover last_chequer).
Proof. unfold player, wf_side; cbn. repeat split; auto; repeat constructor; lia. Qed.
Lemma bearoff_rule_refuted : exists b n d,
  player (on_action b) /\ wf_side (mover b) /\ 0 <= n <= 24 /\ 1 <= d <= 6 /\
  is_ok_to_bearoff_from b n d = Ok true /\ ~ may_bear_off (mover b) n d.
Proof.
  exists last_chequer, 3, 6. destruct wf_last_chequer as [P W]. repeat split; try lia; try apply P; try apply W.
  intros (_ & H & _); vm_compute in H; discriminate.
Qed.
Lemma last_chequer_empty k : 1 <= k <= 24 -> count (mover last_chequer) k = 0.
Proof.
  intros Hk. assert (In k (zrange 1 25)) as I by (apply In_zrange; lia).
  vm_compute in I. repeat destruct I as [<-|I]; try reflexivity. contradiction.
Qed.
Lemma bearoff_search_refuted : exists b d,
  player (on_action b) /\ wf_side (mover b) /\ 1 <= d <= 6 /\ may_bear_off (mover b) 0 d /\
  find_src_of_bearoff_with b d = Ok None.
Proof.
  exists last_chequer, 3. destruct wf_last_chequer as [P W]. repeat split; try lia; try apply P; try apply W.
  - intros k Hk; apply last_chequer_empty; lia.
  - right; split; [lia|]. intros k Hk; apply last_chequer_empty; lia.
Qed.
Lemma double_seat_refuted : exists b b', flip b = (b', Ok tt) /\ before_roll b /\
  is_leagal_to_double b 0 = Ok true /\ is_leagal_to_double b' 1 = Ok false.
Proof.
  exists (set_match_length 5 (set_score (4, 0) ongoing)). eexists. split; [reflexivity|].
  vm_compute. auto.
Qed.
Lemma double_owner_refuted : exists b, before_roll b /\ cube_owner b = 1 /\ on_action b = 0 /\
  is_leagal_to_double b 0 = Ok true.
Proof. exists (set_cube_owner 1 (set_cube_in_logarithm 1 ongoing)). vm_compute. auto. Qed.
Lemma scored_once_refuted : exists b b1 b2,
  before_roll b /\ score b = (0, 0) /\
  acts [ADouble 0; ADrop 1] b = b1 /\ ended b1 /\ drop 1 b1 = (b2, Ok tt) /\ score b2 <> score b1.
Proof. exists ongoing. eexists _, _. vm_compute. repeat split; try discriminate. Qed.
