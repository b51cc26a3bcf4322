(* Sheets and trees as the library makes them. *)
From Verif Require Import Py PyFacts Dict DictFacts Rx UtilModel BoardModel ImageModel ImageSpec ImageCss ImageTree ImageBoard.
From Coq Require Import Permutation.
Open Scope string_scope.
Open Scope list_scope.
Open Scope Z_scope.

Lemma all_plain_eq h ks : all_plain (Elem h ks) <-> plain h /\ forall c, In (inl c) ks -> all_plain c.
Proof.
  cbn [all_plain]. assert (G : (fix each (ks : list (elem + str)) : Prop := match ks with [] => True | inl c :: ks => all_plain c /\ each ks | inr _ :: ks => each ks end) ks <-> forall c, In (inl c) ks -> all_plain c).
  { induction ks as [|[c|s] ks IH]; [split; [intros _ c []|auto]| |].
    - rewrite IH. split; [intros (A & B) c' [E|I]; [injection E as <-; exact A|apply B, I]|]. intros H. split; [apply H; left; reflexivity|]. intros c' I. apply H. right. exact I.
    - rewrite IH. split; intros H c I; [destruct I as [I|I]; [discriminate I|apply H, I]|apply H; right; exact I]. }
  rewrite G. reflexivity.
Qed.
Lemma plain_none k : plain (mkhead k [] []).
Proof. intros n a H. discriminate H. Qed.
Lemma plain_one k m c v : class_of k m = Some c -> plain (mkhead k [(m, mkattr c None v)] []).
Proof. intros C n a H. cbn in H. destruct (str_eqb n m) eqn:E; [|discriminate]. apply sq in E. subst n. injection H as <-. cbn. auto. Qed.
Lemma plain_chequer p n c : In (inl c) (chequer p n) -> all_plain c.
Proof. unfold chequer. destruct (n =? 0); [intros []|]. intros [E|[]]. injection E as <-. unfold owned. apply all_plain_eq. split; [apply plain_one; reflexivity|]. intros d [E|[]]. discriminate. Qed.
Definition plain_extra (l : list kid) : Prop := forall c, In (inl c) l -> all_plain c.
Lemma plain_leaf h s : plain h -> all_plain (Elem h [inr s]).
Proof. intros P. apply all_plain_eq. split; [exact P|]. intros c [E|[]]. discriminate. Qed.
Lemma plain_on_point b i : plain_extra (on_point b i).
Proof. intros c I. unfold on_point in I. destruct (i <=? 12); apply in_app_or in I as [I|I]; eapply plain_chequer, I. Qed.
Lemma inl_inj {X Y} (a b : X) : @inl X Y a = inl b -> b = a.
Proof. congruence. Qed.
Lemma plain_trunk b x : plain_extra (f_you x) -> plain_extra (f_him x) -> plain_extra (c_mid x) -> plain_extra (c_you x) -> plain_extra (c_him x) -> all_plain (trunk b x).
Proof.
  intros X1 X2 X3 X4 X5. unfold trunk. apply all_plain_eq. split; [apply plain_none|]. intros c [E|[E|[]]]; apply inl_inj in E; subst c; apply all_plain_eq; (split; [apply plain_none|]); intros c I.
  - repeat destruct I as [I|I]; try (apply inl_inj in I; subst c); try (apply plain_leaf; (apply plain_none || (apply plain_one; reflexivity))); [|destruct I].
    unfold action_elem. destruct (x_player x); apply all_plain_eq; (split; [(apply plain_none || (apply plain_one; reflexivity))|]); intros c J; apply in_map_iff in J as (sx & J & _); discriminate J.
  - assert (CH : forall h p n l, plain h -> plain_extra l -> all_plain (Elem h (chequer p n ++ l))).
    { intros h p n l P X. apply all_plain_eq. split; [exact P|]. intros d J. apply in_app_or in J as [J|J]; [eapply plain_chequer, J|apply X, J]. }
    assert (CH0 : forall h p n, plain h -> all_plain (Elem h (chequer p n))) by (intros h p n P; apply all_plain_eq; split; [exact P|intros d J; eapply plain_chequer, J]).
    assert (PX : forall h l, plain h -> plain_extra l -> all_plain (Elem h l)) by (intros h l P X; apply all_plain_eq; split; [exact P|exact X]).
    assert (NX : plain_extra []) by (intros d []).
    apply in_app_or in I as [I|I]; [|apply in_app_or in I as [I|I]].
    + repeat destruct I as [I|I]; try (apply inl_inj in I; subst c); [apply PX; [apply plain_none|exact NX]|apply PX; [apply plain_none|exact NX]|apply PX; [apply plain_none|exact X3]|
        apply PX; [apply plain_one; reflexivity|exact X1]|apply CH; [apply plain_one; reflexivity|exact X4]|apply CH0; apply plain_one; reflexivity|destruct I].
    + apply in_map_iff in I as (i & I & _). apply inl_inj in I; subst c. unfold point. apply all_plain_eq. split; [apply plain_one; reflexivity|].
      intros d [J|J]; [discriminate|]. apply plain_on_point in J. exact J.
    + repeat destruct I as [I|I]; try (apply inl_inj in I; subst c); [apply CH0; apply plain_one; reflexivity|apply CH; [apply plain_one; reflexivity|exact X5]|apply PX; [apply plain_one; reflexivity|exact X2]|destruct I].
Qed.
Lemma board_plain b t : sides_ok b -> board_tree b = Ok t -> all_plain t.
Proof.
  intros SO H. rewrite board_tree_ok in H by exact SO. destruct (the_cubes b) as [[[m y] h]|e] eqn:EC; [|discriminate]. destruct (the_action b) as [[[[p s] f] g]|e] eqn:EA; [|discriminate].
  cbn in H. injection H as <-. apply cubes_of in EC. apply action_stage in EA.
  assert (N : plain_extra []) by (intros c []).
  assert (C : forall n, plain_extra [cube_elem n]) by (intros n c [E|[]]; injection E as <-; apply plain_leaf, plain_none).
  assert (R : forall n, plain_extra [resign_elem n]) by (intros n c [E|[]]; injection E as <-; apply plain_leaf, plain_none).
  assert (D : plain_extra (dice_elems b)) by (intros c [E|[E|[]]]; injection E as <-; apply plain_leaf; apply plain_one; reflexivity).
  assert (XC : plain_extra m /\ plain_extra y /\ plain_extra h) by (inversion EC; subst; auto).
  assert (XS : plain_extra f /\ plain_extra g) by (inversion EA; subst; auto; match goal with |- context[if ?c then _ else _] => destruct c; auto end).
  apply plain_trunk; cbn [f_you f_him c_mid c_you c_him]; tauto.
Qed.
Lemma load_sheet : forall path lines rs, load path lines = Ok rs -> sheet_ok rs.
Proof.
  assert (DS : forall (d : list (str * str)) n v, NoDup (keys d) -> NoDup (keys (dset str_eqb d n v))).
  { intros d n v H. destruct (in_dec (list_eq_dec ascii_dec) n (keys d)) as [I|I].
    - rewrite keys_dset_in; [exact H|apply sq|exact I].
    - rewrite dset_new; [|apply sq|exact I]. unfold keys in *. rewrite map_app. cbn. apply (Permutation_NoDup (Permutation_cons_append _ _)). constructor; assumption. }
  assert (B : forall l d, NoDup (keys d) -> NoDup (keys (fold_left parse_attribute l d))).
  { induction l as [|s l IH]; intros d H; [exact H|]. cbn [fold_left]. apply IH. unfold parse_attribute. destruct (search attribute_rx s) as [g|]; [|exact H].
    destruct (group g "name"); [|exact H]. destruct (group g "value"); [|exact H]. apply DS, H. }
  unfold load. intros path lines. generalize 0. induction lines as [|l lines IH]; intros no rs H; [injection H as <-; intros r []|].
  cbn [parse_lines] in H. destruct (parse_rule path (no + 1) l) as [[r|]|] eqn:E; [| |discriminate]; cbn [bind] in H; destruct (parse_lines path (no + 1) lines) as [rs'|] eqn:E'; try discriminate; cbn [bind] in H; injection H as <-.
  - intros r' [<-|I]; [|eapply IH; eassumption]. unfold parse_rule in E. destruct l as [|ch l]; [discriminate|]. destruct (search rule_rx (ch :: l)) as [g|]; [|discriminate].
    destruct (group g "pattern"); [|discriminate]. destruct (group g "block") as [bl|]; [|discriminate]. destruct (parse_pattern s) as [p|]; [|discriminate]. cbn [bind] in E.
    unfold parse_block in E. destruct (passert (nonempty bl)); [|discriminate]. cbn [bind] in E. injection E as <-. cbn [block]. apply B. constructor.
  - eapply IH; eassumption.
Qed.
Lemma board_cascade : forall path lines rs b t t', load path lines = Ok rs -> sides_ok b -> board_tree b = Ok t -> style rs t = Ok t' -> styled rs [] t t'.
Proof. intros path lines rs b t t' Lo SO H. apply cascade_partial; [eapply board_plain; eassumption|eapply load_sheet, Lo]. Qed.
Definition two_images : list str := [L "board { image: url(""a.png"") }"; L "board { image: url(""b.png"") }"].
Lemma cascade_refuted : exists lines r1 r2, load (L "t.css") lines = Ok [r1; r2] /\
  (exists t, board_tree default_board = Ok t /\ (exists u, style [r1] t = Ok u) /\ (exists u, style [r2] t = Ok u) /\ style [r1; r2] t = Exc AttributeError).
Proof.
  exists two_images. destruct (load (L "t.css") two_images) as [[|r1 [|r2 [|]]]|] eqn:E; vm_compute in E; try discriminate E.
  exists r1, r2. split; [reflexivity|]. injection E as <- <-. destruct (board_tree default_board) as [t|] eqn:T; vm_compute in T; [|discriminate T].
  exists t. split; [reflexivity|]. injection T as <-. split; [|split].
  - eexists. vm_compute. reflexivity.
  - eexists. vm_compute. reflexivity.
  - vm_compute. reflexivity.
Qed.
