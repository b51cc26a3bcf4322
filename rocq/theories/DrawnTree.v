(* Styling and scaling keep what the elements are and what is written on them. *)
From Verif Require Import Py PyFacts Dict DictFacts UtilModel BoardModel ImageModel ImageSpec ImageCss ImageTree ImageBoard ImageMag ThemePath ThemeTree ThemeSound DrawnSpec.
Open Scope string_scope.
Open Scope list_scope.
Open Scope Z_scope.

Definition tag (e : elem) : ekind * list str := (kind (ehead e), texts e).
Definition tags (t : elem) : list (ekind * list str) := map tag (elements t).
Lemma tags_eq h ks : tags (Elem h ks) = tag (Elem h ks) :: flat_map (fun c => match c with inl c => tags c | inr _ => [] end) ks.
Proof.
  unfold tags. rewrite elements_eq. cbn [map]. f_equal. unfold below. induction ks as [|[c|s] ks IH]; cbn [flat_map map]; [reflexivity| |exact IH].
  rewrite map_app, IH. reflexivity.
Qed.
Lemma visits_tags {St} (cb : list elem -> St -> res (head * St)) e :
  (forall anc e s h s1, cb (anc ++ [e]) s = Ok (h, s1) -> kind h = kind (ehead e)) ->
  forall anc s e' s', visits cb anc e s e' s' -> tags e' = tags e.
Proof.
  intros CB. induction e as [h ks IH] using elem_induction. intros anc s e' s' (h' & s1 & Ec & ks' & -> & W).
  assert (G : forall l, (forall c, In (inl c) l -> In (inl c) ks) -> forall l' s t,
    (fix each (l l' : list (elem + str)) (s s' : St) : Prop :=
     match l, l' with
     | [], [] => s' = s
     | inl c :: l, inl c' :: l' => exists t, visits cb (anc ++ [Elem h' ks]) c s c' t /\ each l l' t s'
     | inr a :: l, inr a' :: l' => a = a' /\ each l l' s s'
     | _, _ => False
     end) l l' s t ->
     flat_map (fun c => match c with inl _ => [] | inr s => [s] end) l' = flat_map (fun c => match c with inl _ => [] | inr s => [s] end) l /\
     flat_map (fun c => match c with inl c => tags c | inr _ => [] end) l' = flat_map (fun c => match c with inl c => tags c | inr _ => [] end) l).
  { induction l as [|[c|a] l IHl]; intros I [|[c'|a'] l'] s0 t E; try contradiction; [split; reflexivity| |].
    - destruct E as (t1 & V & E). cbn [flat_map app]. destruct (IHl (fun c0 J => I c0 (or_intror J)) _ _ _ E) as (X & Y). split; [exact X|].
      rewrite Y. f_equal. eapply IH; [apply I; left; reflexivity|exact V].
    - destruct E as (-> & E). cbn [flat_map app]. destruct (IHl (fun c0 J => I c0 (or_intror J)) _ _ _ E) as (X & Y). split; [f_equal; exact X|exact Y]. }
  destruct (G ks (fun c I => I) _ _ _ W) as (X & Y). rewrite !tags_eq, Y. f_equal. unfold tag, texts. cbn [ehead children]. rewrite X.
  f_equal. apply (CB anc (Elem h ks) s h' s1 Ec).
Qed.
Lemma set_attr_kind h n v h' : set_attr h n v = Ok h' -> kind h' = kind h.
Proof.
  intros H. unfold set_attr in H. destruct (class_of (kind h) n) as [c|]; [|discriminate].
  match type of H with (if ?c then _ else _) = _ => destruct c end; [|discriminate]. injection H as <-. reflexivity.
Qed.
Lemma apply_one_kind p h n t h' : apply_one p h n t = Ok h' -> kind h' = kind h.
Proof.
  intros H. unfold apply_one in H. destruct (class_of (kind h) n) as [c|]; [|discriminate].
  match type of H with context[parse ?a ?b ?c] => destruct (parse a b c) as [v|] end; cbn [bind] in H; [|discriminate]. apply set_attr_kind in H. exact H.
Qed.
Lemma apply_block_kind p : forall items h h', apply_block p h items = Ok h' -> kind h' = kind h.
Proof.
  induction items as [|[n t] items IH]; intros h h' H; cbn [apply_block] in H; [injection H as <-; reflexivity|].
  destruct (apply_one p h n t) as [h1|] eqn:E; cbn [bind] in H; [|discriminate]. apply IH in H. apply apply_one_kind in E. congruence.
Qed.
Lemma rule_kind r anc e h' : rule_apply r (anc ++ [e]) = Ok h' -> kind h' = kind (ehead e).
Proof.
  intros H. unfold rule_apply in H. rewrite last_head_snoc in H. destruct (rule_match r (anc ++ [e])) as [m|]; cbn [bind] in H; [|discriminate].
  destruct m; [|injection H as <-; reflexivity]. match type of H with context[apply_block ?p ?h ?i] => destruct (apply_block p h i) as [h1|] eqn:E end; cbn [bind] in H; [|discriminate].
  apply apply_block_kind in E. injection H as <-. exact E.
Qed.
Lemma rules_kind : forall rs anc e h', apply_rules rs (anc ++ [e]) = Ok h' -> kind h' = kind (ehead e).
Proof.
  induction rs as [|r rs IH]; intros anc e h' H; cbn [apply_rules] in H; [rewrite last_head_snoc in H; injection H as <-; reflexivity|].
  destruct (rule_apply r (anc ++ [e])) as [h1|] eqn:E; cbn [bind] in H; [|discriminate]. rewrite set_last_snoc in H. apply IH in H. apply rule_kind in E.
  destruct e as [h ks]. cbn in *. congruence.
Qed.
Lemma style_tags rs t t' : style rs t = Ok t' -> tags t' = tags t.
Proof.
  intros H. unfold style in H. set (cb := fun path (_ : unit) => let! h := apply_rules rs path in Ok (h, tt)) in H.
  unfold visit_tree in H. destruct (visit cb [t] t tt) as [[p u]|] eqn:Ev; cbn [bind] in H; [|discriminate].
  apply (visit_visits cb t []) in Ev as (e' & -> & V). cbn [app] in H. change (pyget [e'] (-1)) with (@Ok elem e') in H. cbn [bind fst] in H. injection H as <-.
  eapply (visits_tags cb t); [|exact V]. intros anc e s h s1 E. unfold cb in E. destruct (apply_rules rs (anc ++ [e])) as [h0|] eqn:E0; cbn [bind] in E; [|discriminate].
  injection E as <- _. eapply rules_kind; eassumption.
Qed.
Lemma mag_tags t size t' : set_mag t size = Ok t' -> tags t' = tags t.
Proof.
  intros H. unfold set_mag in H. destruct (get_int [ehead t] "width") as [w|]; cbn [bind] in H; [|discriminate]. destruct (get_int [ehead t] "height") as [h|]; cbn [bind] in H; [|discriminate].
  destruct (mag_of _ _ w h) as [m|]; cbn [bind] in H; [|discriminate]. destruct (set_attr (ehead t) (L "mag") (VFlt m)) as [hd|] eqn:E; cbn [bind] in H; [|discriminate].
  injection H as <-. destruct t as [h0 ks]. change (set_head (Elem h0 ks) hd) with (Elem hd ks). rewrite !tags_eq. f_equal. unfold tag, texts. cbn [ehead children]. f_equal. apply set_attr_kind in E. exact E.
Qed.
Lemma dressed_tags css b size t : dressed css b size t -> exists t0, board_tree b = Ok t0 /\ tags t = tags t0.
Proof. intros (t1 & t2 & B & St & M). exists t1. split; [exact B|]. apply mag_tags in M. apply style_tags in St. congruence. Qed.

(* ---- paths and elements ---- *)
Lemma paths_ends t : Forall2 (fun p e => exists a, p = a ++ [e]) (paths [] t) (elements t).
Proof.
  induction t as [h ks IH] using elem_induction. rewrite paths_eq, elements_eq. constructor; [exists []; reflexivity|].
  unfold kid_paths, below. induction ks as [|[c|s] ks' IHk] in IH |- * at 2 3; [constructor| |].
  - cbn [flat_map]. rewrite map_app. apply Forall2_app; [|apply IHk; intros c0 J; apply IH; right; exact J].
    assert (F := IH c (or_introl eq_refl)). clear IH IHk. induction F as [|p e l l' (a & ->) F IHF]; cbn [map]; constructor; [|exact IHF].
    exists (Elem h ks :: a). reflexivity.
  - cbn [flat_map]. apply IHk. intros c0 J. apply IH. right. exact J.
Qed.
Lemma ends_snoc k a e : ends k (a ++ [e]) = of_kind k e.
Proof. unfold ends. rewrite rev_unit. reflexivity. Qed.
Lemma writing_snoc a e : writing (a ++ [e]) = texts e.
Proof. unfold writing. rewrite rev_unit. reflexivity. Qed.

(* ---- what is written on the elements of the tree of a board ---- *)
Definition speaks (k : ekind) : bool :=
  match k with EAction | ELength | ECrawford | EScore | EChequer | EDie | ECube | EResign => true | _ => false end.
Definition told (e : elem) : Prop := speaks (kind (ehead e)) = true -> exists s, texts e = [s].
Definition sided (e : elem) : Prop :=
  of_kind EChequer e = true -> of_player you e = negb (of_player him e) /\ exists n, texts e = [py_str_int n].
Definition all_of (P : elem -> Prop) (ks : list kid) : Prop := forall c, In (inl c) ks -> forall e, In e (elements c) -> P e.
Section AllOf.
Variable P : elem -> Prop.
Lemma all_app l l' : all_of P l -> all_of P l' -> all_of P (l ++ l').
Proof. intros K K' c I. apply in_app_or in I as [I|I]; [apply K|apply K']; exact I. Qed.
Lemma all_nil : all_of P [].
Proof. intros c []. Qed.
Lemma all_text s l : all_of P l -> all_of P (inr s :: l).
Proof. intros K c [X|I]; [discriminate|apply K, I]. Qed.
Lemma all_cons h ks l : P (Elem h ks) -> all_of P ks -> all_of P l -> all_of P (inl (Elem h ks) :: l).
Proof.
  intros H K M c [X|I]; [|apply M, I]. injection X as <-. intros e J. rewrite elements_eq in J. destruct J as [<-|J]; [exact H|].
  unfold below in J. apply in_flat_map in J as ([c|s] & I & J); [|destruct J]. exact (K c I e J).
Qed.
End AllOf.

(* an element of the tree with a chequer count that is not negative *)
Definition sound (e : elem) : Prop := told e /\ (of_kind EChequer e = true -> of_player you e = negb (of_player him e)).
Lemma sound_leaf h s : (of_kind EChequer (Elem h [inr s]) = true -> of_player you (Elem h [inr s]) = negb (of_player him (Elem h [inr s]))) -> sound (Elem h [inr s]).
Proof. intros H. split; [intros _; exists s; reflexivity|exact H]. Qed.
Lemma sound_node h ks : speaks (kind h) = false -> of_kind EChequer (Elem h ks) = false -> sound (Elem h ks).
Proof. intros H K. split; [intros X; cbn in X; congruence|intros X; congruence]. Qed.
Lemma chequer_sound p n : p = you \/ p = him -> all_of sound (chequer p n).
Proof.
  intros E. unfold chequer. destruct (n =? 0); [apply all_nil|]. apply all_cons; [|apply all_text, all_nil|apply all_nil].
  apply sound_leaf. intros _. destruct E as [->| ->]; reflexivity.
Qed.
Ltac leafs := repeat (apply all_cons; [apply sound_leaf; cbn; discriminate|apply all_text, all_nil|]); apply all_nil.
Lemma tree_sound b t : sides_ok b -> board_tree b = Ok t -> forall e, In e (elements t) -> sound e.
Proof.
  intros S. rewrite board_tree_ok by exact S. destruct (the_cubes b) as [[[m y] h]|] eqn:Ec; cbn [bind]; [|discriminate]. destruct (the_action b) as [[[[p s] f] g]|] eqn:Ea; cbn [bind]; [|discriminate].
  intros H. assert (E : t = trunk b (mkextras (Some p) [L s] f g m y h)) by congruence. subst t. clear H.
  assert (KC : forall z, all_of sound [cube_elem z]) by (intros z; leafs).
  assert (KR : forall z, all_of sound [resign_elem z]) by (intros z; leafs).
  assert (KD : all_of sound (dice_elems b)) by leafs.
  assert (M : all_of sound m /\ all_of sound y /\ all_of sound h).
  { unfold the_cubes in Ec. repeat match type of Ec with (if ?c then _ else _) = _ => destruct c end; try discriminate; injection Ec as <- <- <-; auto using all_nil. }
  assert (F : all_of sound f /\ all_of sound g).
  { unfold the_action in Ea. cbv zeta in Ea. repeat match type of Ea with (if ?c then _ else _) = _ => destruct c end; try discriminate; injection Ea as <- <- <- <-; auto 6 using all_nil. }
  destruct M as (Mm & My & Mh). destruct F as (Ff & Fg).
  assert (A : all_of sound [inl (trunk b (mkextras (Some p) [L s] f g m y h))]).
  { unfold trunk, bare, owned, action_elem. cbn [c_mid c_you c_him f_you f_him x_player x_says map].
    apply all_cons; [apply sound_node; reflexivity| |apply all_nil]. apply all_cons; [apply sound_node; reflexivity| |apply all_cons; [apply sound_node; reflexivity| |apply all_nil]].
    - unfold owned. leafs.
    - apply all_app; [|apply all_app].
      + repeat (apply all_cons; [apply sound_node; reflexivity| |]); try apply all_nil; try assumption; try (apply all_app; [|assumption]); apply chequer_sound; auto.
      + intros c I. apply in_map_iff in I as (i & E & _). injection E as <-. unfold point. intros e J.
        assert (K : all_of sound [inl (Elem (point_head i) (inr (py_str_int i) :: on_point b i))]).
        { apply all_cons; [apply sound_node; reflexivity| |apply all_nil]. apply all_text. unfold on_point. destruct (i <=? 12); apply all_app; apply chequer_sound; auto. }
        exact (K _ (or_introl eq_refl) e J).
      + repeat (apply all_cons; [apply sound_node; reflexivity| |]); try apply all_nil; try assumption; try (apply all_app; [|assumption]); apply chequer_sound; auto. }
  intros e I. exact (A _ (or_introl eq_refl) e I).
Qed.
(* the counts written on chequers *)
Definition counts (e : elem) : Prop := of_kind EChequer e = true -> exists n, 0 <= n /\ texts e = [py_str_int n].
Lemma counts_not h ks : of_kind EChequer (Elem h ks) = false -> counts (Elem h ks).
Proof. intros H X. congruence. Qed.
Lemma chequer_counts p n : 0 <= n -> all_of counts (chequer p n).
Proof.
  intros E. unfold chequer. destruct (n =? 0); [apply all_nil|]. apply all_cons; [|apply all_text, all_nil|apply all_nil].
  intros _. exists n. split; [exact E|reflexivity].
Qed.
Ltac others := repeat (apply all_cons; [apply counts_not; reflexivity|apply all_text, all_nil|]); apply all_nil.
Lemma fair_sides b : fair b -> sides_ok b.
Proof. intros F. split; apply F; auto. Qed.
Lemma tree_counts b t : fair b -> board_tree b = Ok t -> forall e, In e (elements t) -> counts e.
Proof.
  intros FB. pose proof (fair_sides b FB) as S. rewrite board_tree_ok by exact S. destruct (the_cubes b) as [[[m y] h]|] eqn:Ec; cbn [bind]; [|discriminate]. destruct (the_action b) as [[[[p s] f] g]|] eqn:Ea; cbn [bind]; [|discriminate].
  intros H. assert (E : t = trunk b (mkextras (Some p) [L s] f g m y h)) by congruence. subst t. clear H.
  assert (KC : forall z, all_of counts [cube_elem z]) by (intros z; others).
  assert (KR : forall z, all_of counts [resign_elem z]) by (intros z; others).
  assert (KD : all_of counts (dice_elems b)) by others.
  assert (M : all_of counts m /\ all_of counts y /\ all_of counts h).
  { unfold the_cubes in Ec. repeat match type of Ec with (if ?c then _ else _) = _ => destruct c end; try discriminate; injection Ec as <- <- <-; auto using all_nil. }
  assert (F : all_of counts f /\ all_of counts g).
  { unfold the_action in Ea. cbv zeta in Ea. repeat match type of Ea with (if ?c then _ else _) = _ => destruct c end; try discriminate; injection Ea as <- <- <- <-; auto 6 using all_nil. }
  destruct M as (Mm & My & Mh). destruct F as (Ff & Fg).
  assert (N : forall i l, l = fst (position b) \/ l = snd (position b) -> 0 <= nth i l 0) by (intros i l E; apply (count_ok b FB l i E)).
  assert (R : forall l, l = fst (position b) \/ l = snd (position b) -> 0 <= 15 - total_of l) by (intros l E; apply (rest_ok b FB l E)).
  assert (A : all_of counts [inl (trunk b (mkextras (Some p) [L s] f g m y h))]).
  { unfold trunk, bare, owned, action_elem. cbn [c_mid c_you c_him f_you f_him x_player x_says map].
    apply all_cons; [apply counts_not; reflexivity| |apply all_nil]. apply all_cons; [apply counts_not; reflexivity| |apply all_cons; [apply counts_not; reflexivity| |apply all_nil]].
    - unfold owned. others.
    - apply all_app; [|apply all_app].
      + repeat (apply all_cons; [apply counts_not; reflexivity| |]); try apply all_nil; try assumption; try (apply all_app; [|assumption]); apply chequer_counts; auto.
      + intros c I. apply in_map_iff in I as (i & E & _). injection E as <-. unfold point. intros e J.
        assert (K : all_of counts [inl (Elem (point_head i) (inr (py_str_int i) :: on_point b i))]).
        { apply all_cons; [apply counts_not; reflexivity| |apply all_nil]. apply all_text. unfold on_point. destruct (i <=? 12); apply all_app; apply chequer_counts; auto. }
        exact (K _ (or_introl eq_refl) e J).
      + repeat (apply all_cons; [apply counts_not; reflexivity| |]); try apply all_nil; try assumption; try (apply all_app; [|assumption]); apply chequer_counts; auto. }
  intros e I. exact (A _ (or_introl eq_refl) e I).
Qed.
(* the chequers of both players *)
Definition amount (l : list str) : Z := zsum (map read l).
Lemma amount_split (l : list elem) : (forall e, In e l -> of_kind EChequer e = true -> of_player you e = negb (of_player him e)) ->
  amount (flat_map texts (filter (of_kind EChequer) l)) =
  amount (flat_map texts (filter (fun e => of_kind EChequer e && of_player you e) l)) + amount (flat_map texts (filter (fun e => of_kind EChequer e && of_player him e) l)).
Proof.
  unfold amount. induction l as [|e l IH]; intros H; [reflexivity|]. cbn [filter]. specialize (IH (fun x I => H x (or_intror I))).
  destruct (of_kind EChequer e) eqn:K; cbn [andb]; [|exact IH]. pose proof (H e (or_introl eq_refl) K) as N. rewrite N.
  destruct (of_player him e); cbn [negb flat_map]; rewrite !map_app, !zsum_app, IH; lia.
Qed.
Lemma all_thirty b t : sides_ok b -> board_tree b = Ok t -> amount (written_on EChequer t) = 30.
Proof.
  intros S B. unfold written_on. rewrite amount_split; [|intros e I K; apply (tree_sound b t S B e I), K].
  destruct (board_shown b t S B) as ((_ & C) & _). destruct (C YOU (or_introl eq_refl)) as (_ & _ & Y). destruct (C HIM (or_intror eq_refl)) as (_ & _ & H).
  unfold all_chequers in Y, H. change (name_of YOU) with you in Y. change (name_of HIM) with him in H. unfold amount. rewrite Y, H. reflexivity.
Qed.
(* the same for a tree with the same tags *)
Definition tag_of (k : ekind) (x : ekind * list str) : bool := str_eqb (ename (fst x)) (ename k).
Lemma written_tags k t : written_on k t = flat_map snd (filter (tag_of k) (tags t)).
Proof.
  unfold written_on, tags. induction (elements t) as [|e l IH]; [reflexivity|]. cbn [filter map]. unfold tag_of at 1. cbn [fst tag].
  change (str_eqb (ename (kind (ehead e))) (ename k)) with (of_kind k e). destruct (of_kind k e); cbn [flat_map]; [|exact IH]. cbn [snd tag]. rewrite IH. reflexivity.
Qed.
Lemma dressed_written css b size t k : dressed css b size t -> exists t0, board_tree b = Ok t0 /\ written_on k t = written_on k t0.
Proof. intros D. destruct (dressed_tags _ _ _ _ D) as (t0 & B & T). exists t0. split; [exact B|]. rewrite !written_tags, T. reflexivity. Qed.
Lemma dressed_all css b size t (P : ekind * list str -> Prop) : dressed css b size t ->
  (forall t0, board_tree b = Ok t0 -> forall e, In e (elements t0) -> P (tag e)) -> forall e, In e (elements t) -> P (tag e).
Proof.
  intros D H e I. destruct (dressed_tags _ _ _ _ D) as (t0 & B & T). assert (J : In (tag e) (tags t)) by (apply in_map; exact I). rewrite T in J.
  apply in_map_iff in J as (e0 & E & J). rewrite <- E. eapply H; eassumption.
Qed.
