(* Attributes have values of the right kind, whatever the style sheet. *)
From Verif Require Import Py PyFacts Dict DictFacts UtilModel BoardModel BoardSpec ImageModel ImageSpec ImageCss ImageTree ImageMag ThemePath ThemeTree AttrSpec.
Open Scope string_scope.
Open Scope list_scope.
Open Scope Z_scope.

Definition class_ok (c : aclass) (v : value) : Prop :=
  match c with
  | InheritInt | IntAttr | IntZero => exists z, v = VInt z
  | InheritFloat => exists f, v = VFlt f
  | StringAttr | IdAttr | ColorAttr | URIAttr | FontAttr | InitialCube => exists s, v = VStr s
  | Flip | Fill | HideCount => exists b, v = VBool b
  | DieStyle => v = VStr (L "dot") \/ v = VStr (L "numeric")
  | Parity => v = VStr (L "even") \/ v = VStr (L "odd")
  | Player => v = VStr (L "you") \/ v = VStr (L "him")
  end.
Definition typed (h : head) : Prop :=
  forall n a, dget str_eqb (attrs h) n = Some a -> class_of (kind h) n = Some (a_class a) /\ class_ok (a_class a) (a_value a).
Lemma right_name n v l : In (n, l) choices -> (exists s, In s l /\ v = VStr s) -> right_type n v.
Proof. intros I (s & J & E). do 3 right. left. exists l, s. auto. Qed.
Lemma class_right k n c v : class_of k n = Some c -> class_ok c v -> right_type n v.
Proof.
  intros H K. apply (dget_in str_eqb sq) in H.
  assert (A : In n int_names /\ (c = InheritInt \/ c = IntAttr \/ c = IntZero) \/
              In n text_names /\ (c = StringAttr \/ c = IdAttr \/ c = ColorAttr \/ c = URIAttr \/ c = FontAttr \/ c = InitialCube) \/
              In n flag_names /\ (c = Flip \/ c = Fill \/ c = HideCount) \/ n = L "mag" /\ c = InheritFloat \/
              n = L "player" /\ c = Player \/ n = L "parity" /\ c = Parity \/ n = L "diestyle" /\ c = DieStyle).
  { assert (G : forallb (fun '(n, c) =>
        existsb (str_eqb n) int_names && (match c with InheritInt | IntAttr | IntZero => true | _ => false end) ||
        existsb (str_eqb n) text_names && (match c with StringAttr | IdAttr | ColorAttr | URIAttr | FontAttr | InitialCube => true | _ => false end) ||
        existsb (str_eqb n) flag_names && (match c with Flip | Fill | HideCount => true | _ => false end) ||
        str_eqb n (L "mag") && (match c with InheritFloat => true | _ => false end) ||
        str_eqb n (L "player") && (match c with Player => true | _ => false end) ||
        str_eqb n (L "parity") && (match c with Parity => true | _ => false end) ||
        str_eqb n (L "diestyle") && (match c with DieStyle => true | _ => false end)) (attlist k) = true) by (destruct k; vm_compute; reflexivity).
    rewrite forallb_forall in G. specialize (G _ H). cbn beta iota in G. rewrite !orb_true_iff, !andb_true_iff in G.
    assert (M : forall l, existsb (str_eqb n) l = true -> In n l) by (intros l E; apply existsb_exists in E as (m & I & E); apply sq in E as ->; exact I).
    destruct G as [[[[[[(E & F)|(E & F)]|(E & F)]|(E & F)]|(E & F)]|(E & F)]|(E & F)]; try apply M in E; try (apply sq in E as ->); destruct c; try discriminate F; tauto. }
  destruct A as [(I & C)|[(I & C)|[(I & C)|[(-> & ->)|[(-> & ->)|[(-> & ->)|(-> & ->)]]]]]].
  - left. split; [exact I|]. destruct C as [->|[->| ->]]; exact K.
  - right. left. split; [exact I|]. destruct C as [->|[->|[->|[->|[->| ->]]]]]; exact K.
  - right. right. left. split; [exact I|]. destruct C as [->|[->| ->]]; exact K.
  - do 4 right. split; [reflexivity|exact K].
  - eapply right_name; [left; reflexivity|]. destruct K as [->| ->]; eexists; (split; [|reflexivity]); cbn; auto.
  - eapply right_name; [right; left; reflexivity|]. destruct K as [->| ->]; eexists; (split; [|reflexivity]); cbn; auto.
  - eapply right_name; [right; right; left; reflexivity|]. destruct K as [->| ->]; eexists; (split; [|reflexivity]); cbn; auto.
Qed.
Lemma default_ok c v : default c = Some v -> class_ok c v.
Proof. destruct c; try discriminate; intros [= <-]; cbn; eauto. Qed.
Lemma get_right : forall up n v, (forall h, In h up -> typed h) -> get_attr up n = Ok v -> right_type n v.
Proof.
  induction up as [|h up IH]; intros n v T G; [discriminate|]. cbn [get_attr] in G. destruct (class_of (kind h) n) as [c|] eqn:Ec; [|discriminate].
  destruct (dget str_eqb (attrs h) n) as [a|] eqn:Ea.
  - injection G as <-. destruct (T h (or_introl eq_refl) n a Ea) as (C & K). eapply class_right; eassumption.
  - destruct (is_inherit c && _).
    + apply IH; [|exact G]. intros g I. apply T. right. exact I.
    + destruct (default c) as [d|] eqn:D; [|discriminate]. injection G as <-. eapply class_right; [exact Ec|]. apply default_ok, D.
Qed.
Lemma mem_choice s l : str_mem s l = true -> In s l.
Proof. unfold str_mem. intros H. apply existsb_exists in H as (x & I & E). apply sq in E as ->. exact I. Qed.
Lemma parse_class c p t v : parse c p t = Ok v -> is_acceptable c v = true -> class_ok c v.
Proof.
  destruct c; cbn [parse class_ok]; try discriminate; intros H A;
  try (destruct (py_int t); cbn [bind] in H; [|discriminate]; injection H as <-; eauto);
  try (destruct p; [|discriminate]; destruct (pyget (split_on quote t) 1); cbn [bind] in H; [|discriminate]; injection H as <-; eauto);
  try (injection H as <-; eauto).
  all: cbn [is_acceptable] in A; apply mem_choice in A; cbn in A; destruct A as [<-|[<-|[]]]; auto.
Qed.
Lemma set_typed h n v h' : typed h -> (forall c, class_of (kind h) n = Some c -> is_acceptable c v = true -> class_ok c v) -> set_attr h n v = Ok h' -> typed h'.
Proof.
  intros T K H. unfold set_attr in H. destruct (class_of (kind h) n) as [c|] eqn:Ec; [|discriminate].
  set (a := match dget str_eqb (attrs h) n with Some a => a | None => mkattr c None v end) in *.
  assert (A : a_class a = c). { unfold a. destruct (dget str_eqb (attrs h) n) as [x|] eqn:Ex; [|reflexivity]. destruct (T n x Ex) as (Q & _). congruence. }
  rewrite A in H. destruct (is_acceptable c v) eqn:Ea; [|discriminate]. injection H as <-.
  intros m x. cbn [kind attrs]. rewrite (dget_dset str_eqb sq). destruct (str_eqb m n) eqn:Em.
  - apply sq in Em as ->. intros [= <-]. cbn [a_class a_value]. split; [exact Ec|]. apply K; auto.
  - apply T.
Qed.
Lemma one_typed p h n t h' : typed h -> apply_one p h n t = Ok h' -> typed h'.
Proof.
  intros T H. unfold apply_one in H. destruct (class_of (kind h) n) as [c|] eqn:Ec; [|discriminate].
  set (a := match dget str_eqb (attrs h) n with Some a => a | None => mkattr c (Some p) (VStr []) end) in *.
  assert (A : a_class a = c). { unfold a. destruct (dget str_eqb (attrs h) n) as [x|] eqn:Ex; [|reflexivity]. destruct (T n x Ex) as (Q & _). congruence. }
  rewrite A in H. destruct (parse c (a_path a) t) as [v|] eqn:Ev; cbn [bind] in H; [|discriminate].
  eapply set_typed; [exact T| |exact H]. intros c' E Ac. assert (c' = c) by congruence. subst c'. eapply parse_class; eassumption.
Qed.
Lemma block_typed p : forall items h h', typed h -> apply_block p h items = Ok h' -> typed h'.
Proof.
  induction items as [|[n t] items IH]; intros h h' T H; cbn [apply_block] in H; [injection H as <-; exact T|].
  destruct (apply_one p h n t) as [h1|] eqn:E; cbn [bind] in H; [|discriminate]. eapply IH; [|exact H]. eapply one_typed; eassumption.
Qed.
Lemma typed_lineno h l : typed h -> typed (mkhead (kind h) (attrs h) l).
Proof. intros T. exact T. Qed.
Lemma rule_typed r anc e h' : typed (ehead e) -> rule_apply r (anc ++ [e]) = Ok h' -> typed h'.
Proof.
  intros T H. unfold rule_apply in H. rewrite last_head_snoc in H. destruct (rule_match r (anc ++ [e])) as [m|]; cbn [bind] in H; [|discriminate].
  destruct m; [|injection H as <-; exact T]. match type of H with context[apply_block ?p ?h ?i] => destruct (apply_block p h i) as [h1|] eqn:E end; cbn [bind] in H; [|discriminate].
  apply block_typed in E; [|exact T]. injection H as <-. apply typed_lineno, E.
Qed.
Lemma rules_typed : forall rs anc e h', typed (ehead e) -> apply_rules rs (anc ++ [e]) = Ok h' -> typed h'.
Proof.
  induction rs as [|r rs IH]; intros anc e h' T H; cbn [apply_rules] in H; [rewrite last_head_snoc in H; injection H as <-; exact T|].
  destruct (rule_apply r (anc ++ [e])) as [h|] eqn:E; cbn [bind] in H; [|discriminate]. apply rule_typed in E; [|exact T].
  rewrite set_last_snoc in H. eapply IH; [|exact H]. destruct e. exact E.
Qed.

(* every element of a tree *)
Definition typed_tree (t : elem) : Prop := forall e, In e (elements t) -> typed (ehead e).
Lemma typed_node h ks : typed_tree (Elem h ks) <-> typed h /\ forall c, In (inl c) ks -> typed_tree c.
Proof.
  unfold typed_tree. rewrite elements_eq. split.
  - intros T. split; [apply (T (Elem h ks)); left; reflexivity|]. intros c I e J. apply T. right. unfold below. apply in_flat_map. exists (inl c). auto.
  - intros (T & K) e [<-|I]; [exact T|]. unfold below in I. apply in_flat_map in I as ([c|s] & I & J); [|destruct J]. eapply K; eassumption.
Qed.
Lemma visits_typed {St} (cb : list elem -> St -> res (head * St)) e :
  (forall anc e s h s1, typed (ehead e) -> cb (anc ++ [e]) s = Ok (h, s1) -> typed h) ->
  forall anc s e' s', typed_tree e -> visits cb anc e s e' s' -> typed_tree e'.
Proof.
  intros CB. induction e as [h ks IH] using elem_induction. intros anc s e' s' T (h' & s1 & Ec & ks' & -> & W).
  apply typed_node in T as (Th & Tk). apply typed_node. split; [apply (CB _ (Elem h ks) _ _ _ Th Ec)|]. clear Ec.
  assert (G : forall l, (forall c, In (inl c) l -> In (inl c) ks) -> forall l' s t,
    (fix each (l l' : list (elem + str)) (s s' : St) : Prop :=
     match l, l' with
     | [], [] => s' = s
     | inl c :: l, inl c' :: l' => exists t, visits cb (anc ++ [Elem h' ks]) c s c' t /\ each l l' t s'
     | inr a :: l, inr a' :: l' => a = a' /\ each l l' s s'
     | _, _ => False
     end) l l' s t -> forall c, In (inl c) l' -> typed_tree c).
  { induction l as [|[c|a] l IHl]; intros I [|[c'|a'] l'] s0 t E; try contradiction.
    - destruct E as (t1 & V & E). intros d [X|J].
      + injection X as <-. eapply IH; [apply I; left; reflexivity| |exact V]. apply Tk, I. left. reflexivity.
      + eapply IHl; [intros c0 K; apply I; right; exact K|exact E|exact J].
    - destruct E as (-> & E). intros d [X|J]; [discriminate|]. eapply IHl; [intros c0 K; apply I; right; exact K|exact E|exact J]. }
  eapply G; [|exact W]. auto.
Qed.
Lemma style_typed rs t t' : typed_tree t -> style rs t = Ok t' -> typed_tree t'.
Proof.
  intros T H. unfold style in H. set (cb := fun path (_ : unit) => let! h := apply_rules rs path in Ok (h, tt)) in H.
  unfold visit_tree in H. destruct (visit cb [t] t tt) as [[p u]|] eqn:Ev; cbn [bind] in H; [|discriminate].
  apply (visit_visits cb t []) in Ev as (e' & -> & V). cbn [app] in H. change (pyget [e'] (-1)) with (@Ok elem e') in H. cbn [bind fst] in H. injection H as <-.
  eapply (visits_typed cb t); [|exact T|exact V]. intros anc e s h s1 Te E. unfold cb in E. destruct (apply_rules rs (anc ++ [e])) as [h0|] eqn:E0; cbn [bind] in E; [|discriminate].
  injection E as <- _. eapply rules_typed; eassumption.
Qed.
Lemma mag_typed t size t' : typed_tree t -> set_mag t size = Ok t' -> typed_tree t'.
Proof.
  intros T H. unfold set_mag in H. destruct (get_int [ehead t] "width") as [w|]; cbn [bind] in H; [|discriminate]. destruct (get_int [ehead t] "height") as [h|]; cbn [bind] in H; [|discriminate].
  destruct (mag_of _ _ w h) as [m|]; cbn [bind] in H; [|discriminate]. destruct (set_attr (ehead t) (L "mag") (VFlt m)) as [hd|] eqn:E; cbn [bind] in H; [|discriminate].
  injection H as <-. destruct t as [h0 ks]. apply typed_node in T as (T & K). apply typed_node. split; [|exact K].
  eapply set_typed; [exact T| |exact E]. intros c Ec A. destruct c; try discriminate A; cbn; eauto.
Qed.
Definition typed_headb (h : head) : bool :=
  match attrs h with
  | [] => true
  | [(n, a)] => match class_of (kind h) n, a_class a, a_value a with
                | Some Player, Player, VStr s => str_mem s (map L ["you"; "him"])
                | Some Parity, Parity, VStr s => str_mem s (map L ["even"; "odd"])
                | Some IdAttr, IdAttr, VStr _ => true
                | _, _, _ => false
                end
  | _ => false
  end.
Lemma typed_headb_ok h : typed_headb h = true -> typed h.
Proof.
  unfold typed_headb, typed. destruct (attrs h) as [|[n a] [|? ?]]; [intros _ m x; discriminate| |discriminate]. intros H m x. cbn [dget].
  destruct (str_eqb m n) eqn:E; [|discriminate]. apply sq in E as ->. intros [= <-]. destruct (class_of (kind h) n) as [c|]; [|discriminate].
  destruct c, (a_class a), (a_value a); try discriminate; (split; [reflexivity|]); cbn; eauto; apply mem_choice in H; cbn in H; destruct H as [<-|[<-|[]]]; auto.
Qed.
Lemma leaf_typed h s : typed_headb h = true -> typed_tree (Elem h [inr s]).
Proof. intros T. apply typed_node. split; [apply typed_headb_ok, T|]. intros c [E|[]]. discriminate. Qed.
Definition typed_kids (l : list kid) : Prop := forall c, In (inl c) l -> typed_tree c.
Lemma kids_app l l' : typed_kids l -> typed_kids l' -> typed_kids (l ++ l').
Proof. intros K K' c I. apply in_app_or in I as [I|I]; auto. Qed.
Lemma kids_nil : typed_kids [].
Proof. intros c []. Qed.
Lemma kids_cons e l : typed_tree e -> typed_kids l -> typed_kids (inl e :: l).
Proof. intros T K c [X|I]; [injection X as <-; exact T|apply K, I]. Qed.
Lemma kids_text s l : typed_kids l -> typed_kids (inr s :: l).
Proof. intros K c [X|I]; [discriminate|apply K, I]. Qed.
Lemma kids_texts l : typed_kids (map inr l).
Proof. induction l as [|s l IH]; [apply kids_nil|apply kids_text, IH]. Qed.
Lemma node_kids h ks : typed_headb h = true -> typed_kids ks -> typed_tree (Elem h ks).
Proof. intros T K. apply typed_node. split; [apply typed_headb_ok, T|exact K]. Qed.
Lemma chequer_typed p n : p = you \/ p = him -> typed_kids (chequer p n).
Proof. intros P. unfold chequer. destruct (n =? 0); [apply kids_nil|]. apply kids_cons; [|apply kids_nil]. apply leaf_typed. destruct P as [->| ->]; reflexivity. Qed.
Lemma point_typed b i : typed_tree (point b i).
Proof.
  unfold point. apply node_kids; [unfold point_head, parity; destruct (i mod 2 =? 0); reflexivity|]. apply kids_text. unfold on_point.
  destruct (i <=? 12); apply kids_app; apply chequer_typed; auto.
Qed.
Lemma tree_typed b t : sides_ok b -> board_tree b = Ok t -> typed_tree t.
Proof.
  intros S. rewrite board_tree_ok by exact S. destruct (the_cubes b) as [[[m y] h]|] eqn:Ec; cbn [bind]; [|discriminate]. destruct (the_action b) as [[[[p s] f] g]|] eqn:Ea; cbn [bind]; [|discriminate].
  intros H. assert (E : t = trunk b (mkextras (Some p) [L s] f g m y h)) by congruence. subst t. clear H.
  assert (KC : forall z, typed_kids [cube_elem z]) by (intros z; apply kids_cons; [apply leaf_typed; reflexivity|apply kids_nil]).
  assert (KR : forall z, typed_kids [resign_elem z]) by (intros z; apply kids_cons; [apply leaf_typed; reflexivity|apply kids_nil]).
  assert (KD : typed_kids (dice_elems b)) by (apply kids_cons; [apply leaf_typed; reflexivity|apply kids_cons; [apply leaf_typed; reflexivity|apply kids_nil]]).
  assert (M : typed_kids m /\ typed_kids y /\ typed_kids h).
  { unfold the_cubes in Ec. repeat match type of Ec with (if ?c then _ else _) = _ => destruct c end; try discriminate; injection Ec as <- <- <-; auto using kids_nil. }
  assert (F : (p = you \/ p = him) /\ typed_kids f /\ typed_kids g).
  { unfold the_action in Ea. cbv zeta in Ea. repeat match type of Ea with (if ?c then _ else _) = _ => destruct c end; try discriminate; injection Ea as <- <- <- <-; auto 6 using kids_nil. }
  destruct M as (Mm & My & Mh). destruct F as (P & Ff & Fg). unfold trunk, bare, owned. cbn [c_mid c_you c_him f_you f_him].
  assert (Y : you = you \/ you = him) by auto. assert (Z : him = you \/ him = him) by auto.
  apply node_kids; [reflexivity|]. apply kids_cons; [|apply kids_cons; [|apply kids_nil]]; (apply node_kids; [reflexivity|]).
  - apply kids_cons; [|repeat (apply kids_cons; [apply leaf_typed; reflexivity|]); exact kids_nil]. unfold action_elem. cbn [x_player x_says]. unfold owned. apply node_kids; [destruct P as [->| ->]; reflexivity|apply kids_texts].
  - apply kids_app; [|apply kids_app].
    + repeat (apply kids_cons; [apply node_kids; [reflexivity|]|]); try exact kids_nil; try assumption; try (apply kids_app; [|assumption]); apply chequer_typed; auto.
    + intros c I. apply in_map_iff in I as (i & E & _). injection E as <-. apply point_typed.
    + repeat (apply kids_cons; [apply node_kids; [reflexivity|]|]); try exact kids_nil; try assumption; try (apply kids_app; [|assumption]); apply chequer_typed; auto.
Qed.
Lemma paths_elements e : forall p, In p (paths [] e) -> forall q, In q p -> In q (elements e).
Proof.
  induction e as [h ks IH] using elem_induction. intros p I q J. rewrite elements_eq. apply in_paths in I as [->|(c & r & I & K & ->)].
  - destruct J as [<-|[]]. left. reflexivity.
  - destruct J as [<-|J]; [left; reflexivity|]. right. unfold below. apply in_flat_map. exists (inl c). split; [exact I|]. eapply IH; eassumption.
Qed.
Lemma path_right t p n v : typed_tree t -> In p (paths [] t) -> get_attr (map ehead (rev p)) n = Ok v -> right_type n v.
Proof.
  intros T I G. eapply get_right; [|exact G]. intros h J. apply in_map_iff in J as (e & <- & J). apply in_rev in J. apply T. eapply paths_elements; eassumption.
Qed.
Lemma attributes_typed : forall rs b t t', sides_ok b -> board_tree b = Ok t -> style rs t = Ok t' ->
  forall p n v, In p (paths [] t') -> get_attr (map ehead (rev p)) n = Ok v -> right_type n v.
Proof.
  intros rs b t t' S B St p n v I G. eapply path_right; [|exact I|exact G]. eapply style_typed; [|exact St]. eapply tree_typed; eassumption.
Qed.
