(* Styling with a tame sheet keeps the tree free of characters that need escaping. *)
From Verif Require Import Py PyFacts Dict DictFacts UtilModel BoardModel BoardSpec ImageModel ImageSpec ImageCss ImageTree AttrProofs DrawnSpec DrawnTree XmlModel XmlSpec XmlProofs XmlTree.
From Coq Require Import Permutation.
Open Scope string_scope.
Open Scope list_scope.
Open Scope Z_scope.

Section Styling.
Variable fs : Floats.SpecFloat.spec_float -> str.
Hypothesis fs_bare : forall f, bare_value (fs f) = true.
Definition pure (h : head) : Prop :=
  NoDup (keys (attrs h)) /\
  forall n a, In (n, a) (attrs h) -> class_of (kind h) n = Some (a_class a) /\ a_path a = None /\ bare_value (show fs (a_value a)) = true.
Lemma pure_neat h : pure h -> neat_head fs h.
Proof. intros (D & P). split; [exact D|]. intros n a I. destruct (P n a I) as (C & _ & V). split; [congruence|exact V]. Qed.
Lemma headb_pure h : headb h = true -> pure h.
Proof.
  unfold headb, pure. intros H0. apply andb_prop in H0 as (_ & H0). revert H0. destruct (attrs h) as [|(n, a) [|? ?]]; [intros _; split; [constructor|intros ? ? []]| |discriminate].
  intros H. split; [constructor; [intros []|constructor]|]. intros m x [E|[]]. injection E as <- <-. destruct (class_of (kind h) n) as [c|]; [|discriminate].
  destruct c, (a_class a), (a_path a), (a_value a); try discriminate; auto.
Qed.
Lemma in_dset (d : list (str * attr)) n v : forall m x, In (m, x) (dset str_eqb d n v) -> In (m, x) d \/ (m = n /\ x = v).
Proof.
  induction d as [|[k w] d IH]; intros m x I.
  - destruct I as [E|[]]. injection E as <- <-. auto.
  - cbn [dset] in I. destruct (str_eqb n k) eqn:E.
    + apply str_eqb_eq in E as ->. destruct I as [E|I]; [injection E as <- <-; auto|left; right; exact I].
    + destruct I as [X|I]; [left; left; exact X|]. destruct (IH m x I) as [J|J]; [left; right; exact J|right; exact J].
Qed.
Lemma keys_dset (d : list (str * attr)) n v : NoDup (keys d) -> NoDup (keys (dset str_eqb d n v)).
Proof.
  intros N. induction d as [|[k w] d IH]; [repeat constructor; intros []|]. cbn [dset]. unfold keys in *. cbn [map fst] in N. inversion N as [|? ? I N']; subst.
  destruct (str_eqb n k) eqn:E; cbn [map fst].
  - exact N.
  - constructor; [|exact (IH N')]. intros J. apply in_map_iff in J as ((m & x) & Em & J). cbn in Em. subst m. apply in_dset in J as [J|(-> & _)].
    + apply I. apply in_map_iff. exists (k, x). auto.
    + rewrite str_eqb_refl in E. discriminate.
Qed.
Lemma set_pure h n v h' : pure h -> bare_value (show fs v) = true -> set_attr h n v = Ok h' -> pure h'.
Proof.
  intros (D & P) B H. unfold set_attr in H. destruct (class_of (kind h) n) as [c|] eqn:Ec; [|discriminate].
  set (a := match dget str_eqb (attrs h) n with Some a => a | None => mkattr c None v end) in *.
  assert (A : a_class a = c /\ a_path a = None).
  { unfold a. destruct (dget str_eqb (attrs h) n) as [x|] eqn:Ex; [|split; reflexivity]. apply (dget_in str_eqb str_eqb_eq) in Ex. destruct (P n x Ex) as (Q & Q' & _). split; congruence. }
  destruct A as (A1 & A2). destruct (is_acceptable (a_class a) v); [|discriminate]. injection H as <-. split; cbn [attrs kind].
  - apply keys_dset, D.
  - intros m x I. apply in_dset in I as [I|(-> & ->)]; [exact (P m x I)|]. cbn [a_class a_path a_value]. rewrite A1. auto.
Qed.
Lemma bare_sub (p : ascii -> bool) s s' : (forall c, In c s -> In c s') -> forallb p s' = true -> forallb p s = true.
Proof. rewrite !forallb_forall. auto. Qed.
Lemma to_slash_sub s c : In c (to_slash s) -> In c s.
Proof. induction s as [|d s IH]; [auto|]. cbn [to_slash]. destruct (Ascii.eqb d slash); [auto|]. intros I. right. exact (IH I). Qed.
Lemma drop_slashes_sub s c : In c (drop_slashes s) -> In c s.
Proof. induction s as [|d s IH]; [auto|]. cbn [drop_slashes]. destruct (Ascii.eqb d slash); [intros I; right; exact (IH I)|auto]. Qed.
Lemma dirname_sub p c : In c (dirname p) -> In c p.
Proof.
  assert (X : forall c, In c (rev (to_slash (rev p))) -> In c p) by (intros d I; apply in_rev, to_slash_sub, in_rev in I; exact I).
  unfold dirname. destruct (forallb _ _); [apply X|]. intros I. apply in_rev, drop_slashes_sub, in_rev in I. exact (X c I).
Qed.
Lemma path_join_sub d f c : In c (path_join d f) -> In c d \/ In c f \/ c = slash.
Proof.
  unfold path_join. intros I. destruct f as [|e f]; [|destruct (Ascii.eqb e slash)]; [|auto|]; destruct (rev d) as [|x r]; [auto| |auto|];
    (destruct (Ascii.eqb x slash); apply in_app_or in I as [I|I]; auto; destruct I as [<-|I]; auto).
Qed.
Lemma pieces_sub q s : forall x c, In x (split_on q s) -> In c x -> In c s /\ c <> q.
Proof.
  induction s as [|d s IH]; intros x c I J; [destruct I as [<-|[]]; destruct J|]. cbn [split_on] in I. destruct (Ascii.eqb d q) eqn:E.
  - destruct I as [<-|I]; [destruct J|]. destruct (IH x c I J). split; [right|]; assumption.
  - assert (N : d <> q) by (intros ->; rewrite Ascii.eqb_refl in E; discriminate). destruct (split_on q s) as [|y l]; [destruct I as [<-|[]]; destruct J as [<-|[]]; split; [left; reflexivity|exact N]|].
    destruct I as [<-|I].
    + destruct J as [<-|J]; [split; [left; reflexivity|exact N]|]. destruct (IH y c (or_introl eq_refl) J). split; [right|]; assumption.
    + destruct (IH x c (or_intror I) J). split; [right|]; assumption.
Qed.
Lemma file_bare p text fn : bare_value p = true -> forallb bare_char text = true -> pyget (split_on quote text) 1 = Ok fn -> bare_value (path_join (dirname p) fn) = true.
Proof.
  intros P T G. assert (I : In fn (split_on quote text)) by (revert G; unfold pyget; destruct (pyix _ 1) as [k|]; [|discriminate]; destruct (nth_error _ k) eqn:E; [|discriminate]; intros [= <-]; eapply nth_error_In, E). unfold bare_value in *. rewrite forallb_forall in *. intros c J.
  apply path_join_sub in J as [J|[J| ->]]; [apply P, dirname_sub, J| |reflexivity]. destruct (pieces_sub quote text fn c I J) as (K & N).
  rewrite (T c K). cbn [andb]. apply negb_true_iff. destruct (Ascii.eqb c quote) eqn:E; [apply Ascii.eqb_eq in E; contradiction|reflexivity].
Qed.
Definition files : list str := [L "image"; L "font"].
Lemma file_class k n c : class_of k n = Some c -> (c = URIAttr \/ c = FontAttr) -> str_mem n files = true.
Proof.
  intros H F. apply (dget_in str_eqb str_eqb_eq) in H. assert (X : forallb (fun nc : str * aclass => match snd nc with URIAttr | FontAttr => str_mem (fst nc) files | _ => true end) (attlist k) = true) by (destruct k; vm_compute; reflexivity).
  rewrite forallb_forall in X. specialize (X _ H). cbn in X. destruct F as [->| ->]; exact X.
Qed.
Lemma parse_bare k n c p text v : class_of k n = Some c -> (forall q, p = Some q -> bare_value q = true) ->
  (if str_mem n files then forallb bare_char text = true else bare_value text = true) -> (str_mem n files = true -> c = URIAttr \/ c = FontAttr) ->
  parse c p text = Ok v -> bare_value (show fs v) = true.
Proof.
  intros C P T F H. assert (U : c = URIAttr \/ c = FontAttr -> bare_value (show fs v) = true).
  { intros U. rewrite (file_class k n c C U) in T. assert (H' : match p with None => Exc AttributeError | Some p => let! fn := pyget (split_on quote text) 1 in Ok (VStr (path_join (dirname p) fn)) end = Ok v) by (destruct U as [->| ->]; exact H).
    destruct p as [q|]; [|discriminate]. destruct (pyget (split_on quote text) 1) as [fn|] eqn:G; cbn [bind] in H'; [|discriminate]. injection H' as <-. cbn [show]. eapply file_bare; [apply P; reflexivity|exact T|exact G]. }
  assert (V : (c = URIAttr \/ c = FontAttr) \/ bare_value text = true) by (destruct (str_mem n files); auto).
  destruct V as [V|V]; [exact (U V)|].
  destruct c; cbn [parse] in H; try (destruct (py_int text) as [z|]; cbn [bind] in H; [|discriminate]); try discriminate; try (injection H as <-; cbn [show]; first [exact V|apply int_value|destruct text; vm_compute; reflexivity]); apply U; auto.
Qed.
Lemma file_names k n c : class_of k n = Some c -> str_mem n files = true -> c = URIAttr \/ c = FontAttr.
Proof.
  intros H F. apply (dget_in str_eqb str_eqb_eq) in H. assert (X : forallb (fun nc : str * aclass => negb (str_mem (fst nc) files) || match snd nc with URIAttr | FontAttr => true | _ => false end) (attlist k) = true) by (destruct k; vm_compute; reflexivity).
  rewrite forallb_forall in X. specialize (X _ H). cbn [fst snd] in X. rewrite F in X. destruct c; try discriminate; auto.
Qed.
Lemma one_pure p h n text h' : pure h -> bare_value p = true -> (if str_mem n files then forallb bare_char text = true else bare_value text = true) -> apply_one p h n text = Ok h' -> pure h'.
Proof.
  intros Ph B T H. unfold apply_one in H. destruct (class_of (kind h) n) as [c|] eqn:Ec; [|discriminate].
  set (a := match dget str_eqb (attrs h) n with Some a => a | None => mkattr c (Some p) (VStr []) end) in *.
  assert (A : a_class a = c /\ forall q, a_path a = Some q -> bare_value q = true).
  { unfold a. destruct (dget str_eqb (attrs h) n) as [x|] eqn:Ex; [|split; [reflexivity|intros q [= <-]; exact B]].
    apply (dget_in str_eqb str_eqb_eq) in Ex. destruct Ph as (_ & Ph). destruct (Ph n x Ex) as (Q & Q' & _). split; [congruence|]. intros q E. congruence. }
  destruct A as (A1 & A2). rewrite A1 in H. destruct (parse c (a_path a) text) as [v|] eqn:Ev; cbn [bind] in H; [|discriminate].
  eapply set_pure; [exact Ph| |exact H]. eapply parse_bare; [exact Ec|exact A2|exact T|apply file_names with (1 := Ec)|exact Ev].
Qed.
Lemma block_pure p : bare_value p = true -> forall its h h', (forall n v, In (n, v) its -> if str_mem n files then forallb bare_char v = true else bare_value v = true) ->
  pure h -> apply_block p h its = Ok h' -> pure h'.
Proof.
  intros B. induction its as [|[n t] its IH]; intros h h' T P H; cbn [apply_block] in H; [injection H as <-; exact P|].
  destruct (apply_one p h n t) as [h1|] eqn:E; cbn [bind] in H; [|discriminate]. eapply IH; [intros m v I; apply T; right; exact I| |exact H].
  eapply one_pure; [exact P|exact B|apply T; left; reflexivity|exact E].
Qed.
Lemma rule_pure r anc e h' : tame r -> pure (ehead e) -> rule_apply r (anc ++ [e]) = Ok h' -> pure h'.
Proof.
  intros (B & T) P H. unfold rule_apply in H. rewrite last_head_snoc in H. destruct (rule_match r (anc ++ [e])) as [m|]; cbn [bind] in H; [|discriminate].
  destruct m; [|injection H as <-; exact P]. match type of H with context[apply_block ?p ?h ?i] => destruct (apply_block p h i) as [h1|] eqn:E end; cbn [bind] in H; [|discriminate].
  apply block_pure in E; [|exact B|exact T|exact P]. injection H as <-. exact E.
Qed.
Lemma rules_pure : forall rs anc e h', (forall r, In r rs -> tame r) -> pure (ehead e) -> apply_rules rs (anc ++ [e]) = Ok h' -> pure h'.
Proof.
  induction rs as [|r rs IH]; intros anc e h' R P H; cbn [apply_rules] in H; [rewrite last_head_snoc in H; injection H as <-; exact P|].
  destruct (rule_apply r (anc ++ [e])) as [h|] eqn:E; cbn [bind] in H; [|discriminate]. apply rule_pure in E; [|apply R; left; reflexivity|exact P].
  rewrite set_last_snoc in H. eapply IH; [intros x I; apply R; right; exact I| |exact H]. destruct e. exact E.
Qed.
Definition pure_tree (t : elem) : Prop := forall e, In e (elements t) -> pure (ehead e).
Lemma pure_node h ks : pure_tree (Elem h ks) <-> pure h /\ forall c, In (inl c) ks -> pure_tree c.
Proof.
  unfold pure_tree. rewrite elements_eq. split.
  - intros T. split; [apply (T (Elem h ks)); left; reflexivity|]. intros c I e J. apply T. right. unfold below. apply in_flat_map. exists (inl c). auto.
  - intros (T & K) e [<-|I]; [exact T|]. unfold below in I. apply in_flat_map in I as ([c|s] & I & J); [|destruct J]. eapply K; eassumption.
Qed.
Lemma visits_pure {St} (cb : list elem -> St -> res (head * St)) e :
  (forall anc e s h s1, pure (ehead e) -> cb (anc ++ [e]) s = Ok (h, s1) -> pure h) ->
  forall anc s e' s', pure_tree e -> visits cb anc e s e' s' -> pure_tree e'.
Proof.
  intros CB. induction e as [h ks IH] using elem_induction. intros anc s e' s' T (h' & s1 & Ec & ks' & -> & W).
  apply pure_node in T as (Th & Tk). apply pure_node. split; [apply (CB _ (Elem h ks) _ _ _ Th Ec)|]. clear Ec.
  assert (G : forall l, (forall c, In (inl c) l -> In (inl c) ks) -> forall l' s t,
    (fix each (l l' : list (elem + str)) (s s' : St) : Prop :=
     match l, l' with
     | [], [] => s' = s
     | inl c :: l, inl c' :: l' => exists t, visits cb (anc ++ [Elem h' ks]) c s c' t /\ each l l' t s'
     | inr a :: l, inr a' :: l' => a = a' /\ each l l' s s'
     | _, _ => False
     end) l l' s t -> forall c, In (inl c) l' -> pure_tree c).
  { induction l as [|[c|a] l IHl]; intros I [|[c'|a'] l'] s0 t E; try contradiction.
    - destruct E as (t1 & V & E). intros d [X|J].
      + injection X as <-. eapply IH; [apply I; left; reflexivity| |exact V]. apply Tk, I. left. reflexivity.
      + eapply IHl; [intros c0 K; apply I; right; exact K|exact E|exact J].
    - destruct E as (-> & E). intros d [X|J]; [discriminate|]. eapply IHl; [intros c0 K; apply I; right; exact K|exact E|exact J]. }
  eapply G; [|exact W]. auto.
Qed.
Lemma style_pure rs t t' : (forall r, In r rs -> tame r) -> pure_tree t -> style rs t = Ok t' -> pure_tree t'.
Proof.
  intros R T H. unfold style in H. set (cb := fun path (_ : unit) => let! h := apply_rules rs path in Ok (h, tt)) in H.
  unfold visit_tree in H. destruct (visit cb [t] t tt) as [[p u]|] eqn:Ev; cbn [bind] in H; [|discriminate].
  apply (visit_visits cb t []) in Ev as (e' & -> & V). cbn [app] in H. change (pyget [e'] (-1)) with (@Ok elem e') in H. cbn [bind fst] in H. injection H as <-.
  eapply (visits_pure cb t); [|exact T|exact V]. intros anc e s h s1 Te E. unfold cb in E. destruct (apply_rules rs (anc ++ [e])) as [h0|] eqn:E0; cbn [bind] in E; [|discriminate].
  injection E as <- _. eapply rules_pure; eassumption.
Qed.
Lemma mag_pure t size t' : pure_tree t -> set_mag t size = Ok t' -> pure_tree t'.
Proof.
  intros T H. apply mag_head in H as (m & hd & E & ->). destruct t as [h ks]. apply pure_node in T as (T & K). apply pure_node. split; [|exact K].
  exact (set_pure h (L "mag") (VFlt m) hd T (fs_bare m) E).
Qed.
(* ---- neat trees ---- *)
Lemma said_texts e : said (snd (look e)) = texts e.
Proof. destruct e as [h ks]. unfold look, texts, said. cbn [children snd]. induction ks as [|[c|s] ks IH]; [reflexivity| |]; cbn [map flat_map face_of app]; [exact IH|f_equal; exact IH]. Qed.
Definition fine_tree (t : elem) : Prop := forall x, In x (looks t) -> fine x.
Lemma pure_fine_neat t : pure_tree t -> fine_tree t -> neat fs t.
Proof.
  intros P F e I. split; [apply pure_neat, P, I|]. destruct (F (look e)) as (T & _); [apply in_map, I|]. rewrite said_texts in T. exact T.
Qed.
Lemma board_good b t : sides_ok b -> board_tree b = Ok t -> kind (ehead t) = EBoard /\ pure_tree t /\ fine_tree t.
Proof.
  intros S H. destruct (tree_built b t S H) as (K & B). split; [exact K|]. split.
  - intros e I. apply headb_pure, B, I.
  - intros x I. apply in_map_iff in I as (e & <- & I). apply B, I.
Qed.
Lemma root_kind t : forall x, nth_error (looks t) 0 = Some x -> fst x = kind (ehead t).
Proof. destruct t as [h ks]. rewrite looks_eq. intros x [= <-]. reflexivity. Qed.
Lemma looks_kind t t' : looks t' = looks t -> kind (ehead t') = kind (ehead t).
Proof. destruct t, t'. rewrite !looks_eq. intros E. exact (f_equal (fun l => match l with x :: _ => fst x | [] => EBoard end) E). Qed.
Lemma styled_good rs b t t' : sides_ok b -> (forall r, In r rs -> tame r) -> board_tree b = Ok t -> style rs t = Ok t' -> kind (ehead t') = EBoard /\ pure_tree t' /\ fine_tree t'.
Proof.
  intros S R H Y. destruct (board_good b t S H) as (K & P & F). pose proof (style_looks rs t t' Y) as E. split; [rewrite (looks_kind t t' E); exact K|].
  split; [eapply style_pure; eassumption|]. unfold fine_tree. rewrite E. exact F.
Qed.
Lemma dressed_good rs b size t : sides_ok b -> (forall r, In r rs -> tame r) -> dressed rs b size t -> kind (ehead t) = EBoard /\ pure_tree t /\ fine_tree t.
Proof.
  intros S R (t0 & t1 & H & Y & M). destruct (styled_good rs b t0 t1 S R H Y) as (K & P & F). pose proof (mag_looks t1 size t M) as E. split; [rewrite (looks_kind t1 t E); exact K|].
  split; [eapply mag_pure; eassumption|]. unfold fine_tree. rewrite E. exact F.
Qed.
End Styling.
