(* The tree of a board needs no escaping, before and after styling, and holds only what it may hold. *)
From Verif Require Import Py PyFacts Dict DictFacts UtilModel BoardModel ImageModel ImageSpec ImageCss ImageTree AttrProofs DrawnSpec DrawnTree XmlModel XmlSpec XmlProofs.
From Coq Require Import Permutation.
Open Scope string_scope.
Open Scope list_scope.
Open Scope Z_scope.

(* ---- texts ---- *)
Lemma trim_solid s : forallb (fun c => negb (blank c)) s = true -> trim s = s.
Proof.
  intros H. assert (X : forall s, forallb (fun c => negb (blank c)) s = true -> skip s = s).
  { intros [|c r] E; [reflexivity|]. cbn in E. apply andb_prop in E as (E & _). apply skip_none, negb_true_iff, E. }
  unfold trim. rewrite (X s H), X by (apply forallb_rev, H). apply rev_involutive.
Qed.
Definition solid (c : ascii) : bool := bare_char c && negb (Ascii.eqb c quote) && negb (blank c).
Lemma solid_text s : forallb solid s = true -> s <> [] -> bare_text s = true /\ bare_value s = true.
Proof.
  intros H N. unfold bare_text, bare_value. rewrite trim_solid, str_eqb_refl.
  - split; [destruct s; [contradiction|]; rewrite !Bool.andb_true_r|]; rewrite forallb_forall in *; intros c I; specialize (H c I); unfold solid in H; apply andb_prop in H as (H & _); [apply andb_prop in H as (H & _)|]; exact H.
  - rewrite forallb_forall in *. intros c I. specialize (H c I). unfold solid in H. apply andb_prop in H as (_ & H). exact H.
Qed.
Lemma int_solid z : forallb solid (py_str_int z) = true /\ py_str_int z <> [].
Proof.
  assert (D : forall u, forallb solid (chars_of_uint u) = true).
  { intros u. pose proof (chars_of_uint_digits u) as H. rewrite forallb_forall in *. intros c I. specialize (H c I).
    assert (X : (negb (is_digit c) || solid c) = true) by (clear; revert c; apply all_ascii; vm_compute; reflexivity). rewrite H in X. exact X. }
  unfold py_str_int. split; [destruct (Z.to_int z) as [u|u]; [apply D|cbn [forallb]; rewrite D; reflexivity]|].
  intros E. pose proof (py_int_str z) as P. unfold py_str_int in P. rewrite E in P. discriminate.
Qed.
Lemma int_text z : bare_text (py_str_int z) = true.
Proof. destruct (int_solid z). apply solid_text; assumption. Qed.
Lemma int_value z : bare_value (py_str_int z) = true.
Proof. destruct (int_solid z). apply solid_text; assumption. Qed.

(* ---- what an element is, apart from its attributes ---- *)
Definition face_of (c : kid) : ekind + str := match c with inl c => inl (kind (ehead c)) | inr s => inr s end.
Definition look (e : elem) : ekind * list (ekind + str) := (kind (ehead e), map face_of (children e)).
Definition looks (t : elem) : list (ekind * list (ekind + str)) := map look (elements t).
Lemma looks_eq h ks : looks (Elem h ks) = look (Elem h ks) :: flat_map (fun c => match c with inl c => looks c | inr _ => [] end) ks.
Proof.
  unfold looks. rewrite elements_eq. cbn [map]. f_equal. unfold below. induction ks as [|[c|s] ks IH]; cbn [flat_map map]; [reflexivity| |exact IH].
  rewrite map_app, IH. reflexivity.
Qed.
Lemma visits_kind {St} (cb : list elem -> St -> res (head * St)) e :
  (forall anc e s h s1, cb (anc ++ [e]) s = Ok (h, s1) -> kind h = kind (ehead e)) ->
  forall anc s e' s', visits cb anc e s e' s' -> kind (ehead e') = kind (ehead e).
Proof. intros CB anc s e' s'. destruct e as [h ks]. intros (h' & s1 & Ec & ks' & -> & _). exact (CB anc (Elem h ks) s h' s1 Ec). Qed.
Lemma visits_looks {St} (cb : list elem -> St -> res (head * St)) e :
  (forall anc e s h s1, cb (anc ++ [e]) s = Ok (h, s1) -> kind h = kind (ehead e)) ->
  forall anc s e' s', visits cb anc e s e' s' -> looks e' = looks e.
Proof.
  intros CB. induction e as [h ks IH] using elem_induction. intros anc s e' s' (h' & s1 & Ec & ks' & -> & W).
  assert (G : forall l, (forall c, In (inl c) l -> In (inl c) ks) -> forall l' s t,
    (fix each (l l' : list (elem + str)) (s s' : St) : Prop :=
     match l, l' with
     | [], [] => s' = s
     | inl c :: l, inl c' :: l' => exists t, visits cb (anc ++ [Elem h' ks]) c s c' t /\ each l l' t s'
     | inr a :: l, inr a' :: l' => a = a' /\ each l l' s s'
     | _, _ => False
     end) l l' s t ->
     map face_of l' = map face_of l /\
     flat_map (fun c => match c with inl c => looks c | inr _ => [] end) l' = flat_map (fun c => match c with inl c => looks c | inr _ => [] end) l).
  { induction l as [|[c|a] l IHl]; intros I [|[c'|a'] l'] s0 t E; try contradiction; [split; reflexivity| |].
    - destruct E as (t1 & V & E). cbn [flat_map map]. destruct (IHl (fun c0 J => I c0 (or_intror J)) _ _ _ E) as (X & Y). split.
      + f_equal; [|exact X]. cbn [face_of]. f_equal. eapply visits_kind; [exact CB|exact V].
      + rewrite Y. f_equal. eapply IH; [apply I; left; reflexivity|exact V].
    - destruct E as (-> & E). cbn [flat_map map app]. destruct (IHl (fun c0 J => I c0 (or_intror J)) _ _ _ E) as (X & Y). split; [f_equal; exact X|exact Y]. }
  destruct (G ks (fun c I => I) _ _ _ W) as (X & Y). rewrite !looks_eq, Y. f_equal. unfold look. cbn [ehead children]. rewrite X.
  f_equal. apply (CB anc (Elem h ks) s h' s1 Ec).
Qed.
Lemma style_looks rs t t' : style rs t = Ok t' -> looks t' = looks t.
Proof.
  intros H. unfold style in H. set (cb := fun path (_ : unit) => let! h := apply_rules rs path in Ok (h, tt)) in H.
  unfold visit_tree in H. destruct (visit cb [t] t tt) as [[p u]|] eqn:Ev; cbn [bind] in H; [|discriminate].
  apply (visit_visits cb t []) in Ev as (e' & -> & V). cbn [app] in H. change (pyget [e'] (-1)) with (@Ok elem e') in H. cbn [bind fst] in H. injection H as <-.
  eapply (visits_looks cb t); [|exact V]. intros anc e s h s1 E. unfold cb in E. destruct (apply_rules rs (anc ++ [e])) as [h0|] eqn:E0; cbn [bind] in E; [|discriminate].
  injection E as <- _. eapply rules_kind; eassumption.
Qed.
Lemma mag_head t size t' : set_mag t size = Ok t' -> exists m hd, set_attr (ehead t) (L "mag") (VFlt m) = Ok hd /\ t' = set_head t hd.
Proof.
  intros H. unfold set_mag in H. destruct (get_int [ehead t] "width") as [w|]; cbn [bind] in H; [|discriminate]. destruct (get_int [ehead t] "height") as [h|]; cbn [bind] in H; [|discriminate].
  destruct (mag_of _ _ w h) as [m|]; cbn [bind] in H; [|discriminate]. destruct (set_attr (ehead t) (L "mag") (VFlt m)) as [hd|] eqn:E; cbn [bind] in H; [|discriminate].
  injection H as <-. exists m, hd. auto.
Qed.
Lemma mag_looks t size t' : set_mag t size = Ok t' -> looks t' = looks t.
Proof.
  intros H. apply mag_head in H as (m & hd & E & ->). apply set_attr_kind in E. destruct t as [h ks]. unfold set_head. cbn [children ehead] in *.
  rewrite !looks_eq. f_equal. unfold look. cbn [ehead children]. congruence.
Qed.

(* ---- what an element of the tree of a board is ---- *)
Definition allowed (k : ekind) (c : ekind + str) : Prop :=
  match c with inl k' => In (ename k') (dtd_element k) | inr _ => In (L "#PCDATA") (dtd_element k) end.
Definition said (l : list (ekind + str)) : list str := flat_map (fun c => match c with inl _ => [] | inr s => [s] end) l.
Definition fine (kl : ekind * list (ekind + str)) : Prop := one_text (said (snd kl)) /\ forall c, In c (snd kl) -> allowed (fst kl) c.
Definition headb (h : head) : bool :=
  match css_lineno h with [] => true | _ => false end &&
  match attrs h with
  | [] => true
  | [(n, a)] => match class_of (kind h) n, a_class a, a_path a, a_value a with
                | Some Player, Player, None, VStr s | Some Parity, Parity, None, VStr s | Some IdAttr, IdAttr, None, VStr s => bare_value s
                | _, _, _, _ => false
                end
  | _ => false
  end.
Definition built (e : elem) : Prop := headb (ehead e) = true /\ fine (look e).
Lemma one_text_one s : bare_text s = true -> one_text [s].
Proof. intros B. split; [cbn; lia|]. intros x [<-|[]]. exact B. Qed.
Lemma one_text_none : one_text [].
Proof. split; [cbn; lia|]. intros x []. Qed.
Lemma built_leaf h s : headb h = true -> str_mem (L "#PCDATA") (dtd_element (kind h)) = true -> bare_text s = true -> built (Elem h [inr s]).
Proof.
  intros H M B. split; [exact H|]. split; [apply one_text_one, B|]. intros c [<-|[]]. cbn. apply mem_choice in M. exact M.
Qed.
(* elements of these kinds and no text *)
Definition kids_of (l : list ekind) (ks : list kid) : Prop := forall c, In c ks -> exists e, c = inl e /\ In (kind (ehead e)) l.
Lemma kids_of_nil l : kids_of l [].
Proof. intros c []. Qed.
Lemma kids_of_app l ks ks' : kids_of l ks -> kids_of l ks' -> kids_of l (ks ++ ks').
Proof. intros A B c I. apply in_app_or in I as [I|I]; auto. Qed.
Lemma kids_of_more l l' ks : kids_of l ks -> incl l l' -> kids_of l' ks.
Proof. intros A B c I. destruct (A c I) as (e & E & J). exists e. split; [exact E|apply B, J]. Qed.
Lemma kids_of_said l ks : kids_of l ks -> said (map face_of ks) = [].
Proof.
  intros K. induction ks as [|c ks IH]; [reflexivity|]. destruct (K c (or_introl eq_refl)) as (e & -> & _). cbn [map said flat_map face_of app].
  apply IH. intros d I. apply K. right. exact I.
Qed.
Lemma kids_of_allowed l ks k : kids_of l ks -> forallb (fun k' => str_mem (ename k') (dtd_element k)) l = true -> forall c, In c (map face_of ks) -> allowed k c.
Proof.
  intros K F c I. apply in_map_iff in I as (x & <- & I). destruct (K x I) as (e & -> & J). cbn. rewrite forallb_forall in F. apply mem_choice, F, J.
Qed.
Lemma built_node l h ks : headb h = true -> kids_of l ks -> forallb (fun k' => str_mem (ename k') (dtd_element (kind h))) l = true -> built (Elem h ks).
Proof.
  intros H K F. split; [exact H|]. unfold look. cbn [ehead children]. split; cbn [fst snd].
  - rewrite (kids_of_said l ks K). apply one_text_none.
  - apply (kids_of_allowed l); assumption.
Qed.
Lemma built_point l h s ks : headb h = true -> bare_text s = true -> str_mem (L "#PCDATA") (dtd_element (kind h)) = true -> kids_of l ks -> forallb (fun k' => str_mem (ename k') (dtd_element (kind h))) l = true -> built (Elem h (inr s :: ks)).
Proof.
  intros H B M K F. split; [exact H|]. unfold look. cbn [ehead children map face_of]. split; cbn [fst snd].
  - change (said (inr s :: map face_of ks)) with (s :: said (map face_of ks)). rewrite (kids_of_said l ks K). apply one_text_one, B.
  - intros c [<-|I]; [apply mem_choice in M; exact M|]. eapply kids_of_allowed; eassumption.
Qed.
Lemma chequer_built p n : p = you \/ p = him -> all_of built (chequer p n) /\ kids_of [EChequer] (chequer p n).
Proof.
  intros E. unfold chequer. destruct (n =? 0); [split; [apply all_nil|apply kids_of_nil]|]. split.
  - apply all_cons; [|apply all_text, all_nil|apply all_nil]. apply built_leaf; [destruct E as [->| ->]; reflexivity|reflexivity|apply int_text].
  - intros c [<-|[]]. eexists. split; [reflexivity|left; reflexivity].
Qed.
Ltac one_kid := intros ? [<-|[]]; eexists; split; [reflexivity|cbn; auto].
Lemma tree_built b t : sides_ok b -> board_tree b = Ok t -> kind (ehead t) = EBoard /\ forall e, In e (elements t) -> built e.
Proof.
  intros S. rewrite board_tree_ok by exact S. destruct (the_cubes b) as [[[m y] h]|] eqn:Ec; cbn [bind]; [|discriminate]. destruct (the_action b) as [[[[p s] f] g]|] eqn:Ea; cbn [bind]; [|discriminate].
  intros H. assert (E : t = trunk b (mkextras (Some p) [L s] f g m y h)) by congruence. subst t. clear H. split; [reflexivity|].
  assert (KC : forall z, all_of built [cube_elem z] /\ kids_of [ECube] [cube_elem z]).
  { intros z. split; [apply all_cons; [apply built_leaf; [reflexivity..|apply int_text]|apply all_text, all_nil|apply all_nil]|one_kid]. }
  assert (KR : forall z, all_of built [resign_elem z] /\ kids_of [ECube; EResign; EDie] [resign_elem z]).
  { intros z. split; [apply all_cons; [apply built_leaf; [reflexivity..|apply int_text]|apply all_text, all_nil|apply all_nil]|one_kid]. }
  assert (KD : all_of built (dice_elems b) /\ kids_of [ECube; EResign; EDie] (dice_elems b)).
  { split; [do 2 (apply all_cons; [apply built_leaf; [reflexivity..|apply int_text]|apply all_text, all_nil|]); apply all_nil|].
    intros c [<-|[<-|[]]]; eexists; (split; [reflexivity|cbn; auto]). }
  assert (KC' : forall z, all_of built [cube_elem z] /\ kids_of [ECube; EResign; EDie] [cube_elem z]).
  { intros z. split; [apply KC|]. eapply kids_of_more; [apply KC|]. intros x [<-|[]]. left. reflexivity. }
  assert (K0 : forall l, all_of built [] /\ kids_of l []) by (intros l; split; [apply all_nil|apply kids_of_nil]).
  assert (M : (all_of built m /\ kids_of [ECube] m) /\ (all_of built y /\ kids_of [ECube] y) /\ (all_of built h /\ kids_of [ECube] h)).
  { unfold the_cubes in Ec. repeat match type of Ec with (if ?c then _ else _) = _ => destruct c end; try discriminate; injection Ec as <- <- <-; auto. }
  assert (F : (p = you \/ p = him) /\ bare_text (L s) = true /\ (all_of built f /\ kids_of [ECube; EResign; EDie] f) /\ (all_of built g /\ kids_of [ECube; EResign; EDie] g)).
  { unfold the_action in Ea. cbv zeta in Ea. repeat match type of Ea with (if ?c then _ else _) = _ => destruct c end; try discriminate; injection Ea as <- <- <- <-;
      (split; [auto|]); (split; [vm_compute; reflexivity|]); auto. }
  destruct M as ((Mm & Km) & (My & Ky) & (Mh & Kh)). destruct F as (P & B & (Ff & Kf) & (Fg & Kg)).
  assert (Y : you = you \/ you = him) by auto. assert (Z : him = you \/ him = him) by auto.
  assert (A : all_of built [inl (trunk b (mkextras (Some p) [L s] f g m y h))]).
  { unfold trunk, bare, owned, action_elem. cbn [c_mid c_you c_him f_you f_him x_player x_says map]. unfold owned.
    assert (PP : forall i, all_of built [inl (point b i)]).
    { intros i. unfold point. apply all_cons; [|apply all_text|apply all_nil].
      - apply (built_point [EChequer]); [unfold point_head, parity; destruct (i mod 2 =? 0); reflexivity|apply int_text|reflexivity| |reflexivity].
        unfold on_point. destruct (i <=? 12); apply kids_of_app; apply chequer_built; auto.
      - unfold on_point. destruct (i <=? 12); apply all_app; apply chequer_built; auto. }
    apply all_cons; [apply (built_node [EMatch; EPosition]); [reflexivity| |reflexivity]| |apply all_nil].
    { intros c [<-|[<-|[]]]; eexists; (split; [reflexivity|cbn; auto]). }
    apply all_cons; [apply (built_node [EAction; ELength; ECrawford; EScore]); [reflexivity| |reflexivity]| |apply all_cons; [apply (built_node [ETop; EBottom; ECubeholder; EField; EHome; EBar; EPoint]); [reflexivity| |reflexivity]| |apply all_nil]].
    - intros c [<-|[<-|[<-|[<-|[<-|[]]]]]]; eexists; (split; [reflexivity|cbn; auto]).
    - apply all_cons; [apply built_leaf; [destruct P as [->| ->]; reflexivity|reflexivity|exact B]|apply all_text, all_nil|].
      apply all_cons; [apply built_leaf; [reflexivity..|apply int_text]|apply all_text, all_nil|].
      apply all_cons; [apply built_leaf; [reflexivity..|destruct (crawford b); vm_compute; reflexivity]|apply all_text, all_nil|].
      do 2 (apply all_cons; [apply built_leaf; [reflexivity..|apply int_text]|apply all_text, all_nil|]). apply all_nil.
    - intros c I. apply in_app_or in I as [I|I]; [|apply in_app_or in I as [I|I]].
      + repeat (destruct I as [<-|I]; [eexists; split; [reflexivity|cbn; auto 8]|]). destruct I.
      + apply in_map_iff in I as (i & <- & _). eexists. split; [reflexivity|cbn; auto 8].
      + repeat (destruct I as [<-|I]; [eexists; split; [reflexivity|cbn; auto 8]|]). destruct I.
    - assert (KH : forall q n ks, q = you \/ q = him -> all_of built ks -> kids_of [ECube] ks -> all_of built [inl (Elem (mkhead EHome [(L "player", mkattr Player None (VStr q))] []) (chequer q n ++ ks))]).
      { intros q n ks Q A1 A2. destruct (chequer_built q n Q) as (C1 & C2). apply all_cons; [|apply all_app; assumption|apply all_nil].
        apply (built_node [EChequer; ECube]); [destruct Q as [->| ->]; reflexivity| |reflexivity].
        apply kids_of_app; eapply kids_of_more; try eassumption; intros x [<-|[]]; cbn; auto. }
      assert (KB : forall q n, q = you \/ q = him -> all_of built [inl (Elem (mkhead EBar [(L "player", mkattr Player None (VStr q))] []) (chequer q n))]).
      { intros q n Q. destruct (chequer_built q n Q) as (C1 & C2). apply all_cons; [|assumption|apply all_nil]. apply (built_node [EChequer]); [destruct Q as [->| ->]; reflexivity|assumption|reflexivity]. }
      assert (KF : forall q ks, q = you \/ q = him -> all_of built ks -> kids_of [ECube; EResign; EDie] ks -> all_of built [inl (Elem (mkhead EField [(L "player", mkattr Player None (VStr q))] []) ks)]).
      { intros q ks Q A1 A2. apply all_cons; [|assumption|apply all_nil]. apply (built_node [ECube; EResign; EDie]); [destruct Q as [->| ->]; reflexivity|assumption|reflexivity]. }
      assert (one : forall c ks, all_of built [c] -> all_of built ks -> all_of built (c :: ks)) by (intros c ks A1 A2; exact (all_app built [c] ks A1 A2)).
      apply all_app; [|apply all_app].
      + do 2 (apply all_cons; [apply (built_node []); [reflexivity|apply kids_of_nil|reflexivity]|apply all_nil|]).
        apply all_cons; [apply (built_node [ECube]); [reflexivity|assumption|reflexivity]|assumption|].
        apply one; [apply KF; assumption|]. apply one; [apply KH; assumption|]. apply KB. assumption.
      + intros c I. apply in_map_iff in I as (i & E & _). injection E as <-. exact (PP i _ (or_introl eq_refl)).
      + apply one; [apply KB; assumption|]. apply one; [apply KH; assumption|]. apply KF; assumption. }
  exact (A _ (or_introl eq_refl)).
Qed.
