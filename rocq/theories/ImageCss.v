(* Style sheets: matching, cascading, inheriting, walking. *)
From Verif Require Import Py PyFacts Dict DictFacts ImageModel ImageSpec.
Open Scope list_scope.

Lemma sq a b : str_eqb a b = true <-> a = b.
Proof. apply str_eqb_eq. Qed.
Lemma str_mem_in s l : str_mem s l = true <-> In s l.
Proof. unfold str_mem. rewrite existsb_exists. split; [intros (x & I & E); apply sq in E as ->; exact I|intros I; exists s; split; [exact I|apply sq; reflexivity]]. Qed.
Lemma in_texts d e : In d (texts e) <-> In (inr d) (children e).
Proof.
  unfold texts. rewrite in_flat_map. split.
  - intros ([c|s] & I & J); cbn in J; [destruct J|destruct J as [->|[]]; exact I].
  - intros I. exists (inr d). split; [exact I|cbn; auto].
Qed.
Lemma last_snoc {X} (l : list X) x : pyget (l ++ [x]) (-1) = Ok x.
Proof.
  unfold pyget, pyix, zlen. rewrite app_length. cbn [List.length].
  replace (0 <=? -1) with false by reflexivity. cbn [andb].
  replace (- Z.of_nat (List.length l + 1) <=? -1) with true by (symmetry; apply Z.leb_le; lia). cbn [andb]. change (-1 <? 0) with true. cbn iota.
  replace (Z.to_nat (Z.of_nat (List.length l + 1) + -1)) with (List.length l) by lia.
  rewrite nth_error_app2 by lia. rewrite Nat.sub_diag. reflexivity.
Qed.

(* ---- selectors ---- *)
Lemma sel_match_spec s e b : sel_match s e = Ok b -> (b = true <-> selects s e).
Proof.
  unfold sel_match, selects. destruct (str_eqb (ename (kind (ehead e))) (s_element s)) eqn:E1.
  2:{ assert (N : ename (kind (ehead e)) <> s_element s) by (intros H; apply sq in H; congruence).
      destruct (s_name s), (s_value s), (s_data s); cbn [bind]; intros [= <-]; split; try discriminate; intros (H & _); contradiction. }
  apply sq in E1. intros H.
  destruct (s_name s) as [n|] eqn:En.
  - destruct (dget str_eqb (attrs (ehead e)) n) as [a|] eqn:Ea.
    + destruct (s_value s) as [v|] eqn:Ev.
      * unfold attr_match in H. destruct (parse (a_class a) (a_path a) v) as [w|] eqn:Ep; cbn [bind] in H; [|discriminate].
        assert (W : value_eqb w (a_value a) = true <-> says a v).
        { unfold says. split; [intros Q; eauto|intros (w' & Q & R); congruence]. }
        injection H as <-. destruct (value_eqb w (a_value a)) eqn:Ew.
        -- destruct (s_data s) as [d|] eqn:Ed.
           ++ rewrite str_mem_in, in_texts. split.
              ** intros I. split; [exact E1|]. split; [|intros d' [= <-]; exact I].
                 intros n' [= <-]. exists a. split; [exact Ea|]. intros v' [= <-]. apply W. reflexivity.
              ** intros (_ & _ & D). apply D. reflexivity.
           ++ split; [intros _|reflexivity]. split; [exact E1|]. split; [|discriminate].
              intros n' [= <-]. exists a. split; [exact Ea|]. intros v' [= <-]. apply W. reflexivity.
        -- destruct (s_data s); split; try discriminate; intros (_ & A & _); destruct (A n eq_refl) as (a' & Ea' & S); rewrite Ea in Ea'; injection Ea' as <-; apply W, S; reflexivity.
      * cbn [bind] in H. injection H as <-. destruct (s_data s) as [d|] eqn:Ed.
        -- rewrite str_mem_in, in_texts. split.
           ++ intros I. split; [exact E1|]. split; [|intros d' [= <-]; exact I]. intros n' [= <-]. exists a. split; [exact Ea|discriminate].
           ++ intros (_ & _ & D). apply D. reflexivity.
        -- split; [intros _|reflexivity]. split; [exact E1|]. split; [|discriminate]. intros n' [= <-]. exists a. split; [exact Ea|discriminate].
    + assert (X : b = false) by (destruct (s_value s), (s_data s); cbn [bind] in H; congruence). subst b.
      split; [discriminate|]. intros (_ & A & _). destruct (A n eq_refl) as (a & Ea' & _). congruence.
  - destruct (s_value s) as [v|] eqn:Ev; [discriminate|]. cbn [bind] in H. injection H as <-.
    destruct (s_data s) as [d|] eqn:Ed.
    + rewrite str_mem_in, in_texts. split.
      * intros I. split; [exact E1|]. split; [discriminate|]. intros d' [= <-]. exact I.
      * intros (_ & _ & D). apply D. reflexivity.
    + split; [intros _|reflexivity]. split; [exact E1|]. split; discriminate.
Qed.

(* ---- rules ---- *)
Section Order.
Context {X Y : Type} (P : X -> Y -> Prop).
Lemma io_app xs ys zs : in_order P xs ys -> in_order P xs (ys ++ zs).
Proof. induction 1; cbn; [apply io_nil|apply io_take|apply io_skip]; assumption. Qed.
Lemma io_snoc xs ys x y : in_order P xs ys -> P x y -> in_order P (xs ++ [x]) (ys ++ [y]).
Proof.
  induction 1 as [l|x' y' xs ys Q H IH|y' xs ys H IH]; intros R; cbn.
  - induction l as [|z l IH]; cbn; [apply io_take; [exact R|apply io_nil]|apply io_skip, IH].
  - apply io_take; [exact Q|apply IH, R].
  - apply io_skip, IH, R.
Qed.
Lemma io_rev xs ys : in_order P xs ys -> in_order P (rev xs) (rev ys).
Proof.
  induction 1 as [l|x y xs ys Q H IH|y xs ys H IH]; cbn; [apply io_nil|apply io_snoc; assumption|apply io_app, IH].
Qed.
Lemma io_rev_iff xs ys : in_order P (rev xs) (rev ys) <-> in_order P xs ys.
Proof. split; [intros H; apply io_rev in H; rewrite !rev_involutive in H; exact H|apply io_rev]. Qed.
Lemma io_weaken x xs ys : in_order P (x :: xs) ys -> in_order P xs ys.
Proof.
  intros H. remember (x :: xs) as l eqn:E. revert x xs E. induction H as [|x y xs ys Q H IH|y xs ys H IH]; intros x0 xs0 E.
  - discriminate.
  - injection E as -> ->. apply io_skip, H.
  - apply io_skip. eapply IH, E.
Qed.
End Order.

Lemma match_up_spec pat rest b : pat <> [] -> match_up false pat rest = Ok b -> (b = true <-> in_order selects pat rest).
Proof.
  revert pat b. induction rest as [|e rest IH]; intros pat b N H.
  - cbn in H. injection H as <-. split; [discriminate|]. intros I. inversion I; subst; contradiction.
  - destruct pat as [|s pat]; [contradiction|]. cbn [match_up] in H.
    destruct (sel_match s e) as [m|] eqn:Em; cbn [bind] in H; [|discriminate]. apply sel_match_spec in Em.
    destruct m.
    + assert (M : selects s e) by (apply Em; reflexivity). destruct pat as [|s' pat].
      * injection H as <-. split; [intros _; apply io_take; [exact M|apply io_nil]|reflexivity].
      * apply IH in H; [|discriminate]. rewrite H. split; [apply io_take, M|].
        intros I. inversion I; subst; [assumption|]. eapply io_weaken. eassumption.
    + apply IH in H; [|discriminate]. rewrite H. split; [apply io_skip|].
      intros I. inversion I as [|? ? ? ? Q R|? ? ? R]; subst; [|exact R]. apply Em in Q. discriminate.
Qed.
Lemma rule_match_spec r path b : rule_match r path = Ok b -> (b = true <-> rule_selects r path).
Proof.
  unfold rule_match, rule_selects. destruct path as [|e0 p0] eqn:Ep; [discriminate|]. rewrite <- Ep in *. cbn [passert bind].
  destruct (pattern r) as [|s0 q0] eqn:Eq; [discriminate|]. rewrite <- Eq in *. cbn [passert bind].
  assert (N1 : path <> []) by (rewrite Ep; discriminate). assert (N2 : pattern r <> []) by (rewrite Eq; discriminate). clear Ep Eq e0 p0 s0 q0.
  destruct (exists_last N1) as (es & e & ->). destruct (exists_last N2) as (ss & s & E2). rewrite E2.
  rewrite !rev_app_distr. cbn [rev app match_up]. intros H.
  destruct (sel_match s e) as [m|] eqn:Em; cbn [bind] in H; [|discriminate]. apply sel_match_spec in Em.
  assert (G : (exists ss' s' es' e', ss ++ [s] = ss' ++ [s'] /\ es ++ [e] = es' ++ [e'] /\ selects s' e' /\ in_order selects ss' es') <-> selects s e /\ in_order selects ss es).
  { split.
    - intros (ss' & s' & es' & e' & A & B & C & D). apply app_inj_tail in A as (-> & ->). apply app_inj_tail in B as (-> & ->). auto.
    - intros (C & D). exists ss, s, es, e. auto. }
  rewrite G. clear G. destruct m.
  - assert (M : selects s e) by (apply Em; reflexivity). destruct (rev ss) as [|s' t] eqn:Er.
    + injection H as <-. assert (ss = []) by (rewrite <- (rev_involutive ss), Er; reflexivity). subst ss. split; [intros _; split; [exact M|apply io_nil]|reflexivity].
    + apply match_up_spec in H; [|discriminate]. rewrite H. rewrite <- Er. rewrite io_rev_iff. tauto.
  - injection H as <-. split; [discriminate|]. intros (Q & _). apply Em in Q. discriminate.
Qed.
(* a rule can be tried whenever its selectors can *)
Lemma match_up_total first pat rest : pat <> [] -> (forall s e, In s pat -> In e rest -> exists b, sel_match s e = Ok b) ->
  exists b, match_up first pat rest = Ok b.
Proof.
  revert first pat. induction rest as [|e rest IH]; intros first pat N H; [eexists; reflexivity|].
  destruct pat as [|s pat]; [contradiction|]. cbn [match_up]. destruct (H s e) as (m & ->); [left; reflexivity|left; reflexivity|]. cbn [bind].
  destruct m.
  - destruct pat as [|s' pat]; [eexists; reflexivity|]. apply IH; [discriminate|]. intros s1 e1 I J. apply H; [right; exact I|right; exact J].
  - destruct first; [eexists; reflexivity|]. apply IH; [discriminate|]. intros s1 e1 I J. apply H; [exact I|right; exact J].
Qed.
Lemma rule_match_total r path : path <> [] -> pattern r <> [] ->
  (forall s e, In s (pattern r) -> In e path -> exists b, sel_match s e = Ok b) -> exists b, rule_match r path = Ok b.
Proof.
  intros N1 N2 H. unfold rule_match. destruct path as [|e0 p0] eqn:Ep; [contradiction|]. rewrite <- Ep in *. cbn [passert bind].
  destruct (pattern r) as [|s0 q0] eqn:Eq; [contradiction|]. rewrite <- Eq in *. cbn [passert bind].
  apply match_up_total.
  - intros Z. apply N2. rewrite <- (rev_involutive (pattern r)), Z. reflexivity.
  - intros s e I J. apply H; apply in_rev; assumption.
Qed.

(* ---- blocks ---- *)
Lemma parse_path c p t v : parse c None t = Ok v -> parse c (Some p) t = Ok v.
Proof. destruct c; cbn; try discriminate; auto. Qed.
Lemma set_attr_ok h n v h' : plain h -> set_attr h n v = Ok h' ->
  exists c, class_of (kind h) n = Some c /\ kind h' = kind h /\ css_lineno h' = css_lineno h /\ plain h' /\ is_acceptable c v = true /\
  forall m, dget str_eqb (attrs h') m = if str_eqb m n then Some (mkattr c None v) else dget str_eqb (attrs h) m.
Proof.
  intros P. unfold set_attr. destruct (class_of (kind h) n) as [c|] eqn:Ec; [|discriminate].
  set (a := match dget str_eqb (attrs h) n with Some a => a | None => mkattr c None v end).
  assert (A : a_class a = c /\ a_path a = None).
  { unfold a. destruct (dget str_eqb (attrs h) n) as [x|] eqn:Ex; [|split; reflexivity]. destruct (P n x Ex) as (Q & R). split; congruence. }
  destruct A as (A1 & A2). rewrite A1, A2. destruct (is_acceptable c v) eqn:Ea; [|discriminate]. intros [= <-].
  exists c. cbn. split; [reflexivity|]. split; [reflexivity|]. split; [reflexivity|].
  assert (G : forall m, dget str_eqb (dset str_eqb (attrs h) n (mkattr c None v)) m = if str_eqb m n then Some (mkattr c None v) else dget str_eqb (attrs h) m)
    by (intros m; apply (dget_dset str_eqb sq)).
  split; [|split; [exact Ea|exact G]].
  intros m x H. cbn [kind attrs] in *. rewrite G in H. destruct (str_eqb m n) eqn:Em.
  - apply sq in Em as ->. injection H as <-. cbn. split; [exact Ec|reflexivity].
  - apply P, H.
Qed.
Lemma apply_one_ok p h n t h' : plain h -> apply_one p h n t = Ok h' ->
  exists c v, class_of (kind h) n = Some c /\ parse c (Some p) t = Ok v /\ is_acceptable c v = true /\ kind h' = kind h /\ css_lineno h' = css_lineno h /\ plain h' /\
  forall m, dget str_eqb (attrs h') m = if str_eqb m n then Some (mkattr c None v) else dget str_eqb (attrs h) m.
Proof.
  intros P. unfold apply_one. destruct (class_of (kind h) n) as [c|] eqn:Ec; [|discriminate].
  set (a := match dget str_eqb (attrs h) n with Some a => a | None => mkattr c (Some p) (VStr []) end).
  destruct (parse (a_class a) (a_path a) t) as [v|] eqn:Ev; cbn [bind]; [|discriminate]. intros H.
  apply set_attr_ok in H as (c' & E' & K & Ln & P' & Ac & G); [|exact P]. rewrite Ec in E'. injection E' as <-.
  exists c, v. split; [reflexivity|]. split; [|auto].
  unfold a in Ev. destruct (dget str_eqb (attrs h) n) as [x|] eqn:Ex; [|exact Ev].
  destruct (P n x Ex) as (Q & R). rewrite R in Ev. rewrite Ec in Q. injection Q as ->. apply parse_path, Ev.
Qed.
Definition block_done (p : str) (items : list (str * str)) (h h' : head) : Prop :=
  forall n, match dget str_eqb items n with
            | None => dget str_eqb (attrs h') n = dget str_eqb (attrs h) n
            | Some t => exists c a, class_of (kind h) n = Some c /\ dget str_eqb (attrs h') n = Some a /\ a_class a = c /\ parse c (Some p) t = Ok (a_value a)
            end.
Lemma apply_block_ok p items h h' : plain h -> NoDup (keys items) -> apply_block p h items = Ok h' ->
  kind h' = kind h /\ css_lineno h' = css_lineno h /\ plain h' /\ block_done p items h h'.
Proof.
  revert h. induction items as [|[n t] items IH]; intros h P N H.
  - cbn in H. injection H as <-. repeat (split; [solve [auto]|]). intros m. cbn. reflexivity.
  - cbn in H. destruct (apply_one p h n t) as [h1|] eqn:E1; cbn [bind] in H; [|discriminate].
    apply apply_one_ok in E1 as (c & v & Ec & Ep & _ & K & Ln & P1 & G); [|exact P].
    inversion N as [|? ? N1 N2]; subst. apply IH in H as (K' & Ln' & P' & B); [|exact P1|exact N2].
    split; [congruence|]. split; [congruence|]. split; [exact P'|].
    intros m. specialize (B m). cbn [dget]. destruct (str_eqb m n) eqn:Em.
    + apply sq in Em as ->. assert (X : dget str_eqb items n = None) by (apply (dget_none str_eqb sq), N1). rewrite X in B. rewrite B, G.
      rewrite (proj2 (sq n n) eq_refl). exists c, (mkattr c None v). auto.
    + destruct (dget str_eqb items m) as [t'|]; [rewrite K in B; exact B|]. rewrite B, G, Em. reflexivity.
Qed.
Lemma last_head_snoc es e : last_head (es ++ [e]) = Ok (ehead e).
Proof. unfold last_head. rewrite last_snoc. reflexivity. Qed.
Lemma set_last_snoc es e h : set_last (es ++ [e]) h = es ++ [set_head e h].
Proof. unfold set_last. rewrite rev_app_distr. cbn. rewrite rev_involutive. reflexivity. Qed.
Lemma after_nil h : after_rules [] h h.
Proof. split; [reflexivity|]. split; [cbn; rewrite app_nil_r; reflexivity|]. intros n. reflexivity. Qed.
Lemma after_cons r rs h h1 h2 : after_rules [r] h h1 -> after_rules rs h1 h2 -> after_rules (r :: rs) h h2.
Proof.
  intros (K1 & L1 & A1) (K2 & L2 & A2). split; [congruence|]. split; [rewrite L2, L1, <- app_assoc; reflexivity|].
  intros n. specialize (A1 n). specialize (A2 n). cbn [last_word] in *. destruct (last_word rs n) as [[r' t]|].
  - rewrite K1 in A2. exact A2.
  - destruct (dget str_eqb (block r) n) as [t|]; [|congruence].
    destruct A1 as (c & a & X & Y & Z & W). exists c, a. rewrite A2. auto.
Qed.
Lemma rule_apply_ok r anc e h' : plain (ehead e) -> NoDup (keys (block r)) -> rule_apply r (anc ++ [e]) = Ok h' ->
  plain h' /\ exists m, after_rules (if m : bool then [r] else []) (ehead e) h' /\ (m = true <-> rule_selects r (anc ++ [e])).
Proof.
  intros P N. unfold rule_apply. destruct (rule_match r (anc ++ [e])) as [m|] eqn:Em; cbn [bind]; [|discriminate].
  rewrite last_head_snoc. cbn [bind]. apply rule_match_spec in Em. destruct m.
  - destruct (apply_block (r_path r) (ehead e) (block r)) as [h1|] eqn:Eb; cbn [bind]; [|discriminate]. intros [= <-].
    apply apply_block_ok in Eb as (K & Ln & P1 & B); [|exact P|exact N]. split; [exact P1|]. exists true. split; [|exact Em].
    split; [exact K|]. split; [cbn; rewrite Ln; reflexivity|]. intros n. specialize (B n). cbn. destruct (dget str_eqb (block r) n); exact B.
  - intros [= <-]. split; [exact P|]. exists false. split; [apply after_nil|exact Em].
Qed.
Lemma set_head_self e : set_head e (ehead e) = e.
Proof. destruct e; reflexivity. Qed.
Lemma apply_rules_ok rs anc e h' : plain (ehead e) -> sheet_ok rs -> apply_rules rs (anc ++ [e]) = Ok h' -> plain h' /\ cascades rs anc e h'.
Proof.
  revert e. induction rs as [|r rs IH]; intros e P S H.
  - cbn in H. rewrite last_head_snoc in H. injection H as <-. split; [exact P|]. exists []. split; [reflexivity|]. split; [apply after_nil|]. intros [|k] r m E; discriminate.
  - cbn [apply_rules] in H. destruct (rule_apply r (anc ++ [e])) as [h1|] eqn:E1; cbn [bind] in H; [|discriminate]. rewrite set_last_snoc in H.
    apply rule_apply_ok in E1 as (P1 & m & A & M); [|exact P|apply S; left; reflexivity].
    apply IH in H; [|exact P1|intros r' I; apply S; right; exact I]. destruct H as (P' & mask & Lm & A' & St). split; [exact P'|]. exists (m :: mask).
    assert (C : forall l h2, after_rules l h1 h2 -> after_rules (marked [m] [r] ++ l) (ehead e) h2).
    { intros l h2 B. destruct m; cbn [marked app]; [eapply after_cons; eassumption|].
      destruct A as (K1 & L1 & A1), B as (K2 & L2 & A2). split; [congruence|]. split; [rewrite L2, L1; cbn; rewrite app_nil_r; reflexivity|].
      intros n. specialize (A1 n). specialize (A2 n). cbn in A1. destruct (last_word l n) as [[r' t]|]; [rewrite K1 in A2; exact A2|congruence]. }
    assert (D : forall mk l, marked (m :: mk) (r :: l) = marked [m] [r] ++ marked mk l) by (intros mk l; destruct m; reflexivity).
    split; [cbn; congruence|]. split; [rewrite D; apply C, A'|].
    intros [|k] r0 m0 Er Em.
    + cbn in Er, Em. injection Er as <-. injection Em as <-. exists (ehead e). split; [apply after_nil|]. rewrite set_head_self. exact M.
    + cbn in Er, Em. destruct (St k r0 m0 Er Em) as (hk & B & Q). exists hk. split; [|exact Q].
      cbn [firstn]. rewrite D. apply C, B.
Qed.

(* ---- walking ---- *)
Section ElemInd.
Variable P : elem -> Prop.
Variable H : forall h ks, (forall c, In (inl c) ks -> P c) -> P (Elem h ks).
Fixpoint elem_induction (e : elem) : P e :=
  match e with
  | Elem h ks =>
      H h ks ((fix each (l : list (elem + str)) : forall c, In (inl c) l -> P c :=
                 match l with
                 | [] => fun c I => match I with end
                 | x :: l => fun c I =>
                     match I with
                     | or_introl E => match x return x = inl c -> P c with
                                      | inl c' => fun E => match E in _ = y return match y with inl z => P z | inr _ => True end with eq_refl => elem_induction c' end
                                      | inr s => fun E => match E in _ = y return match y with inl z => P z | inr _ => True end with eq_refl => Logic.I end
                                      end E
                     | or_intror J => each l c J
                     end
                 end) ks)
  end.
End ElemInd.

Section VisitFacts.
Context {St : Type} (callback : list elem -> St -> res (head * St)).
(* what one call of the callback on every element amounts to *)
Fixpoint visits (anc : list elem) (e : elem) (s : St) (e' : elem) (s' : St) {struct e} : Prop :=
  let '(Elem h ks) := e in
  exists h' s1, callback (anc ++ [e]) s = Ok (h', s1) /\ exists ks', e' = Elem h' ks' /\
  (fix each (l l' : list (elem + str)) (s s' : St) : Prop :=
     match l, l' with
     | [], [] => s' = s
     | inl c :: l, inl c' :: l' => exists t, visits (anc ++ [Elem h' ks]) c s c' t /\ each l l' t s'
     | inr a :: l, inr a' :: l' => a = a' /\ each l l' s s'
     | _, _ => False
     end) ks ks' s1 s'.
Lemma visit_visits e : forall anc s p s', visit callback (anc ++ [e]) e s = Ok (p, s') -> exists e', p = anc ++ [e'] /\ visits anc e s e' s'.
Proof.
  induction e as [h ks IH] using elem_induction. intros anc s p s' H. cbn [visit] in H.
  destruct (callback (anc ++ [Elem h ks]) s) as [[h' s1]|] eqn:Ec; cbn [bind] in H; [|discriminate].
  rewrite set_last_snoc in H. change (set_head (Elem h ks) h') with (Elem h' ks) in H.
  match type of H with context[?f ks [] (anc ++ [Elem h' ks]) s1] => set (EACH := f) in H end.
  assert (G : forall l done s q d t, (forall c, In (inl c) l -> In (inl c) ks) -> EACH l done (anc ++ [Elem h' ks]) s = Ok (q, d, t) ->
    q = anc ++ [Elem h' ks] /\ exists l', d = done ++ l' /\
    (fix each (l l' : list (elem + str)) (s s' : St) : Prop :=
     match l, l' with
     | [], [] => s' = s
     | inl c :: l, inl c' :: l' => exists t, visits (anc ++ [Elem h' ks]) c s c' t /\ each l l' t s'
     | inr a :: l, inr a' :: l' => a = a' /\ each l l' s s'
     | _, _ => False
     end) l l' s t).
  { induction l as [|[c|a] l IHl]; intros done s0 q d t I E.
    - cbn in E. injection E as <- <- <-. split; [reflexivity|]. exists []. rewrite app_nil_r. split; reflexivity.
    - cbn in E. destruct (visit callback ((anc ++ [Elem h' ks]) ++ [c]) c s0) as [[p1 t1]|] eqn:Ev; cbn [bind] in E; [|discriminate].
      apply IH in Ev; [|apply I; left; reflexivity]. destruct Ev as (c' & -> & V). rewrite last_snoc in E. cbn [bind] in E. rewrite removelast_last in E.
      apply IHl in E as (-> & l' & -> & W); [|intros c0 J; apply I; right; exact J]. split; [reflexivity|].
      exists (inl c' :: l'). split; [rewrite <- app_assoc; reflexivity|]. exists t1. split; assumption.
    - cbn in E. apply IHl in E as (-> & l' & -> & W); [|intros c0 J; apply I; right; exact J]. split; [reflexivity|].
      exists (inr a :: l'). split; [rewrite <- app_assoc; reflexivity|]. split; [reflexivity|exact W]. }
  destruct (EACH ks [] (anc ++ [Elem h' ks]) s1) as [[[q d] t]|] eqn:Ee; cbn [bind] in H; [|discriminate].
  apply G in Ee as (-> & l' & -> & W); [|auto]. rewrite removelast_last in H. injection H as <- <-.
  exists (Elem h' l'). split; [reflexivity|]. cbn [visits]. exists h', s1. split; [exact Ec|]. exists l'. split; [reflexivity|exact W].
Qed.
Lemma visits_shape e : forall anc s e' s', visits anc e s e' s' -> same_shape e e'.
Proof.
  induction e as [h ks IH] using elem_induction. intros anc s e' s' (h' & s1 & _ & ks' & -> & W). cbn [same_shape].
  assert (G : forall c, In (inl c) ks -> forall anc s e' s', visits anc c s e' s' -> same_shape c e') by exact IH. clear IH.
  assert (X : forall l, (forall c, In (inl c) l -> In (inl c) ks) -> forall l' s t,
    (fix each (l l' : list (elem + str)) (s s' : St) : Prop :=
     match l, l' with
     | [], [] => s' = s
     | inl c :: l, inl c' :: l' => exists t, visits (anc ++ [Elem h' ks]) c s c' t /\ each l l' t s'
     | inr a :: l, inr a' :: l' => a = a' /\ each l l' s s'
     | _, _ => False
     end) l l' s t ->
    (fix each (l l' : list (elem + str)) : Prop :=
     match l, l' with
     | [], [] => True
     | inl c :: l, inl c' :: l' => same_shape c c' /\ each l l'
     | inr s :: l, inr s' :: l' => s = s' /\ each l l'
     | _, _ => False
     end) l l').
  { induction l as [|[c|a] l IHl]; intros I [|[c'|a'] l'] s0 t E; try contradiction; [exact Logic.I| |].
    - destruct E as (t1 & V & E). split; [eapply G; [apply I; left; reflexivity|exact V]|]. eapply IHl; [intros c0 J; apply I; right; exact J|exact E].
    - destruct E as (-> & E). split; [reflexivity|]. eapply IHl; [intros c0 J; apply I; right; exact J|exact E]. }
  eapply X; [auto|exact W].
Qed.
End VisitFacts.

(* a callback that leaves the elements alone *)
Lemma run_all_app {X St} (f : X -> St -> res St) l l' s : run_all f (l ++ l') s = let! t := run_all f l s in run_all f l' t.
Proof. revert s. induction l as [|x l IH]; intros s; cbn; [reflexivity|]. destruct (f x s); cbn [bind]; [apply IH|reflexivity]. Qed.
Lemma visit_watching {St} (f : list elem -> St -> res St) e : forall anc s,
  visit (watching f) (anc ++ [e]) e s = let! t := run_all f (paths anc e) s in Ok (anc ++ [e], t).
Proof.
  induction e as [h ks IH] using elem_induction. intros anc s. cbn [visit paths run_all]. unfold watching at 1.
  rewrite last_head_snoc. cbn [bind ehead]. destruct (f (anc ++ [Elem h ks]) s) as [s1|x]; cbn [bind]; [|reflexivity].
  rewrite set_last_snoc. change (set_head (Elem h ks) h) with (Elem h ks).
  match goal with |- context[?g ks [] (anc ++ [Elem h ks]) s1] => set (EACH := g) end.
  match goal with |- context[run_all f (?g ks) s1] => set (PP := g) end.
  assert (G : forall l done s, (forall c, In (inl c) l -> In (inl c) ks) -> EACH l done (anc ++ [Elem h ks]) s =
     let! t := run_all f (PP l) s in Ok (anc ++ [Elem h ks], done ++ l, t)).
  { induction l as [|[c|a] l IHl]; intros done s0 I.
    - cbn. rewrite app_nil_r. reflexivity.
    - cbn [EACH PP]. fold EACH. fold PP. rewrite IH by (apply I; left; reflexivity). rewrite run_all_app.
      destruct (run_all f (paths (anc ++ [Elem h ks]) c) s0) as [t|]; cbn [bind]; [|reflexivity].
      rewrite last_snoc. cbn [bind]. rewrite removelast_last. rewrite IHl by (intros c0 J; apply I; right; exact J).
      destruct (run_all f (PP l) t); cbn [bind]; [|reflexivity]. rewrite <- app_assoc. reflexivity.
    - cbn [EACH PP]. fold EACH. fold PP. rewrite IHl by (intros c0 J; apply I; right; exact J).
      destruct (run_all f (PP l) s0); cbn [bind]; [|reflexivity]. rewrite <- app_assoc. reflexivity. }
  rewrite G by auto. destruct (run_all f (PP ks) s1) as [t|]; cbn [bind]; [|reflexivity]. rewrite removelast_last. reflexivity.
Qed.

Lemma style_styled rs t t' : all_plain t -> sheet_ok rs -> style rs t = Ok t' -> styled rs [] t t'.
Proof.
  intros P S. unfold style, visit_tree. set (cb := fun path (_ : unit) => let! h := apply_rules rs path in Ok (h, tt)).
  destruct (visit cb [t] t tt) as [[p u]|] eqn:Ev; cbn [bind]; [|discriminate].
  apply (visit_visits cb t []) in Ev as (e' & -> & V). cbn [app]. change (pyget [e'] (-1)) with (@Ok elem e'). cbn [bind fst]. intros [= <-].
  revert P V. generalize (@nil elem) as anc, tt at 1 as s. revert u e'.
  induction t as [h ks IH] using elem_induction. intros u e' anc s (P & PK) (h' & s1 & Ec & ks' & -> & W). cbn [styled].
  unfold cb in Ec. destruct (apply_rules rs (anc ++ [Elem h ks])) as [hh|] eqn:Ea; cbn [bind] in Ec; [|discriminate]. injection Ec as -> <-.
  apply apply_rules_ok in Ea as (_ & C); [|exact P|exact S]. split; [exact C|].
  assert (X : forall l, (forall c, In (inl c) l -> In (inl c) ks) ->
    (fix each (ks : list (elem + str)) : Prop := match ks with [] => True | inl c :: ks => all_plain c /\ each ks | inr _ :: ks => each ks end) l -> forall l' s t,
    (fix each (l l' : list (elem + str)) (s s' : unit) : Prop :=
     match l, l' with
     | [], [] => s' = s
     | inl c :: l, inl c' :: l' => exists t, visits cb (anc ++ [Elem h' ks]) c s c' t /\ each l l' t s'
     | inr a :: l, inr a' :: l' => a = a' /\ each l l' s s'
     | _, _ => False
     end) l l' s t ->
    (fix each (l l' : list (elem + str)) : Prop :=
     match l, l' with
     | [], [] => True
     | inl c :: l, inl c' :: l' => styled rs (anc ++ [Elem h' ks]) c c' /\ each l l'
     | inr s :: l, inr s' :: l' => s = s' /\ each l l'
     | _, _ => False
     end) l l').
  { induction l as [|[c|a] l IHl]; intros I PP [|[c'|a'] l'] s0 t E; try contradiction; [exact Logic.I| |].
    - destruct E as (t1 & V & E). destruct PP as (P1 & P2). split; [eapply IH; [apply I; left; reflexivity|exact P1|exact V]|].
      eapply IHl; [intros c0 J; apply I; right; exact J|exact P2|exact E].
    - destruct E as (-> & E). split; [reflexivity|]. eapply IHl; [intros c0 J; apply I; right; exact J|exact PP|exact E]. }
  eapply X; [auto|exact PK|exact W].
Qed.

(* ---- the lemmas the theorems are ---- *)
Lemma rule_matching : forall r path, path <> [] -> pattern r <> [] ->
  (forall b, rule_match r path = Ok b -> (b = true <-> rule_selects r path)) /\
  ((forall s e, In s (pattern r) -> In e path -> exists b, sel_match s e = Ok b) -> exists b, rule_match r path = Ok b).
Proof. intros r path N1 N2. split; [intros b; apply rule_match_spec|apply rule_match_total; assumption]. Qed.
(* which tests of a selector can fail with an exception *)
Definition safe_class (c : aclass) : bool := match c with InheritInt | IntAttr | IntZero | InheritFloat | URIAttr | FontAttr => false | _ => true end.
Lemma safe_parse c p t : safe_class c = true -> exists v, parse c p t = Ok v.
Proof. destruct c; cbn; try discriminate; eauto. Qed.

Lemma class_of_base k n c : dget str_eqb base_attlist n = Some c -> class_of k n = Some c.
Proof.
  unfold class_of, attlist. generalize (match k with EAction | EScore | EBar => [(L "player", Player)] | _ => @nil (str * aclass) end). intros _.
  assert (G : forall d d' : list (str * aclass), dget str_eqb d n = Some c -> dget str_eqb (d ++ d') n = Some c).
  { induction d as [|[k' v'] d IH]; cbn; [discriminate|]. intros d'. destruct (str_eqb n k'); [auto|apply IH]. }
  apply G.
Qed.
Lemma inherit_base : forall up n c, up <> [] -> dget str_eqb base_attlist n = Some c -> is_inherit c = true ->
  get_attr up n = match nearest up n, default c with Some v, _ => Ok v | None, Some v => Ok v | None, None => Exc AttributeError end.
Proof.
  induction up as [|h up IH]; intros n c N B I; [contradiction|]. cbn [get_attr nearest]. rewrite (class_of_base (kind h) n c B).
  destruct (dget str_eqb (attrs h) n) as [a|]; [reflexivity|]. rewrite I. cbn [andb]. destruct up as [|h' up]; cbn iota; [cbn [nearest]; destruct (default c); reflexivity|].
  apply IH; [discriminate|exact B|exact I].
Qed.
Lemma inherit_not : forall h up n c, class_of (kind h) n = Some c -> is_inherit c = false ->
  get_attr (h :: up) n = match dget str_eqb (attrs h) n, default c with Some a, _ => Ok (a_value a) | None, Some v => Ok v | None, None => Exc AttributeError end.
Proof.
  intros h up n c C I. cbn [get_attr]. rewrite C, I. cbn [andb]. destruct (dget str_eqb (attrs h) n); [reflexivity|]. destruct (default c); reflexivity.
Qed.
Lemma inherit_partial : forall h up n c, class_of (kind h) n = Some c ->
  (is_inherit c = false ->
     get_attr (h :: up) n = match dget str_eqb (attrs h) n, default c with Some a, _ => Ok (a_value a) | None, Some v => Ok v | None, None => Exc AttributeError end) /\
  (is_inherit c = true -> (n <> L "fill" \/ nearest [h] n <> None) ->
     get_attr (h :: up) n = match nearest (h :: up) n, default c with Some v, _ => Ok v | None, Some v => Ok v | None, None => Exc AttributeError end).
Proof.
  intros h up n c C. split; [intros I; apply inherit_not; assumption|]. intros I F.
  destruct (dget str_eqb (attrs h) n) as [a|] eqn:Ea.
  - cbn [get_attr nearest]. rewrite C, Ea. reflexivity.
  - destruct F as [F|F]; [|cbn [nearest] in F; rewrite Ea in F; contradiction].
    apply inherit_base; [discriminate| |exact I].
    assert (G : forall k m d, dget str_eqb (attlist k) m = Some d -> is_inherit d = true -> m <> L "fill" -> dget str_eqb base_attlist m = Some d).
    { intros k m d H J K. unfold attlist in H.
      assert (A : forall d1 d2 : list (str * aclass), dget str_eqb (d1 ++ d2) m = Some d -> dget str_eqb d1 m = Some d \/ dget str_eqb d2 m = Some d).
      { induction d1 as [|[k' v'] d1 IH]; cbn; [auto|]. intros d2. destruct (str_eqb m k'); [auto|apply IH]. }
      apply A in H as [H|H]; [exact H|]. exfalso.
      assert (B : forall l : list (str * aclass), forallb (fun '(x, y) => negb (is_inherit y) || str_eqb x (L "fill")) l = true -> dget str_eqb l m = Some d -> False).
      { intros l Q R. apply (dget_in str_eqb sq) in R. rewrite forallb_forall in Q. apply Q in R. rewrite J in R. cbn in R. apply sq in R. contradiction. }
      revert H. apply B. destruct k; reflexivity. }
    apply (G (kind h) n c); assumption.
Qed.
Lemma inherit_fill_refuted : exists h up c, kind h = EPoint /\ class_of (kind h) (L "fill") = Some c /\ is_inherit c = true /\
  nearest (h :: up) (L "fill") = None /\ default c = Some (VBool true) /\ get_attr (h :: up) (L "fill") = Exc AttributeError.
Proof. exists (mkhead EPoint [] []), [mkhead EPosition [] []; mkhead EBoard [] []], Fill. repeat split. Qed.

Lemma visit_paths : forall St (f : list elem -> St -> res St) t s,
  visit_tree (watching f) t s = let! u := run_all f (paths [] t) s in Ok (t, u).
Proof.
  intros St f t s. unfold visit_tree. pose proof (visit_watching f t [] s) as H. cbn [app] in H. rewrite H.
  destruct (run_all f (paths [] t) s) as [u|]; cbn [bind]; reflexivity.
Qed.
Lemma visit_path_back : forall St (cb : list elem -> St -> res (head * St)) anc e s p u,
  visit cb (anc ++ [e]) e s = Ok (p, u) -> exists e', p = anc ++ [e'] /\ same_shape e e'.
Proof. intros St cb anc e s p u H. apply visit_visits in H as (e' & -> & V). exists e'. split; [reflexivity|]. eapply visits_shape, V. Qed.
Lemma visit_complete : forall St (f : list elem -> St -> res St) (cb : list elem -> St -> res (head * St)) t s,
  visit_tree (watching f) t s = (let! u := run_all f (paths [] t) s in Ok (t, u)) /\
  forall anc p u, visit cb (anc ++ [t]) t s = Ok (p, u) -> exists t', p = anc ++ [t'] /\ same_shape t t'.
Proof. intros. split; [apply visit_paths|intros anc p u; apply visit_path_back]. Qed.

Lemma cascade_partial : forall rs t t', all_plain t -> sheet_ok rs -> style rs t = Ok t' -> styled rs [] t t'.
Proof. exact style_styled. Qed.
