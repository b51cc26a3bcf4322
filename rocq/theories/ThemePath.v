(* Styling an element depends on the heads and the texts along its path. *)
From Verif Require Import Py PyFacts Dict DictFacts UtilModel BoardModel ImageModel ImageSpec ImageCss ImageTree.
Open Scope string_scope.
Open Scope list_scope.
Open Scope Z_scope.

(* an element without the elements inside it *)
Definition stub (e : elem) : elem := Elem (ehead e) (map inr (texts e)).
Lemma texts_stub e : texts (stub e) = texts e.
Proof. unfold stub, texts at 1. cbn [children]. rewrite flat_map_concat_map, map_map. induction (texts e) as [|s l IH]; [reflexivity|]. cbn. f_equal. exact IH. Qed.
Lemma ehead_stub e : ehead (stub e) = ehead e.
Proof. reflexivity. Qed.
Lemma stub_stub e : stub (stub e) = stub e.
Proof. unfold stub at 1. rewrite texts_stub, ehead_stub. reflexivity. Qed.
Lemma sel_match_stub s e : sel_match s (stub e) = sel_match s e.
Proof. unfold sel_match. rewrite ehead_stub, texts_stub. reflexivity. Qed.
Lemma match_up_stub rest : forall first pat, match_up first pat (map stub rest) = match_up first pat rest.
Proof.
  induction rest as [|e rest IH]; intros first pat; [reflexivity|]. cbn [map match_up]. destruct pat as [|s pat]; [reflexivity|]. rewrite sel_match_stub.
  destruct (sel_match s e) as [m|]; cbn [bind]; [|reflexivity]. destruct m; [destruct pat; [reflexivity|apply IH]|]. destruct first; [reflexivity|apply IH].
Qed.
Lemma rule_match_stub r path : rule_match r (map stub path) = rule_match r path.
Proof. unfold rule_match. rewrite <- map_rev, match_up_stub. destruct path; reflexivity. Qed.
Lemma map_snoc_inv {X Y} (f : X -> Y) l m y : map f l = m ++ [y] -> exists l' x, l = l' ++ [x] /\ map f l' = m /\ f x = y.
Proof.
  intros H. destruct l as [|x l _] using rev_ind; [destruct m; discriminate|]. rewrite map_app in H. cbn in H. apply app_inj_tail in H as (A & B). exists l, x. auto.
Qed.
Lemma rule_apply_stub r anc e : rule_apply r (map stub anc ++ [stub e]) = rule_apply r (anc ++ [e]).
Proof.
  unfold rule_apply. change [stub e] with (map stub [e]). rewrite <- map_app, rule_match_stub. rewrite map_app. cbn [map]. rewrite !last_head_snoc. reflexivity.
Qed.
Lemma stub_set_head e h : stub (set_head e h) = set_head (stub e) h.
Proof. unfold stub, set_head. cbn [ehead]. f_equal. Qed.
Lemma apply_rules_stub rs : forall anc e, apply_rules rs (map stub anc ++ [stub e]) = apply_rules rs (anc ++ [e]).
Proof.
  induction rs as [|r rs IH]; intros anc e; cbn [apply_rules]; [rewrite !last_head_snoc; reflexivity|].
  rewrite rule_apply_stub. destruct (rule_apply r (anc ++ [e])) as [h|]; cbn [bind]; [|reflexivity]. rewrite !set_last_snoc, <- stub_set_head. apply IH.
Qed.
Lemma apply_rules_alike rs anc anc' e e' : map stub anc = map stub anc' -> stub e = stub e' -> apply_rules rs (anc ++ [e]) = apply_rules rs (anc' ++ [e']).
Proof. intros A E. rewrite <- (apply_rules_stub rs anc e), <- (apply_rules_stub rs anc' e'), A, E. reflexivity. Qed.

(* styling the elements of a path one after the other *)
Fixpoint walk (rs : list rule) (anc todo : list elem) : res (list elem) :=
  match todo with
  | [] => Ok anc
  | e :: todo => let! h := apply_rules rs (anc ++ [e]) in walk rs (anc ++ [set_head e h]) todo
  end.
Lemma walk_alike rs : forall p p' anc anc', map stub anc = map stub anc' -> map stub p = map stub p' ->
  match walk rs anc p, walk rs anc' p' with
  | Ok q, Ok q' => map stub q = map stub q'
  | Exc x, Exc x' => x = x'
  | _, _ => False
  end.
Proof.
  induction p as [|e p IH]; intros [|e' p'] anc anc' A P; try discriminate; cbn [walk]; [exact A|]. cbn [map] in P.
  assert (Pe : stub e = stub e') by congruence. assert (Pp : map stub p = map stub p') by congruence.
  rewrite (apply_rules_alike rs anc anc' e e' A Pe). destruct (apply_rules rs (anc' ++ [e'])) as [h|x]; cbn [bind]; [|reflexivity].
  apply IH; [|exact Pp]. rewrite !map_app. cbn [map]. rewrite !stub_set_head, A, Pe. reflexivity.
Qed.
Lemma walk_anc rs : forall p anc q, walk rs anc p = Ok q -> exists q', q = anc ++ q' /\ List.length q' = List.length p.
Proof.
  induction p as [|e p IH]; intros anc q H; cbn [walk] in H; [injection H as <-; exists []; rewrite app_nil_r; auto|].
  destruct (apply_rules rs (anc ++ [e])) as [h|]; cbn [bind] in H; [|discriminate]. apply IH in H as (q' & -> & E).
  exists (set_head e h :: q'). rewrite <- app_assoc. cbn. split; [reflexivity|f_equal; exact E].
Qed.

(* paths below some ancestors *)
Lemma paths_anc e : forall anc, paths anc e = map (app anc) (paths [] e).
Proof.
  induction e as [h ks IH] using elem_induction. intros anc. cbn [paths map]. f_equal.
  assert (G : forall l, (forall c, In (inl c) l -> In (inl c) ks) ->
    (fix each (l : list (elem + str)) : list (list elem) := match l with [] => [] | inl c :: l => paths (anc ++ [Elem h ks]) c ++ each l | inr _ :: l => each l end) l =
    map (app anc) ((fix each (l : list (elem + str)) : list (list elem) := match l with [] => [] | inl c :: l => paths ([] ++ [Elem h ks]) c ++ each l | inr _ :: l => each l end) l)).
  { induction l as [|[c|s] l IHl]; intros I; [reflexivity| |apply IHl; intros c J; apply I; right; exact J].
    rewrite map_app, IHl by (intros c0 J; apply I; right; exact J). f_equal. rewrite IH by (apply I; left; reflexivity). rewrite (IH c (I c (or_introl eq_refl)) ([] ++ [Elem h ks])).
    rewrite map_map. apply map_ext. intros p. rewrite <- app_assoc. reflexivity. }
  apply G. auto.
Qed.
Definition kid_paths (ks : list kid) : list (list elem) := flat_map (fun c => match c with inl c => paths [] c | inr _ => [] end) ks.
Lemma paths_eq h ks : paths [] (Elem h ks) = [Elem h ks] :: map (cons (Elem h ks)) (kid_paths ks).
Proof.
  cbn [paths app]. f_equal. unfold kid_paths. induction ks as [|[c|s] ks' IH] at 2 4; [reflexivity| |exact IH].
  cbn [flat_map]. rewrite map_app, IH. f_equal. rewrite paths_anc. reflexivity.
Qed.

(* styling a tree is styling its paths *)
Definition nobody : elem := bare EBoard [].
Definition walked (rs : list rule) (anc p q : list elem) : Prop :=
  exists q0, walk rs anc p = Ok q0 /\ map stub q0 = map stub (anc ++ q) /\ child0 (last q nobody) = child0 (last p nobody).
Lemma walked_anc rs anc anc' p q : map stub anc = map stub anc' -> walked rs anc p q -> walked rs anc' p q.
Proof.
  intros A (q0 & W & M & C). pose proof (walk_alike rs p p anc anc' A eq_refl) as H. rewrite W in H. destruct (walk rs anc' p) as [q1|] eqn:E; [|contradiction].
  exists q1. split; [exact E|]. split; [|exact C]. rewrite <- H, M, !map_app, A. reflexivity.
Qed.
Lemma paths_head e p : In p (paths [] e) -> exists r, p = e :: r.
Proof. destruct e as [h ks]. rewrite paths_eq. intros [<-|I]; [exists []; reflexivity|]. apply in_map_iff in I as (r & <- & _). exists r. reflexivity. Qed.
Lemma last_cons_ne {X} (x : X) l d : l <> [] -> last (x :: l) d = last l d.
Proof. destruct l; [intros N; contradiction|reflexivity]. Qed.
Definition styling (rs : list rule) := fun path (_ : unit) => let! h := apply_rules rs path in Ok (h, tt).
Lemma visit_styling rs e : forall anc, (forall p, In p (paths [] e) -> exists q, walk rs anc p = Ok q) ->
  exists e', visit (styling rs) (anc ++ [e]) e tt = Ok (anc ++ [e'], tt) /\ texts e' = texts e /\ child0 e' = child0 e /\
  apply_rules rs (anc ++ [e]) = Ok (ehead e') /\ Forall2 (walked rs anc) (paths [] e) (paths [] e').
Proof.
  induction e as [h ks IH] using elem_induction. intros anc A. cbn [visit]. unfold styling at 1.
  destruct (A [Elem h ks]) as (q0 & W0); [rewrite paths_eq; left; reflexivity|]. cbn [walk] in W0. destruct (apply_rules rs (anc ++ [Elem h ks])) as [h'|] eqn:E0; [|discriminate].
  cbn [bind] in W0. injection W0 as <-. cbn [bind]. rewrite set_last_snoc. change (set_head (Elem h ks) h') with (Elem h' ks).
  match goal with |- context[?f ks [] (anc ++ [Elem h' ks]) tt] => set (EACH := f) end.
  assert (G : forall l done, (forall c, In (inl c) l -> In (inl c) ks) -> exists l', EACH l done (anc ++ [Elem h' ks]) tt = Ok (anc ++ [Elem h' ks], done ++ l', tt) /\
     flat_map (fun c : kid => match c with inl _ => [] | inr s => [s] end) l' = flat_map (fun c : kid => match c with inl _ => [] | inr s => [s] end) l /\
     child0 (Elem h' l') = child0 (Elem h' l) /\
     Forall2 (walked rs (anc ++ [Elem h' ks])) (kid_paths l) (kid_paths l')).
  { induction l as [|[c|s] l IHl]; intros done I.
    - exists []. cbn. rewrite app_nil_r. repeat split. constructor.
    - destruct (IH c (I c (or_introl eq_refl)) (anc ++ [Elem h' ks])) as (c' & V & T & C0 & R & F).
      { intros p J. destruct (A (Elem h ks :: p)) as (q & W).
        - rewrite paths_eq. right. apply in_map. apply in_flat_map. exists (inl c). split; [apply I; left; reflexivity|exact J].
        - cbn [walk] in W. rewrite E0 in W. cbn [bind] in W. exists q. exact W. }
      destruct (IHl (done ++ [inl c'])) as (l' & E & TL & CL & FL); [intros c0 J; apply I; right; exact J|].
      exists (inl c' :: l'). split; [|split; [exact TL|split; [reflexivity|unfold kid_paths; cbn [flat_map]; apply Forall2_app; assumption]]].
      cbn [EACH]. fold EACH. rewrite V. cbn [bind]. rewrite last_snoc. cbn [bind]. rewrite removelast_last, E, <- app_assoc. reflexivity.
    - destruct (IHl (done ++ [inr s])) as (l' & E & TL & CL & FL); [intros c0 J; apply I; right; exact J|].
      exists (inr s :: l'). split; [|split; [cbn [flat_map app]; rewrite TL; reflexivity|split; [reflexivity|exact FL]]].
      cbn [EACH]. fold EACH. rewrite E, <- app_assoc. reflexivity. }
  destruct (G ks [] (fun c I => I)) as (ks' & E & T & C0 & F). rewrite E. cbn [bind app]. rewrite removelast_last.
  exists (Elem h' ks'). split; [reflexivity|]. split; [exact T|]. split; [rewrite C0; reflexivity|]. split; [reflexivity|].
  rewrite !paths_eq. constructor.
  - exists (anc ++ [Elem h' ks]). split; [cbn [walk]; rewrite E0; reflexivity|]. split; [|cbn [last]; rewrite C0; reflexivity].
    rewrite !map_app. cbn [map]. f_equal. f_equal. unfold stub. cbn [ehead]. f_equal. f_equal. unfold texts. cbn [children]. symmetry. exact T.
  - clear E G EACH. assert (NE : forall l p, In p (kid_paths l) -> p <> []).
    { intros l p I. apply in_flat_map in I as ([c|s] & _ & I); [|destruct I]. apply paths_head in I as (r & ->). discriminate. }
    assert (N1 := NE ks). assert (N2 := NE ks'). clear NE. revert N1 N2. induction F as [|p q P Q Wd F IHF]; intros N1 N2; cbn [map]; constructor.
    + destruct Wd as (q0 & W & M & C). exists q0. split; [cbn [walk]; rewrite E0; exact W|]. split.
      * rewrite M, !map_app, <- app_assoc. cbn [map app]. f_equal. f_equal. unfold stub. cbn [ehead]. f_equal. f_equal. unfold texts. cbn [children]. symmetry. exact T.
      * rewrite !last_cons_ne; [exact C|apply N1; left; reflexivity|apply N2; left; reflexivity].
    + apply IHF; intros x I; [apply N1|apply N2]; right; exact I.
Qed.
Lemma style_paths rs t : (forall p, In p (paths [] t) -> exists q, walk rs [] p = Ok q) ->
  exists t', style rs t = Ok t' /\ apply_rules rs [t] = Ok (ehead t') /\ Forall2 (walked rs []) (paths [] t) (paths [] t').
Proof.
  intros A. destruct (visit_styling rs t [] A) as (t' & V & _ & _ & R & F). exists t'. split; [|split; assumption].
  unfold style, visit_tree. unfold styling in V. cbn [app] in V. rewrite V. cbn [bind]. reflexivity.
Qed.
