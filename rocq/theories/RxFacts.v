(* What a match of the backtracking matcher looks like *)
From Verif Require Import Py Re Rx.
Open Scope nat_scope.

Inductive steps : rx -> spot -> str -> spot -> Prop :=
| s_eps : forall st, steps XEps st [] st
| s_chr : forall p c s f g, inset p c = true -> steps (XChr p) (mkspot f (c :: s) g) [c] (mkspot false s g)
| s_cat : forall a b st u st1 v st2, steps a st u st1 -> steps b st1 v st2 -> steps (XCat a b) st (u ++ v) st2
| s_altl : forall a b st u st1, steps a st u st1 -> steps (XAlt a b) st u st1
| s_altr : forall a b st u st1, steps b st u st1 -> steps (XAlt a b) st u st1
| s_star0 : forall a st, steps (XStar a) st [] st
| s_star1 : forall a st u st1 v st2, steps a st u st1 -> steps (XStar a) st1 v st2 -> steps (XStar a) st (u ++ v) st2
| s_group : forall n a st u st1, steps a st u st1 -> steps (XGroup n a) st u (mkspot (fresh st1) (left st1) ((n, u) :: caps st1))
| s_bol : forall st, fresh st = true -> steps XBol st [] st
| s_eol : forall st, at_eol (left st) = true -> steps XEol st [] st.

Lemma steps_left : forall r st w st', steps r st w st' -> left st = w ++ left st'.
Proof.
  induction 1; cbn [left app] in *; try reflexivity; try assumption.
  - rewrite IHsteps1, IHsteps2, app_assoc. reflexivity.
  - rewrite IHsteps1, IHsteps2, app_assoc. reflexivity.
Qed.
Lemma between_app : forall w s, between (w ++ s) s = w.
Proof.
  intros. unfold between. rewrite app_length. replace (List.length w + List.length s - List.length s) with (List.length w) by lia.
  rewrite firstn_app, Nat.sub_diag, firstn_all. cbn. apply app_nil_r.
Qed.
Lemma run_steps : forall r k st x, run r k st = Some x -> exists w st', steps r st w st' /\ k st' = Some x.
Proof.
  induction r; intros k st x H; cbn [run] in H.
  - exists [], st. split; [constructor|exact H].
  - destruct st as [f l g]. cbn [left caps] in H. destruct l as [|d s]; [discriminate|]. destruct (inset c d) eqn:E; [|discriminate].
    exists [d], (mkspot false s g). split; [constructor; exact E|exact H].
  - apply IHr1 in H. destruct H as (u & st1 & S1 & H). apply IHr2 in H. destruct H as (v & st2 & S2 & H).
    exists (u ++ v), st2. split; [econstructor; eassumption|exact H].
  - destruct (run r1 k st) eqn:E.
    + injection H as <-. apply IHr1 in E. destruct E as (u & st1 & S1 & E). exists u, st1. split; [apply s_altl; exact S1|exact E].
    + apply IHr2 in H. destruct H as (u & st1 & S1 & H). exists u, st1. split; [apply s_altr; exact S1|exact H].
  - revert H. generalize (List.length (left st)) as n. intros n. revert st. induction n as [|n IHn]; intros st H.
    + exists [], st. split; [apply s_star0|exact H].
    + match type of H with match ?e with _ => _ end = _ => destruct e as [y|] eqn:E end.
      * injection H as ->. apply IHr in E. destruct E as (u & st1 & S1 & E).
        destruct (Nat.ltb _ _); [|discriminate]. apply IHn in E. destruct E as (v & st2 & S2 & E).
        exists (u ++ v), st2. split; [eapply s_star1; eassumption|exact E].
      * exists [], st. split; [apply s_star0|exact H].
  - apply IHr in H. destruct H as (u & st1 & S1 & H). pose proof (steps_left _ _ _ _ S1) as E. rewrite E, between_app in H.
    eexists u, _. split; [apply s_group; exact S1|exact H].
  - destruct (fresh st) eqn:E; [|discriminate]. exists [], st. split; [constructor; exact E|exact H].
  - destruct (at_eol (left st)) eqn:E; [|discriminate]. exists [], st. split; [constructor; exact E|exact H].
Qed.

(* inversion *)
Lemma inv_cat : forall a b st w st', steps (XCat a b) st w st' -> exists u st1 v, w = u ++ v /\ steps a st u st1 /\ steps b st1 v st'.
Proof. intros a b st w st' H. inversion H; subst. eauto 8. Qed.
Lemma inv_alt : forall a b st w st', steps (XAlt a b) st w st' -> steps a st w st' \/ steps b st w st'.
Proof. intros a b st w st' H. inversion H; subst; auto. Qed.
Lemma inv_group : forall n a st w st', steps (XGroup n a) st w st' -> exists st1, steps a st w st1 /\ st' = mkspot (fresh st1) (left st1) ((n, w) :: caps st1).
Proof. intros n a st w st' H. inversion H; subst. eauto. Qed.
Lemma inv_chr : forall p st w st', steps (XChr p) st w st' -> exists c, w = [c] /\ inset p c = true /\ caps st' = caps st /\ fresh st' = false.
Proof. intros p st w st' H. inversion H; subst. eauto. Qed.
Lemma inv_bol : forall st w st', steps XBol st w st' -> w = [] /\ st' = st /\ fresh st = true.
Proof. intros st w st' H. inversion H; subst. auto. Qed.
Lemma inv_eol : forall st w st', steps XEol st w st' -> w = [] /\ st' = st /\ at_eol (left st) = true.
Proof. intros st w st' H. inversion H; subst. auto. Qed.
Lemma inv_eps : forall st w st', steps XEps st w st' -> w = [] /\ st' = st.
Proof. intros st w st' H. inversion H; subst. auto. Qed.
Lemma inv_lit : forall s st w st', steps (xlit s) st w st' -> w = L s /\ caps st' = caps st /\ (fresh st' = true -> fresh st = true /\ w = []).
Proof.
  intros s. unfold xlit. induction (L s) as [|c l IH]; intros st w st' H; cbn [fold_right] in H.
  - apply inv_eps in H. destruct H as [-> ->]. auto.
  - apply inv_cat in H. destruct H as (u & st1 & v & -> & H1 & H2). apply inv_chr in H1. destruct H1 as (d & -> & I & C & F).
    apply IH in H2. destruct H2 as (-> & C2 & F2). cbn [inset] in I. apply Ascii.eqb_eq in I. subst d.
    split; [reflexivity|]. split; [congruence|]. intros G. apply F2 in G. destruct G. congruence.
Qed.
(* a match says nothing about characters its pattern has no class for *)
Fixpoint allows (r : rx) (c : ascii) : bool :=
  match r with
  | XEps | XBol | XEol => false
  | XChr p => inset p c
  | XCat a b | XAlt a b => if allows a c then true else allows b c
  | XStar a | XGroup _ a => allows a c
  end.
Lemma steps_allows : forall r st w st', steps r st w st' -> forall c, In c w -> allows r c = true.
Proof.
  induction 1; intros d I; cbn [allows]; try (destruct I; fail).
  - destruct I as [<-|[]]. exact H.
  - apply in_app_or in I. destruct I as [I|I]; [rewrite (IHsteps1 _ I); reflexivity|rewrite (IHsteps2 _ I); destruct (allows a d); reflexivity].
  - rewrite (IHsteps _ I). reflexivity.
  - rewrite (IHsteps _ I). destruct (allows a d); reflexivity.
  - apply in_app_or in I. destruct I as [I|I]; [exact (IHsteps1 _ I)|exact (IHsteps2 _ I)].
  - exact (IHsteps _ I).
Qed.
(* the groups of a match, and that a pattern without groups sets none *)
Fixpoint groupless (r : rx) : bool :=
  match r with
  | XEps | XBol | XEol | XChr _ => true
  | XCat a b | XAlt a b => groupless a && groupless b
  | XStar a => groupless a
  | XGroup _ _ => false
  end.
Lemma steps_caps : forall r st w st', steps r st w st' -> groupless r = true -> caps st' = caps st.
Proof.
  induction 1; cbn [groupless]; intros G; try reflexivity; try discriminate.
  - apply andb_prop in G. destruct G. rewrite IHsteps2, IHsteps1; auto.
  - apply andb_prop in G. destruct G. auto.
  - apply andb_prop in G. destruct G. auto.
  - rewrite IHsteps2, IHsteps1; auto.
Qed.
Definition part (u w : str) : Prop := exists a b, w = a ++ u ++ b.
Lemma part_l : forall u a b, part u a -> part u (a ++ b).
Proof. intros u a b (x & y & ->). exists x, (y ++ b). rewrite <- !app_assoc. reflexivity. Qed.
Lemma part_r : forall u a b, part u b -> part u (a ++ b).
Proof. intros u a b (x & y & ->). exists (a ++ x), y. rewrite <- !app_assoc. reflexivity. Qed.
Lemma part_refl : forall u, part u u.
Proof. intros u. exists [], []. cbn. rewrite app_nil_r. reflexivity. Qed.
Lemma part_in : forall u w c, part u w -> In c u -> In c w.
Proof. intros u w c (a & b & ->) I. apply in_or_app. right. apply in_or_app. left. exact I. Qed.
Lemma part_trans : forall u v w, part u v -> part v w -> part u w.
Proof. intros u v w (a & b & ->) (x & y & ->). exists (x ++ a), (b ++ y). rewrite <- !app_assoc. reflexivity. Qed.
(* every group of a match is new and part of it, or was there before *)
Fixpoint named (r : rx) : list string :=
  match r with
  | XEps | XChr _ | XBol | XEol => []
  | XCat a b | XAlt a b => named a ++ named b
  | XStar a => named a
  | XGroup n a => n :: named a
  end.
Lemma steps_groups : forall r st w st', steps r st w st' -> forall n u, In (n, u) (caps st') -> In (n, u) (caps st) \/ (In n (named r) /\ part u w).
Proof.
  induction 1; intros m x I; cbn [caps named] in *; auto.
  - destruct (IHsteps2 _ _ I) as [J|[J K]]; [|right; split; [apply in_or_app; auto|apply part_r; exact K]].
    destruct (IHsteps1 _ _ J) as [J'|[J' K']]; [auto|right; split; [apply in_or_app; auto|apply part_l; exact K']].
  - destruct (IHsteps _ _ I) as [J|[J K]]; auto. right. split; [apply in_or_app; auto|exact K].
  - destruct (IHsteps _ _ I) as [J|[J K]]; auto. right. split; [apply in_or_app; auto|exact K].
  - destruct (IHsteps2 _ _ I) as [J|[J K]]; [|right; split; [exact J|apply part_r; exact K]].
    destruct (IHsteps1 _ _ J) as [J'|[J' K']]; [auto|right; split; [exact J'|apply part_l; exact K']].
  - destruct I as [E|I]; [injection E as <- <-; right; split; [left; reflexivity|apply part_refl]|].
    destruct (IHsteps _ _ I) as [J|[J K]]; auto. right. split; [right; exact J|exact K].
Qed.

(* alternatives are tried in order *)
Lemma run_alts : forall l k st x, l <> [] -> run (xalts l) k st = Some x ->
  exists l1 r l2, l = l1 ++ r :: l2 /\ run r k st = Some x /\ forall r', In r' l1 -> run r' k st = None.
Proof.
  induction l as [|r l IH]; intros k st x N H; [congruence|]. destruct l as [|r2 l].
  - exists [], r, []. repeat split; auto. intros r' [].
  - change (xalts (r :: r2 :: l)) with (XAlt r (xalts (r2 :: l))) in H. cbn [run] in H. destruct (run r k st) eqn:E.
    + injection H as <-. exists [], r, (r2 :: l). repeat split; auto. intros r' [].
    + apply IH in H; [|discriminate]. destruct H as (l1 & r' & l2 & -> & H & P). exists (r :: l1), r', l2. repeat split; auto.
      intros r'' [<-|I]; auto.
Qed.
(* one match of finditer *)
Lemma finditer_in : forall n r f s g, In g (finditer n r f s) ->
  exists f' pre s' w st, s = pre ++ s' /\ (f' = true -> f = true /\ pre = []) /\ run r Some (mkspot f' s' []) = Some st /\ steps r (mkspot f' s' []) w st /\ s' = w ++ left st /\ g = caps st.
Proof.
  induction n as [|n IH]; intros r f s g I; cbn [finditer] in I; [destruct I|].
  assert (T : forall pre s1, s = pre ++ s1 -> In g (finditer n r false s1) ->
    exists f' pre s' w st, s = pre ++ s' /\ (f' = true -> f = true /\ pre = []) /\ run r Some (mkspot f' s' []) = Some st /\ steps r (mkspot f' s' []) w st /\ s' = w ++ left st /\ g = caps st).
  { intros pre s1 E J. apply IH in J. destruct J as (f' & pre' & s' & w & st & -> & F & R & S1 & E1 & ->).
    exists f', (pre ++ pre'), s', w, st. split; [rewrite E, app_assoc; reflexivity|]. split; [intros G; apply F in G; destruct G; discriminate|]. auto. }
  destruct (run r Some (mkspot f s [])) as [st|] eqn:E.
  - pose proof (run_steps _ _ _ _ E) as (w & st' & S1 & Q). injection Q as ->. pose proof (steps_left _ _ _ _ S1) as L1. cbn [left] in L1.
    assert (H0 : g = caps st -> exists f' pre s' w st, s = pre ++ s' /\ (f' = true -> f = true /\ pre = []) /\ run r Some (mkspot f' s' []) = Some st /\ steps r (mkspot f' s' []) w st /\ s' = w ++ left st /\ g = caps st)
      by (intros ->; exists f, [], s, w, st; repeat split; auto).
    destruct (Nat.ltb (List.length (left st)) (List.length s)).
    + destruct I as [<-|I]; [apply H0; reflexivity|]. apply (T w (left st)); auto.
    + destruct I as [<-|I]; [apply H0; reflexivity|]. destruct s as [|c s']; [destruct I|]. apply (T [c] s'); auto.
  - destruct s as [|c s']; [destruct I|]. apply (T [c] s'); auto.
Qed.
