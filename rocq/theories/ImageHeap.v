(* Appending elements to elements. *)
From Verif Require Import Py PyFacts Dict DictFacts UtilModel ImageModel ImageSpec ImageCss.
Open Scope string_scope.
Open Scope list_scope.
Open Scope nat_scope.

Definition rank (k : ekind) : nat := match k with EBoard => 4 | EMatch | EPosition => 3 | ECubeholder | EField | EHome | EBar | EPoint => 2 | _ => 1 end.
Lemma hold_rank p c : may_hold p c -> rank c < rank p.
Proof.
  assert (F : forallb (fun p => forallb (fun c => negb (str_mem (ename c) (dtd_element p)) || (rank c <? rank p)) all_kinds) all_kinds = true) by (vm_compute; reflexivity).
  assert (I : forall k, In k all_kinds) by (intros []; cbn; auto 30).
  intros H. rewrite forallb_forall in F. specialize (F p (I p)). rewrite forallb_forall in F. specialize (F c (I c)).
  apply str_mem_in in H. rewrite H in F. apply Nat.ltb_lt. exact F.
Qed.
Lemma hold_not_self p : ~ may_hold p p.
Proof. intros H. apply hold_rank in H. lia. Qed.
Lemma may_hold_mem p c : str_mem (ename c) (dtd_element p) = true <-> may_hold p c.
Proof. apply str_mem_in. Qed.
Lemma step_append : forall h p c P C, nth_error h p = Some P -> nth_error h c = Some C ->
  (may_hold (c_kind P) (c_kind C) -> p <> c /\ exists h', step h (AppendElem p c) = (h', Ok tt) /\ same_but p c h h' /\
     nth_error h' p = Some (mkcell (c_kind P) (c_children P ++ [inl c]) (c_parent P)) /\
     nth_error h' c = Some (mkcell (c_kind C) (c_children C) (Some p))) /\
  (~ may_hold (c_kind P) (c_kind C) -> step h (AppendElem p c) = (h, Exc TypeError)).
Proof.
  intros h p c P C HP HC. cbn [step]. rewrite HP, HC. split; intros M.
  - assert (N : p <> c) by (intros ->; rewrite HP in HC; injection HC as ->; exact (hold_not_self _ M)). split; [exact N|].
    apply may_hold_mem in M. rewrite M. cbv zeta.
    assert (Bp : p < List.length h) by (apply nth_error_Some; congruence). assert (Bc : c < List.length h) by (apply nth_error_Some; congruence).
    rewrite nth_error_list_set by exact Bc. destruct (Nat.eqb_spec p c); [contradiction|]. rewrite HP. eexists. split; [reflexivity|]. split; [split|split].
    + rewrite !list_set_length. reflexivity.
    + intros k K1 K2. rewrite nth_error_list_set by (rewrite list_set_length; exact Bp). destruct (Nat.eqb_spec k p); [contradiction|].
      rewrite nth_error_list_set by exact Bc. destruct (Nat.eqb_spec k c); [contradiction|reflexivity].
    + rewrite nth_error_list_set by (rewrite list_set_length; exact Bp). rewrite Nat.eqb_refl. reflexivity.
    + rewrite nth_error_list_set by (rewrite list_set_length; exact Bp). destruct (Nat.eqb_spec c p); [congruence|].
      rewrite nth_error_list_set by exact Bc. rewrite Nat.eqb_refl. reflexivity.
  - destruct (str_mem _ _) eqn:E; [apply may_hold_mem in E; contradiction|reflexivity].
Qed.
Lemma step_text : forall h p P s, nth_error h p = Some P ->
  (may_hold_text (c_kind P) -> exists h', step h (AppendText p s) = (h', Ok tt) /\ same_but p p h h' /\
     nth_error h' p = Some (mkcell (c_kind P) (c_children P ++ [inr s]) (c_parent P))) /\
  (~ may_hold_text (c_kind P) -> step h (AppendText p s) = (h, Exc TypeError)).
Proof.
  intros h p P s HP. cbn [step]. rewrite HP. assert (Bp : p < List.length h) by (apply nth_error_Some; congruence). split; intros M.
  - apply str_mem_in in M. change (L "#PCDATA") with pcdata in M. rewrite M. eexists. split; [reflexivity|]. split; [split|].
    + apply list_set_length.
    + intros k K _. rewrite nth_error_list_set by exact Bp. destruct (Nat.eqb_spec k p); [contradiction|reflexivity].
    + rewrite nth_error_list_set by exact Bp. rewrite Nat.eqb_refl. reflexivity.
  - destruct (str_mem _ _) eqn:E; [apply str_mem_in in E; contradiction|reflexivity].
Qed.
Definition good (h : eheap) : Prop := valid h /\ parents_hold h.
(* cells keep their kind, their children and having a parent *)
Lemma step_good o h : good h -> good (fst (step h o)).
Proof.
  intros (V & PH). destruct o as [k|p c|p s].
  - cbn [step fst]. assert (N : forall i x, nth_error (h ++ [mkcell k [] None]) i = Some x -> nth_error h i = Some x \/ x = mkcell k [] None).
    { intros i x H. destruct (lt_dec i (List.length h)) as [B|B]; [rewrite nth_error_app1 in H by exact B; auto|]. rewrite nth_error_app2 in H by lia.
      destruct (i - List.length h) as [|n]; cbn in H; [injection H as <-; auto|destruct n; discriminate H]. }
    assert (E : forall i x, nth_error h i = Some x -> nth_error (h ++ [mkcell k [] None]) i = Some x).
    { intros i x H. rewrite nth_error_app1; [exact H|]. apply nth_error_Some. congruence. }
    split.
    + intros p P x HP I. destruct (N p P HP) as [HP'| ->]; [|destruct I]. specialize (V p P x HP' I). destruct x as [c|s]; [|exact V]. destruct V as (C & HC & R). exists C. split; [apply E, HC|exact R].
    + intros c C p HC HQ. destruct (N c C HC) as [HC'| ->]; [|discriminate]. destruct (PH c C p HC' HQ) as (P & HP & I). exists P. split; [apply E, HP|exact I].
  - destruct (nth_error h p) as [P|] eqn:HP; [|cbn [step]; rewrite HP; split; assumption]. destruct (nth_error h c) as [C|] eqn:HC; [|cbn [step]; rewrite HP, HC; split; assumption].
    destruct (step_append h p c P C HP HC) as (A1 & A2). destruct (str_mem (ename (c_kind C)) (dtd_element (c_kind P))) eqn:E.
    2: { rewrite A2 by (intros M; apply may_hold_mem in M; congruence). split; assumption. }
    apply may_hold_mem in E. destruct (A1 E) as (N & h' & -> & (Len & Sa) & Hp & Hc). cbn [fst].
    assert (Kd : forall i x, nth_error h i = Some x -> exists y, nth_error h' i = Some y /\ c_kind y = c_kind x /\ (c_parent x <> None -> c_parent y <> None)).
    { intros i x H. destruct (Nat.eq_dec i p) as [->|Np]; [rewrite HP in H; injection H as <-; eexists; split; [exact Hp|]; cbn; auto|].
      destruct (Nat.eq_dec i c) as [->|Nc]; [rewrite HC in H; injection H as <-; eexists; split; [exact Hc|]; cbn; split; [reflexivity|discriminate]|]. rewrite <- Sa in H by assumption. eauto. }
    assert (Back : forall i y, nth_error h' i = Some y -> exists x, nth_error h i = Some x /\ c_kind y = c_kind x /\
       (forall z, In z (c_children y) -> In z (c_children x) \/ (i = p /\ z = inl c)) /\ (forall q, c_parent y = Some q -> c_parent x = Some q \/ (i = c /\ q = p))).
    { intros i y H. destruct (Nat.eq_dec i p) as [->|Np]; [rewrite Hp in H; injection H as <-; exists P; split; [exact HP|]; cbn; split; [reflexivity|]; split; [intros z I; apply in_app_or in I as [I|[<-|[]]]; auto|auto]|].
      destruct (Nat.eq_dec i c) as [->|Nc]; [rewrite Hc in H; injection H as <-; exists C; split; [exact HC|]; cbn; split; [reflexivity|]; split; [auto|intros q Q; injection Q as <-; auto]|].
      rewrite Sa in H by assumption. exists y. auto. }
    split.
    + intros i y x Hi I. destruct (Back i y Hi) as (P0 & HP0 & K & Ch & _). destruct (Ch x I) as [I'|(-> & ->)].
      * specialize (V i P0 x HP0 I'). destruct x as [q|s]; [|rewrite K; exact V]. destruct V as (Q & HQ & M & R). destruct (Kd q Q HQ) as (Y & HY & KY & RY). exists Y. rewrite K, KY. auto.
      * rewrite Hp in Hi. injection Hi as <-. eexists. split; [exact Hc|]. cbn. split; [exact E|discriminate].
    + intros i y q Hi Q. destruct (Back i y Hi) as (C0 & HC0 & K & _ & Pa). destruct (Pa q Q) as [Q'|(-> & ->)].
      * destruct (PH i C0 q HC0 Q') as (P0 & HP0 & I). destruct (Nat.eq_dec q p) as [->|Np].
        -- rewrite HP in HP0. injection HP0 as <-. eexists. split; [exact Hp|]. cbn. apply in_or_app. auto.
        -- destruct (Nat.eq_dec q c) as [->|Nc]; [rewrite HC in HP0; injection HP0 as <-; eexists; split; [exact Hc|]; exact I|]. exists P0. rewrite Sa by assumption. auto.
      * eexists. split; [exact Hp|]. cbn. apply in_or_app. right. left. reflexivity.
  - destruct (nth_error h p) as [P|] eqn:HP; [|cbn [step]; rewrite HP; split; assumption].
    destruct (step_text h p P s HP) as (A1 & A2). destruct (str_mem (L "#PCDATA") (dtd_element (c_kind P))) eqn:E.
    2: { rewrite A2 by (intros M; apply str_mem_in in M; congruence). split; assumption. }
    apply str_mem_in in E. destruct (A1 E) as (h' & -> & (Len & Sa) & Hp). cbn [fst].
    split.
    + intros i y x Hi I. assert (Fw : forall q Q, nth_error h q = Some Q -> exists Y, nth_error h' q = Some Y /\ c_kind Y = c_kind Q /\ c_parent Y = c_parent Q).
      { intros q Q H. destruct (Nat.eq_dec q p) as [->|Np]; [rewrite HP in H; injection H as <-; eexists; split; [exact Hp|auto]|]. rewrite <- Sa in H by assumption. eauto. }
      assert (G : forall P0 x, nth_error h i = Some P0 -> c_kind y = c_kind P0 -> In x (c_children P0) ->
        match x with inl c => exists C, nth_error h' c = Some C /\ may_hold (c_kind y) (c_kind C) /\ c_parent C <> None | inr _ => may_hold_text (c_kind y) end).
      { intros P0 x0 HP0 K I0. specialize (V i P0 x0 HP0 I0). destruct x0 as [q|s0]; [|rewrite K; exact V]. destruct V as (Q & HQ & M & R). destruct (Fw q Q HQ) as (Y & HY & KY & RY). exists Y. rewrite K, KY, RY. auto. }
      destruct (Nat.eq_dec i p) as [->|Np].
      * rewrite Hp in Hi. injection Hi as <-. cbn in I. apply in_app_or in I as [I|[<-|[]]]; [apply (G P); auto|exact E].
      * apply (G y); [rewrite <- Sa by assumption; exact Hi|reflexivity|exact I].
    + intros i y q Hi Q. assert (Bk : exists C0, nth_error h i = Some C0 /\ c_parent C0 = Some q).
      { destruct (Nat.eq_dec i p) as [->|Np]; [rewrite Hp in Hi; injection Hi as <-; exists P; auto|]. rewrite Sa in Hi by assumption. eauto. }
      destruct Bk as (C0 & HC0 & Q0). destruct (PH i C0 q HC0 Q0) as (P0 & HP0 & I). destruct (Nat.eq_dec q p) as [->|Np].
      * rewrite HP in HP0. injection HP0 as <-. eexists. split; [exact Hp|]. cbn. apply in_or_app. auto.
      * exists P0. rewrite Sa by assumption. auto.
Qed.
Lemma run_good l : forall h, good h -> good (run_ops h l).
Proof. induction l as [|o l IH]; intros h G; [exact G|]. cbn. apply IH, step_good, G. Qed.
Lemma good_empty : good [].
Proof. split; intros i; intros; destruct i; discriminate. Qed.
Lemma within_rank h p c : valid h -> within h p c -> exists P C, nth_error h p = Some P /\ nth_error h c = Some C /\ rank (c_kind C) < rank (c_kind P).
Proof.
  intros V W. induction W as [p P c HP I|p q c _ (P & Q & HP & HQ & R1) _ (Q' & C & HQ' & HC & R2)].
  - specialize (V p P (inl c) HP I). cbn in V. destruct V as (C & HC & M & _). exists P, C. split; [exact HP|]. split; [exact HC|]. apply hold_rank, M.
  - rewrite HQ in HQ'. injection HQ' as <-. exists P, C. split; [exact HP|]. split; [exact HC|]. lia.
Qed.
Lemma run_valid : forall l, let h := run_ops [] l in valid h /\ parents_hold h /\ (forall i, ~ within h i i).
Proof.
  intros l h. destruct (run_good l [] good_empty) as (V & PH). split; [exact V|]. split; [exact PH|]. intros i W.
  destruct (within_rank h i i V W) as (P & C & HP & HC & R). rewrite HP in HC. injection HC as <-. lia.
Qed.
(* an element can be put in two places *)
Lemma two_places : exists l, let h := run_ops [] l in exists p q c P Q C, p <> q /\ nth_error h p = Some P /\ nth_error h q = Some Q /\ nth_error h c = Some C /\
  In (inl c) (c_children P) /\ In (inl c) (c_children Q) /\ c_parent C = Some q.
Proof.
  exists [New EPoint; New EBar; New EChequer; AppendElem 0 2; AppendElem 1 2]. cbv zeta. exists 0, 1, 2. do 3 eexists. split; [discriminate|].
  split; [vm_compute; reflexivity|]. split; [vm_compute; reflexivity|]. split; [vm_compute; reflexivity|]. cbn. auto.
Qed.
