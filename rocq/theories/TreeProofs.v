(* Proofs about documents: their shape *)
From Verif Require Import Py PyFacts HtmlModel HtmlSpec HtmlProofs TreeModel TreeSpec.
From Coq Require Import Permutation.
Open Scope nat_scope.

(* ---- lists ---- *)
Lemma set_length : forall ns i n m, nth_error ns i = Some m -> List.length (set_node ns i n) = List.length ns.
Proof.
  intros ns i n m H. assert (i < List.length ns) by (apply nth_error_Some; congruence).
  unfold set_node. rewrite app_length. cbn [List.length]. rewrite firstn_length, skipn_length. lia.
Qed.
Lemma set_nth : forall ns i n m j, nth_error ns i = Some m -> nth_error (set_node ns i n) j = if Nat.eqb j i then Some n else nth_error ns j.
Proof.
  intros ns i n m j H. assert (L1 : i < List.length ns) by (apply nth_error_Some; congruence).
  unfold set_node. assert (L2 : List.length (firstn i ns) = i) by (rewrite firstn_length; lia).
  destruct (Nat.eqb_spec j i) as [->|ne].
  - rewrite nth_error_app2 by lia. rewrite L2, Nat.sub_diag. reflexivity.
  - destruct (Nat.lt_ge_cases j i).
    + rewrite nth_error_app1 by lia. rewrite <- (firstn_skipn i ns) at 2. rewrite nth_error_app1 by lia. reflexivity.
    + rewrite nth_error_app2 by lia. rewrite L2.
      rewrite <- (firstn_skipn (S i) ns) at 2. assert (L3 : List.length (firstn (S i) ns) = S i) by (rewrite firstn_length; lia).
      rewrite nth_error_app2 by lia. rewrite L3. replace (j - i) with (S (j - S i)) by lia. reflexivity.
Qed.
Lemma nth_lt : forall (A : Type) (l : list A) i x, nth_error l i = Some x -> i < List.length l.
Proof. intros A l i x H. apply nth_error_Some. congruence. Qed.
Lemma nth_some : forall (A : Type) (l : list A) i, i < List.length l -> exists x, nth_error l i = Some x.
Proof. intros A l i H. destruct (nth_error l i) eqn:E; [eauto|]. apply nth_error_None in E. lia. Qed.
Lemma nth_snoc : forall (A : Type) (l : list A) x i, nth_error (l ++ [x]) i = if Nat.eqb i (List.length l) then Some x else nth_error l i.
Proof.
  intros A l x i. destruct (Nat.eqb_spec i (List.length l)) as [->|n].
  - rewrite nth_error_app2, Nat.sub_diag by lia. reflexivity.
  - destruct (Nat.lt_ge_cases i (List.length l)); [apply nth_error_app1; lia|].
    rewrite nth_error_app2 by lia. destruct (i - List.length l) as [|[|k]] eqn:E; try lia; cbn; symmetry; apply nth_error_None; lia.
Qed.

(* ---- well-formed heaps ---- *)
Record wf (d : doc) : Prop := {
  wf_root : exists n, nth_error (nodes d) root = Some n /\ cls n = BgRoot /\ parent n = None;
  wf_parent : forall i n p, nth_error (nodes d) i = Some n -> parent n = Some p -> p < i;
  wf_orphan : forall i n, nth_error (nodes d) i = Some n -> parent n = None -> i = root;
  wf_children : forall i n c, nth_error (nodes d) i = Some n -> In c (children n) -> i < c < List.length (nodes d);
  wf_nodup : forall i n, nth_error (nodes d) i = Some n -> NoDup (children n);
  wf_once : forall i j c, holds (nodes d) i c -> holds (nodes d) j c -> i = j;
  wf_current : forall c, current d = Some c -> c < List.length (nodes d);
  wf_only : forall i n, nth_error (nodes d) i = Some n -> cls n = BgRoot -> i = root }.
Lemma wf_new : wf new_doc.
Proof.
  split; cbn.
  - eexists. split; [reflexivity|]. split; reflexivity.
  - intros [|[|i]] n p; cbn; intros H; inversion H; subst; discriminate.
  - intros [|[|i]] n; cbn; intros H; inversion H; subst; reflexivity.
  - intros [|[|i]] n c; cbn; intros H; inversion H; subst; contradiction.
  - intros [|[|i]] n; cbn; intros H; inversion H; subst; constructor.
  - intros i j c (n & H1 & H2). destruct i as [|[|i]]; cbn in H1; inversion H1; subst; contradiction.
  - intros c H. injection H as <-. unfold root. lia.
  - intros [|[|i]] n; cbn; intros H; inversion H; subst; reflexivity.
Qed.

(* ---- climbing ---- *)
Lemma climb_ok : forall d p, wf d -> forall f i, (forall c, i = Some c -> c + 1 < f /\ c < List.length (nodes d)) -> f > 0 -> exists r, climb f (nodes d) p i = Ok r.
Proof.
  intros d p W. induction f as [|f IH]; intros i H F; [lia|]. cbn [climb]. destruct i as [i|]; [|eauto].
  destruct (H i eq_refl) as [H1 H2]. destruct (nth_some _ _ _ H2) as [n Hn]. rewrite Hn. destruct (p n); [eauto|].
  apply IH; [|lia]. intros q Eq. pose proof (wf_parent d W _ _ _ Hn Eq). lia.
Qed.

(* a node and its parents *)
Inductive up (ns : list node) (i : nat) : nat -> Prop :=
| up_self : forall n, nth_error ns i = Some n -> up ns i i
| up_more : forall n p j, nth_error ns i = Some n -> parent n = Some p -> up ns p j -> up ns i j.
Lemma climb_some : forall ns p f i j, climb f ns p (Some i) = Ok (Some j) -> up ns i j /\ exists n, nth_error ns j = Some n /\ p n = true.
Proof.
  intros ns p. induction f as [|f IH]; intros i j H; cbn [climb] in H; [discriminate|].
  destruct (nth_error ns i) as [n|] eqn:En; [|discriminate]. destruct (p n) eqn:Ep.
  - injection H as <-. split; [econstructor; eauto|eauto].
  - destruct (parent n) as [q|] eqn:Eq; [|destruct f; discriminate].
    destruct (IH _ _ H) as [H1 H2]. split; [eapply up_more; eauto|exact H2].
Qed.
Lemma climb_none : forall ns p f i, climb f ns p (Some i) = Ok None -> forall j n, up ns i j -> nth_error ns j = Some n -> p n = false.
Proof.
  intros ns p. induction f as [|f IH]; intros i H j n U Hn; cbn [climb] in H; [discriminate|].
  destruct (nth_error ns i) as [m|] eqn:Em; [|discriminate]. destruct (p m) eqn:Ep; [discriminate|].
  inversion U as [n' Hn'|n' q j' Hn' Hq U']; subst; [congruence|].
  assert (n' = m) by congruence. subst n'. rewrite Hq in H. eapply IH; eauto.
Qed.
Lemma up_root : forall d, wf d -> forall i, i < List.length (nodes d) -> up (nodes d) i root.
Proof.
  intros d W. apply (well_founded_induction lt_wf (fun i => i < List.length (nodes d) -> up (nodes d) i root)).
  intros i IH H. destruct (nth_some _ _ _ H) as [n Hn]. destruct (parent n) as [q|] eqn:Eq.
  - pose proof (wf_parent d W _ _ _ Hn Eq). eapply up_more; eauto. apply IH; lia.
  - pose proof (wf_orphan d W _ _ Hn Eq) as E. subst i. apply (up_self _ _ n Hn).
Qed.
Lemma look_ok : forall d p, wf d -> exists r, look d p = Ok r.
Proof.
  intros d p W. apply (climb_ok d p W); [|lia]. intros c Hc. pose proof (wf_current d W c Hc). unfold fuel. lia.
Qed.
Lemma look_some : forall d p j, look d p = Ok (Some j) -> exists c n, current d = Some c /\ up (nodes d) c j /\ nth_error (nodes d) j = Some n /\ p n = true.
Proof.
  intros d p j H. unfold look in H. destruct (current d) as [c|] eqn:Ec; [|cbn in H; discriminate].
  destruct (climb_some _ _ _ _ _ H) as (U & n & Hn & Hp). exists c, n. auto.
Qed.

(* ---- what append does ---- *)
Definition attach (ns : list node) (c : nat) (n : node) (new : node) : list node :=
  set_node ns c (with_children n (children n ++ [List.length ns])) ++ [new].
Definition created (k : klass) (a : list (string * value)) (p : option nat) : node :=
  mknode k (match k with Wrapping => [] | _ => a end) [] None p [].
Lemma append_cases : forall d k a d' r, wf d -> append d k a = (d', r) ->
  (d' = d /\ ((k = BgRoot /\ r = Exc TypeError) \/ (current d = None /\ r = Exc AttributeError)))
  \/ (exists x c n, current d = Some x /\ up (nodes d) x c /\ nth_error (nodes d) c = Some n /\ is_acceptable (cls n) k = true /\ k <> BgRoot
       /\ look d (fun n => is_acceptable (cls n) k) = Ok (Some c)
       /\ d' = mkdoc (attach (nodes d) c n (created k a (current d))) (Some c) /\ r = Ok (List.length (nodes d))).
Proof.
  intros d k a d' r W H.
  destruct (klass_eq_dec k BgRoot) as [->|nk]; [left; cbn in H; inversion H; auto|].
  assert (E : append d k a = match look d (fun n => is_acceptable (cls n) k) with
      | Exc e => (d, Exc e) | Ok None => (d, Exc AttributeError)
      | Ok (Some c) => (mkdoc (nodes (update d c (fun n => with_children n (children n ++ [List.length (nodes d)]))) ++ [created k a (current d)]) (Some c), Ok (List.length (nodes d)))
      end) by (destruct k; try reflexivity; contradiction).
  rewrite E in H. clear E.
  destruct (look_ok d (fun n => is_acceptable (cls n) k) W) as [[c|] Hr]; rewrite Hr in H.
  - right. destruct (look_some _ _ _ Hr) as (x & n & Hx & U & Hn & Hp). exists x, c, n.
    injection H as <- <-. unfold update. rewrite Hn. exact (conj Hx (conj U (conj eq_refl (conj Hp (conj nk (conj Hr (conj eq_refl eq_refl))))))).
  - left. injection H as <- <-. split; [reflexivity|]. right. split; [|reflexivity].
    destruct (current d) as [x|] eqn:Ex; [|reflexivity]. exfalso. unfold look in Hr. rewrite Ex in Hr.
    destruct (wf_root d W) as (n & Hn & Hc & _).
    pose proof (climb_none _ _ _ _ Hr root n (up_root d W x (wf_current d W x Ex)) Hn) as F. cbn in F. rewrite Hc in F. discriminate.
Qed.

(* ---- the three ways a heap changes ---- *)
Lemma attach_length : forall ns c n new, nth_error ns c = Some n -> List.length (attach ns c n new) = S (List.length ns).
Proof. intros. unfold attach. rewrite app_length, (set_length _ _ _ _ H). cbn. lia. Qed.
Lemma attach_nth : forall ns c n new j, nth_error ns c = Some n ->
  nth_error (attach ns c n new) j =
    if Nat.eqb j (List.length ns) then Some new else if Nat.eqb j c then Some (with_children n (children n ++ [List.length ns])) else nth_error ns j.
Proof.
  intros ns c n new j H. unfold attach. rewrite nth_snoc, (set_length _ _ _ _ H), (set_nth _ _ _ _ _ H). reflexivity.
Qed.
Lemma attach_old : forall ns c n new i m, nth_error ns c = Some n -> nth_error ns i = Some m ->
  exists m', nth_error (attach ns c n new) i = Some m' /\ cls m' = cls m /\ parent m' = parent m /\ text m' = text m /\ attrs m' = attrs m
    /\ children m' = children m ++ (if Nat.eqb i c then [List.length ns] else []).
Proof.
  intros ns c n new i m Hc Hi. rewrite (attach_nth _ _ _ _ _ Hc). pose proof (nth_lt _ _ _ _ Hi) as Li.
  destruct (Nat.eqb_spec i (List.length ns)); [lia|]. destruct (Nat.eqb_spec i c) as [->|ne].
  - assert (m = n) by congruence. subst m. eexists. split; [reflexivity|]. cbn. auto 10.
  - exists m. rewrite app_nil_r. auto 10.
Qed.
Lemma attach_inv : forall ns c n new i m', nth_error ns c = Some n -> nth_error (attach ns c n new) i = Some m' ->
  (i = List.length ns /\ m' = new) \/ (exists m, nth_error ns i = Some m /\ cls m' = cls m /\ parent m' = parent m /\ text m' = text m /\ attrs m' = attrs m
    /\ children m' = children m ++ (if Nat.eqb i c then [List.length ns] else [])).
Proof.
  intros ns c n new i m' Hc Hi. rewrite (attach_nth _ _ _ _ _ Hc) in Hi.
  destruct (Nat.eqb_spec i (List.length ns)) as [->|n1]; [left; inversion Hi; auto|]. right.
  destruct (Nat.eqb_spec i c) as [->|n2].
  - injection Hi as <-. exists n. cbn. auto 10.
  - exists m'. rewrite app_nil_r. auto 10.
Qed.
Lemma holds_attach : forall ns c n new i j, nth_error ns c = Some n -> children new = [] ->
  (holds (attach ns c n new) i j <-> holds ns i j \/ (i = c /\ j = List.length ns)).
Proof.
  intros ns c n new i j Hc Hnew. split.
  - intros (m' & H1 & H2). destruct (attach_inv _ _ _ _ _ _ Hc H1) as [[-> ->]|(m & Hm & _ & _ & _ & _ & E)].
    + rewrite Hnew in H2. contradiction.
    + rewrite E in H2. apply in_app_or in H2. destruct H2 as [H2|H2]; [left; exists m; auto|].
      destruct (Nat.eqb_spec i c) as [->|]; [|contradiction]. destruct H2 as [<-|[]]. right. auto.
  - intros [(m & Hm & Hj)|[-> ->]].
    + destruct (attach_old ns c n new i m Hc Hm) as (m' & H1 & _ & _ & _ & _ & E). exists m'. split; [exact H1|]. rewrite E. apply in_or_app. auto.
    + destruct (attach_old ns c n new c n Hc Hc) as (m' & H1 & _ & _ & _ & _ & E). exists m'. split; [exact H1|]. rewrite E, Nat.eqb_refl.
      apply in_or_app. right. left. reflexivity.
Qed.
Lemma wf_attach : forall d c n new cur, wf d -> nth_error (nodes d) c = Some n -> children new = [] -> cls new <> BgRoot ->
  (exists p, parent new = Some p /\ p < List.length (nodes d)) -> (forall x, cur = Some x -> x <= List.length (nodes d)) ->
  wf (mkdoc (attach (nodes d) c n new) cur).
Proof.
  intros d c n new cur W Hc Hch Hcl (p & Hp & Lp) Hcur. pose proof (nth_lt _ _ _ _ Hc) as Lc.
  assert (Old : forall i j, holds (nodes d) i j -> i < j < List.length (nodes d)).
  { intros i j (m & H1 & H2). apply (wf_children d W _ _ _ H1 H2). }
  split; cbn [nodes current].
  - destruct (wf_root d W) as (m & Hm & H1 & H2). destruct (attach_old _ c n new _ _ Hc Hm) as (m' & E & E1 & E2 & _). exists m'. rewrite E1, E2. auto.
  - intros i m' q H1 H2. destruct (attach_inv _ _ _ _ _ _ Hc H1) as [[-> ->]|(m & Hm & _ & E & _)]; [congruence|].
    rewrite E in H2. apply (wf_parent d W _ _ _ Hm H2).
  - intros i m' H1 H2. destruct (attach_inv _ _ _ _ _ _ Hc H1) as [[-> ->]|(m & Hm & _ & E & _)]; [congruence|].
    rewrite E in H2. apply (wf_orphan d W _ _ Hm H2).
  - intros i m' j H1 H2. rewrite (attach_length _ _ _ _ Hc). assert (Hh : holds (attach (nodes d) c n new) i j) by (exists m'; auto).
    apply (holds_attach _ _ _ _ _ _ Hc Hch) in Hh. destruct Hh as [Hh|[-> ->]]; [apply Old in Hh; lia|lia].
  - intros i m' H1. destruct (attach_inv _ _ _ _ _ _ Hc H1) as [[-> ->]|(m & Hm & _ & _ & _ & _ & E)]; [rewrite Hch; constructor|].
    rewrite E. pose proof (wf_nodup d W _ _ Hm) as N. destruct (Nat.eqb i c); [|rewrite app_nil_r; exact N].
    apply (Permutation_NoDup (Permutation_cons_append _ _)). constructor; [|exact N].
    intro F. pose proof (wf_children d W _ _ _ Hm F). lia.
  - intros i j x H1 H2. apply (holds_attach _ _ _ _ _ _ Hc Hch) in H1. apply (holds_attach _ _ _ _ _ _ Hc Hch) in H2.
    destruct H1 as [H1|[-> ->]], H2 as [H2|[-> E]].
    + apply (wf_once d W _ _ _ H1 H2).
    + subst x. apply Old in H1. lia.
    + apply Old in H2. lia.
    + reflexivity.
  - intros x Hx. rewrite (attach_length _ _ _ _ Hc). specialize (Hcur x Hx). lia.
  - intros i m' H1 H2. destruct (attach_inv _ _ _ _ _ _ Hc H1) as [[-> ->]|(m & Hm & E & _)]; [contradiction|].
    rewrite E in H2. apply (wf_only d W _ _ Hm H2).
Qed.
(* a node changed in place *)
Lemma wf_touch : forall d i n n' cur, wf d -> nth_error (nodes d) i = Some n -> cls n' = cls n -> parent n' = parent n ->
  (forall x, In x (children n') -> In x (children n)) -> NoDup (children n') -> (forall x, cur = Some x -> x < List.length (nodes d)) ->
  wf (mkdoc (set_node (nodes d) i n') cur).
Proof.
  intros d i n n' cur W Hi E1 E2 E3 E4 Hcur.
  assert (Inv : forall j m', nth_error (set_node (nodes d) i n') j = Some m' ->
     exists m, nth_error (nodes d) j = Some m /\ cls m' = cls m /\ parent m' = parent m /\ (forall x, In x (children m') -> In x (children m)) /\ NoDup (children m')).
  { intros j m' H. rewrite (set_nth _ _ _ _ _ Hi) in H. destruct (Nat.eqb_spec j i) as [->|ne].
    - injection H as <-. exists n. auto.
    - exists m'. pose proof (wf_nodup d W _ _ H). auto. }
  assert (Hh : forall a b, holds (set_node (nodes d) i n') a b -> holds (nodes d) a b).
  { intros a b (m' & H1 & H2). destruct (Inv _ _ H1) as (m & Hm & _ & _ & E & _). exists m. auto. }
  split; cbn [nodes current]; rewrite ?(set_length _ _ _ _ Hi).
  - destruct (wf_root d W) as (m & Hm & H1 & H2). rewrite (set_nth _ _ _ _ _ Hi). destruct (Nat.eqb_spec root i) as [<-|ne]; [|eauto].
    exists n'. assert (m = n) by congruence. subst m. rewrite E1, E2. auto.
  - intros j m' q H1 H2. destruct (Inv _ _ H1) as (m & Hm & _ & E & _). rewrite E in H2. apply (wf_parent d W _ _ _ Hm H2).
  - intros j m' H1 H2. destruct (Inv _ _ H1) as (m & Hm & _ & E & _). rewrite E in H2. apply (wf_orphan d W _ _ Hm H2).
  - intros j m' x H1 H2. destruct (Inv _ _ H1) as (m & Hm & _ & _ & E & _). apply (wf_children d W _ _ _ Hm (E _ H2)).
  - intros j m' H1. destruct (Inv _ _ H1) as (m & Hm & _ & _ & _ & E). exact E.
  - intros a b x H1 H2. apply (wf_once d W _ _ _ (Hh _ _ H1) (Hh _ _ H2)).
  - exact Hcur.
  - intros j m' H1 H2. destruct (Inv _ _ H1) as (m & Hm & E & _). rewrite E in H2. apply (wf_only d W _ _ Hm H2).
Qed.
Lemma wf_goto : forall d cur, wf d -> (forall x, cur = Some x -> x < List.length (nodes d)) -> wf (mkdoc (nodes d) cur).
Proof. intros d cur [] H. split; auto. Qed.
Lemma up_lt : forall ns i j, up ns i j -> j < List.length ns.
Proof. intros ns i j U. induction U as [i n H|]; [exact (nth_lt _ _ _ _ H)|assumption]. Qed.

(* ---- every operation ---- *)
Inductive change (d : doc) (o : op) : doc -> res unit -> Prop :=
| ch_none : forall cur r, (forall x, cur = Some x -> x < List.length (nodes d)) ->
    (forall s, o = AddText s -> exists e, r = Exc e) -> change d o (mkdoc (nodes d) cur) r
| ch_new : forall k a x c n e r, (o = Enter k a /\ e = List.length (nodes d) \/ o = Append k a /\ e = c) ->
    current d = Some x -> look d (fun n => is_acceptable (cls n) k) = Ok (Some c) -> nth_error (nodes d) c = Some n -> is_acceptable (cls n) k = true ->
    k <> BgRoot -> change d o (mkdoc (attach (nodes d) c n (created k a (current d))) (Some e)) r
| ch_text : forall s c n, o = AddText s -> current d = Some c -> nth_error (nodes d) c = Some n ->
    change d o (mkdoc (attach (nodes d) c n (mknode Text [] s None (Some c) [])) (current d)) (Ok tt)
| ch_more : forall s c n i m, o = AddText s -> current d = Some c -> nth_error (nodes d) c = Some n -> last (children n) i = i -> In i (children n) ->
    nth_error (nodes d) i = Some m -> cls m = Text -> change d o (mkdoc (set_node (nodes d) i (with_text m (text m ++ s))) (current d)) (Ok tt)
| ch_remove : forall i c n r, o = Remove i -> nth_error (nodes d) c = Some n ->
    change d o (mkdoc (set_node (nodes d) c (with_children n (remove_first i (children n)))) (current d)) r
| ch_attr : forall i k v n r, o = SetAttr i k v -> nth_error (nodes d) i = Some n ->
    change d o (mkdoc (set_node (nodes d) i (with_attrs n (set_key (attrs n) k v))) (current d)) r
| ch_line : forall i s n r, o = AddLine i s -> nth_error (nodes d) i = Some n -> cls n = Wrapping ->
    change d o (mkdoc (set_node (nodes d) i (with_text n (text n ++ s))) (current d)) r
| ch_proc : forall i p n r, o = SetProcessor i p -> nth_error (nodes d) i = Some n -> cls n = Wrapping ->
    change d o (mkdoc (set_node (nodes d) i (with_processor n (Some p))) (current d)) r.
Lemma last_rev : forall (l : list nat) i r x, rev l = i :: r -> last l x = i /\ In i l.
Proof.
  intros l i r x H. assert (E : l = rev r ++ [i]) by (rewrite <- (rev_involutive l), H; reflexivity). rewrite E. split; [apply last_last|].
  apply in_or_app. right. left. reflexivity.
Qed.
Lemma eta : forall d, d = mkdoc (nodes d) (current d).
Proof. intros []; reflexivity. Qed.
Lemma exec_change : forall d o, wf d -> change d o (fst (exec d o)) (snd (exec d o)).
Proof.
  intros d o W.
  assert (Same : forall r, (forall s, o = AddText s -> exists e, r = Exc e) -> change d o d r).
  { intros r H. rewrite (eta d) at 2. apply ch_none; [intros x Hx; apply (wf_current d W x Hx)|exact H]. }
  destruct o as [k a|k a|ks|s|i| |i|i k v|i s|i p]; cbn [exec].
  - unfold enter. destruct (append d k a) as [d' r] eqn:E. destruct (append_cases _ _ _ _ _ W E) as [(-> & [(-> & ->)|(_ & ->)])|H].
    1, 2: cbn; apply Same; intros; discriminate.
    destruct H as (x & c & n & Hx & U & Hn & Ha & Hk & Hl & -> & ->). cbn. eapply (ch_new _ _ k a); eauto.
  - destruct (append d k a) as [d' r] eqn:E. destruct (append_cases _ _ _ _ _ W E) as [(-> & [(-> & ->)|(_ & ->)])|H].
    1, 2: cbn; apply Same; intros; discriminate.
    destruct H as (x & c & n & Hx & U & Hn & Ha & Hk & Hl & -> & ->). cbn. eapply (ch_new _ _ k a); eauto.
  - unfold leave. destruct (look_ok d (fun n => is_any (cls n) ks) W) as [[c|] Hr]; rewrite Hr; cbn [fst snd].
    + destruct (look_some _ _ _ Hr) as (x & n & Hx & U & Hn & Hp). apply ch_none; [|intros; discriminate].
      rewrite Hn. intros q Hq. pose proof (wf_parent d W _ _ _ Hn Hq). pose proof (nth_lt _ _ _ _ Hn). lia.
    + apply Same. intros; discriminate.
  - unfold append_text. destruct (current d) as [c|] eqn:Ec; [|apply Same; cbn; eauto].
    destruct (nth_some _ _ _ (wf_current d W c Ec)) as [n Hn]. rewrite Hn.
    pose proof (ch_text d (AddText s) s c n eq_refl Ec Hn) as G0. rewrite Ec in G0.
    destruct (rev (children n)) as [|i r] eqn:Er; [exact G0|].
    destruct (last_rev _ _ _ i Er) as [H1 H2]. destruct (nth_some _ _ i (proj2 (wf_children d W _ _ _ Hn H2))) as [m Hm]. rewrite Hm.
    destruct (klass_eq_dec (cls m) Text) as [Et|nt].
    + rewrite Et. unfold update. rewrite Hm. cbn [fst snd]. pose proof (ch_more d (AddText s) s c n i m eq_refl Ec Hn H1 H2 Hm Et) as G1. rewrite Ec in *. exact G1.
    + destruct (cls m); try exact G0. contradiction.
  - unfold remove. destruct (current d) as [c|] eqn:Ec; [|apply Same; cbn; intros; discriminate].
    destruct (nth_error (nodes d) c) as [n|] eqn:Hn; [|apply Same; cbn; intros; discriminate].
    destruct (existsb (Nat.eqb i) (children n)); [|apply Same; cbn; intros; discriminate].
    unfold update. rewrite Hn. cbn [fst snd]. pose proof (ch_remove d (Remove i) i c n (Ok tt) eq_refl Hn) as G1. rewrite Ec in *. exact G1.
  - cbn. apply ch_none; [|intros; discriminate]. intros x Hx. injection Hx as <-. destruct (wf_root d W) as (n & Hn & _). apply (nth_lt _ _ _ _ Hn).
  - destruct (Nat.ltb_spec i (List.length (nodes d))); cbn [fst snd]; [|apply Same; intros; discriminate].
    apply ch_none; [intros x Hx; injection Hx as <-; assumption|intros; discriminate].
  - cbn [fst snd]. unfold set_attr, update. destruct (nth_error (nodes d) i) as [n|] eqn:Hn; [|apply Same; intros; discriminate].
    eapply ch_attr; eauto.
  - destruct (nth_error (nodes d) i) as [n|] eqn:Hn; [|apply Same; intros; discriminate].
    destruct (klass_eq_dec (cls n) Wrapping) as [Ew|nw]; [|destruct (cls n) eqn:En; try (apply Same; intros; discriminate); contradiction].
    rewrite Ew. unfold add_line, update. rewrite Hn. cbn [fst snd]. eapply ch_line; eauto.
  - destruct (nth_error (nodes d) i) as [n|] eqn:Hn; [|apply Same; intros; discriminate].
    destruct (klass_eq_dec (cls n) Wrapping) as [Ew|nw]; [|destruct (cls n) eqn:En; try (apply Same; intros; discriminate); contradiction].
    rewrite Ew. unfold set_processor, update. rewrite Hn. cbn [fst snd]. eapply ch_proc; eauto.
Qed.
Lemma remove_first_in : forall i l x, In x (remove_first i l) -> In x l.
Proof. intros i. induction l as [|y l IH]; intros x H; [exact H|]. cbn in H. destruct (Nat.eqb y i); [right; exact H|]. destruct H as [H|H]; [left; exact H|right; auto]. Qed.
Lemma remove_first_nodup : forall i l, NoDup l -> NoDup (remove_first i l).
Proof.
  intros i l N. induction N as [|y l H N IH]; [constructor|]. cbn. destruct (Nat.eqb y i); [exact N|]. constructor; [|exact IH].
  intro F. apply H. eapply remove_first_in. eassumption.
Qed.
Lemma change_wf : forall d o d' r, wf d -> change d o d' r -> wf d'.
Proof.
  intros d o d' r W H.
  assert (Cur : forall x, current d = Some x -> x < List.length (nodes d)) by (apply (wf_current d W)).
  destruct H as [cur r Hcur _|k a x c n e r He Hx Hl Hn Ha Hk|s c n Ho Hc Hn|s c n i m Ho Hc Hn Hl Hi Hm Ht|i c n r Ho Hn|i k v n r Ho Hn|i s n r Ho Hn Hw|i p n r Ho Hn Hw].
  - apply wf_goto; assumption.
  - apply wf_attach; auto.
    + rewrite Hx. exists x. split; [reflexivity|]. apply Cur. exact Hx.
    + intros y Hy. injection Hy as <-. pose proof (nth_lt _ _ _ _ Hn). destruct He as [[_ ->]|[_ ->]]; lia.
  - apply wf_attach; auto; [discriminate| |].
    + exists c. split; [reflexivity|]. apply Cur. exact Hc.
    + intros y Hy. apply Cur in Hy. lia.
  - eapply wf_touch; eauto; cbn; auto. apply (wf_nodup d W _ _ Hm).
  - eapply wf_touch; eauto; cbn; [intros x; apply remove_first_in|]. apply remove_first_nodup. apply (wf_nodup d W _ _ Hn).
  - eapply wf_touch; eauto; cbn; auto. apply (wf_nodup d W _ _ Hn).
  - eapply wf_touch; eauto; cbn; auto. apply (wf_nodup d W _ _ Hn).
  - eapply wf_touch; eauto; cbn; auto. apply (wf_nodup d W _ _ Hn).
Qed.
Lemma exec_wf : forall d o, wf d -> wf (fst (exec d o)).
Proof. intros d o W. eapply change_wf; [exact W|apply exec_change; exact W]. Qed.
Lemma edit_wf : forall ops d, wf d -> wf (edit d ops).
Proof. induction ops as [|o ops IH]; intros d W; [exact W|]. cbn. apply IH. apply exec_wf. exact W. Qed.
