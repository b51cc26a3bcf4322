(* Proofs about documents: visiting *)
From Verif Require Import Py PyFacts HtmlModel HtmlSpec HtmlProofs TreeModel TreeSpec TreeProofs.
From Coq Require Import Permutation.
Open Scope nat_scope.

Lemma mapM_forall2 : forall (A B : Type) (f : A -> res B) l r, mapM f l = Ok r <-> Forall2 (fun x y => f x = Ok y) l r.
Proof.
  intros A B f. induction l as [|x l IH]; intros r; cbn [mapM].
  - split; intro H; [injection H as <-; constructor|inversion H; reflexivity].
  - unfold bind. split.
    + destruct (f x) as [y|] eqn:E; [|discriminate]. destruct (mapM f l) as [r'|] eqn:E'; [|discriminate]. intro H. injection H as <-.
      constructor; [exact E|]. apply IH. reflexivity.
    + intro H. inversion H as [|? y ? r' H1 H2]; subst. rewrite H1. apply IH in H2. rewrite H2. reflexivity.
Qed.
Lemma mapM_all : forall (A B : Type) (f : A -> res B) l, (forall x, In x l -> exists y, f x = Ok y) -> exists r, mapM f l = Ok r.
Proof.
  intros A B f. induction l as [|x l IH]; intro H; [exists []; reflexivity|]. cbn [mapM]. unfold bind.
  destruct (H x (or_introl eq_refl)) as [y ->]. destruct IH as [r ->]; [intros z Hz; apply H; right; exact Hz|]. eauto.
Qed.
Lemma mapM_app_ok : forall (A B : Type) (f : A -> res B) l1 l2 r, mapM f (l1 ++ l2) = Ok r <-> exists r1 r2, mapM f l1 = Ok r1 /\ mapM f l2 = Ok r2 /\ r = r1 ++ r2.
Proof.
  intros A B f l1 l2 r. rewrite mapM_forall2. split.
  - intro H. apply Forall2_app_inv_l in H. destruct H as (r1 & r2 & H1 & H2 & ->). exists r1, r2. rewrite !mapM_forall2. auto.
  - intros (r1 & r2 & H1 & H2 & ->). rewrite mapM_forall2 in H1, H2. apply Forall2_app; assumption.
Qed.

(* accept always ends *)
Lemma accept_ok : forall d, wf d -> forall f i, i < List.length (nodes d) -> List.length (nodes d) < f + i -> exists l, accept f (nodes d) i = Ok l.
Proof.
  intros d W. induction f as [|f IH]; intros i H F; [lia|]. cbn [accept]. destruct (nth_some _ _ _ H) as [n Hn]. rewrite Hn.
  destruct (mapM_all _ _ (accept f (nodes d)) (children n)) as [r ->]; [|eauto].
  intros c Hc. pose proof (wf_children d W _ _ _ Hn Hc). apply IH; lia.
Qed.
Lemma accept_inv : forall ns f i l, accept f ns i = Ok l -> exists n ls f', f = S f' /\ nth_error ns i = Some n /\ Forall2 (fun c l => accept f' ns c = Ok l) (children n) ls
  /\ l = VEnter i :: List.concat ls ++ [VLeave i].
Proof.
  intros ns [|f] i l H; cbn [accept] in H; [discriminate|]. destruct (nth_error ns i) as [n|] eqn:En; [|discriminate].
  destruct (mapM (accept f ns) (children n)) as [ls|] eqn:E; [|discriminate]. injection H as <-. apply mapM_forall2 in E.
  exists n, ls, f. auto.
Qed.
Lemma entered_app : forall a b, entered (a ++ b) = entered a ++ entered b.
Proof. intros. apply flat_map_app. Qed.
Lemma entered_node : forall i ls, entered (VEnter i :: List.concat ls ++ [VLeave i]) = i :: List.concat (map entered ls).
Proof.
  intros i ls. cbn. rewrite flat_map_app. cbn. rewrite app_nil_r. f_equal. induction ls as [|l ls IH]; [reflexivity|]. cbn. rewrite flat_map_app, IH. reflexivity.
Qed.
Lemma accept_order : forall ns f i l, accept f ns i = Ok l -> in_order ns i (entered l).
Proof.
  intros ns. induction f as [|f IH]; intros i l H; [discriminate|]. apply accept_inv in H. destruct H as (n & ls & f' & E & Hn & H & ->).
  injection E as <-. rewrite entered_node. econstructor; [exact Hn|]. induction H as [|c l cs ls H1 H2 IH2]; [constructor|]. constructor; [apply IH; exact H1|exact IH2].
Qed.
Lemma in_order_rect : forall ns (P : nat -> list nat -> Prop),
  (forall i n ls, nth_error ns i = Some n -> Forall2 (in_order ns) (children n) ls -> Forall2 P (children n) ls -> P i (i :: List.concat ls)) ->
  forall i l, in_order ns i l -> P i l.
Proof.
  intros ns P H. fix F 3. intros i l [i' n ls Hn Hf]. apply (H i' n ls Hn Hf).
  induction Hf as [|c l' cs ls' H1 H2 IH]; constructor; [apply F; exact H1|exact IH].
Qed.
Lemma order_det : forall ns i l, in_order ns i l -> forall l', in_order ns i l' -> l = l'.
Proof.
  intros ns. apply (in_order_rect ns (fun i l => forall l', in_order ns i l' -> l = l')). intros i n ls Hn _ H l' H'.
  inversion H' as [i' n' ls' Hn' Hf]; subst. assert (n' = n) by congruence. subst n'. f_equal.
  clear H' Hn'. revert ls' Hf. clear - H. induction H as [|c l cs ls H1 H2 IH]; intros ls' Hf; inversion Hf; subst; [reflexivity|]. cbn. f_equal; [apply H1; assumption|apply IH; assumption].
Qed.
Lemma below_trans : forall ns i j k, below ns i j -> below ns j k -> below ns i k.
Proof. intros ns i j k H1 H2. induction H2; [exact H1|]. eapply below_child; eassumption. Qed.
Lemma order_below : forall ns i l, in_order ns i l -> forall j, In j l <-> below ns i j.
Proof.
  intros ns i l H j. split.
  - revert i l H j. apply (in_order_rect ns (fun i l => forall j, In j l -> below ns i j)). intros i n ls Hn _ H j [<-|Hj]; [constructor|].
    apply in_concat in Hj. destruct Hj as (l & Hl & Hj).
    assert (G : exists c, In c (children n) /\ (forall j, In j l -> below ns c j)).
    { clear - H Hl. induction H as [|c l' cs ls H1 H2 IH]; [contradiction|]. destruct Hl as [<-|Hl]; [exists c; split; [left; reflexivity|exact H1]|].
      destruct (IH Hl) as (c' & I & G). exists c'. split; [right; exact I|exact G]. }
    destruct G as (c & Hc & G). eapply below_trans; [|apply G; exact Hj]. eapply below_child; [constructor|]. exists n. auto.
  - intro B. revert l H. assert (G : forall i l, in_order ns i l -> forall h, In h l -> forall j, holds ns h j -> In j l).
    { clear. apply (in_order_rect ns (fun i l => forall h, In h l -> forall j, holds ns h j -> In j l)). intros i n ls Hn Hf H h Hh j Hj.
      destruct Hh as [<-|Hh].
      - right. destruct Hj as (m & Hm & Hj). assert (m = n) by congruence. subst m. apply in_concat.
        clear - Hf Hj. induction Hf as [|c l cs ls H1 H2 IH]; [contradiction|]. destruct Hj as [<-|Hj].
        + exists l. split; [left; reflexivity|]. inversion H1. left. reflexivity.
        + destruct (IH Hj) as (l' & A1 & A2). exists l'. split; [right; exact A1|exact A2].
      - right. apply in_concat in Hh. destruct Hh as (l & Hl & Hh). apply in_concat. exists l. split; [exact Hl|].
        clear - H Hl Hh Hj. induction H as [|c l' cs ls H1 H2 IH]; [contradiction|]. destruct Hl as [<-|Hl]; [eapply H1; eassumption|apply IH; assumption]. }
    intros l H. induction B as [|h j B IH Hj]; [inversion H; left; reflexivity|]. eapply G; [exact H|exact IH|exact Hj].
Qed.
Lemma holds_lt : forall d, wf d -> forall i j, holds (nodes d) i j -> i < j.
Proof. intros d W i j (n & Hn & Hj). apply (wf_children d W _ _ _ Hn Hj). Qed.
Lemma below_le : forall d, wf d -> forall i j, below (nodes d) i j -> i <= j.
Proof. intros d W i j B. induction B as [|h j B IH H]; [lia|]. pose proof (holds_lt d W _ _ H). lia. Qed.
Lemma below_or : forall d, wf d -> forall a b j, below (nodes d) a j -> below (nodes d) b j -> below (nodes d) a b \/ below (nodes d) b a.
Proof.
  intros d W a b j B1. induction B1 as [|h j B1 IH H]; intro B2; [right; exact B2|].
  inversion B2 as [|h' j' B2' H2]; subst.
  - left. eapply below_child; eassumption.
  - rewrite (wf_once d W _ _ _ H2 H) in B2'. apply IH. exact B2'.
Qed.
Lemma siblings : forall d, wf d -> forall i a b j, holds (nodes d) i a -> holds (nodes d) i b -> below (nodes d) a j -> below (nodes d) b j -> a = b.
Proof.
  intros d W.
  assert (G : forall i a b, holds (nodes d) i a -> holds (nodes d) i b -> below (nodes d) a b -> a = b).
  { intros i a b H1 H2 B. inversion B as [|h b' B' H']; subst; [reflexivity|]. rewrite (wf_once d W _ _ _ H' H2) in B'.
    pose proof (holds_lt d W _ _ H1). pose proof (below_le d W _ _ B'). lia. }
  intros i a b j H1 H2 B1 B2. destruct (below_or d W a b j B1 B2) as [B|B]; [eapply G; eassumption|symmetry; eapply G; eassumption].
Qed.
Lemma NoDup_concat : forall (A : Type) (ls : list (list A)), Forall (@NoDup A) ls ->
  (forall i j x l1 l2, nth_error ls i = Some l1 -> nth_error ls j = Some l2 -> In x l1 -> In x l2 -> i = j) -> NoDup (List.concat ls).
Proof.
  intros A ls H. induction H as [|l ls H1 H2 IH]; intro D; [constructor|]. cbn.
  assert (N : NoDup (List.concat ls)). { apply IH. intros i j x l1 l2 E1 E2 I1 I2. specialize (D (S i) (S j) x l1 l2 E1 E2 I1 I2). lia. }
  assert (Dis : forall x, In x l -> ~ In x (List.concat ls)).
  { intros x Hx F. apply in_concat in F. destruct F as (l' & F1 & F2). apply In_nth_error in F1. destruct F1 as [k F1].
    specialize (D 0 (S k) x l l' eq_refl F1 Hx F2). lia. }
  clear - H1 N Dis. induction H1 as [|y l H H1 IH]; [exact N|]. cbn. constructor.
  - intro F. apply in_app_or in F. destruct F as [F|F]; [contradiction|]. exact (Dis y (or_introl eq_refl) F).
  - apply IH. intros x Hx. apply Dis. right. exact Hx.
Qed.
Lemma Forall2_nth_r : forall (A B : Type) (P : A -> B -> Prop) l r, Forall2 P l r -> forall i y, nth_error r i = Some y -> exists x, nth_error l i = Some x /\ P x y.
Proof.
  intros A B P l r H. induction H as [|x y l r H1 H2 IH]; intros [|i] z E; try discriminate; cbn in E.
  - injection E as <-. exists x. auto.
  - apply IH. exact E.
Qed.
Lemma order_nodup : forall d, wf d -> forall i l, in_order (nodes d) i l -> NoDup l.
Proof.
  intros d W. apply (in_order_rect (nodes d) (fun _ l => NoDup l)). intros i n ls Hn Hf H. constructor.
  - intro F. apply in_concat in F. destruct F as (l & Hl & Hi). apply In_nth_error in Hl. destruct Hl as [k Hk].
    destruct (Forall2_nth_r _ _ _ _ _ Hf k l Hk) as (c & Hc & Ho). apply (order_below _ _ _ Ho) in Hi. apply nth_error_In in Hc.
    pose proof (wf_children d W _ _ _ Hn Hc). pose proof (below_le d W _ _ Hi). lia.
  - apply NoDup_concat.
    + apply Forall_forall. intros l Hl. apply In_nth_error in Hl. destruct Hl as [k Hk]. destruct (Forall2_nth_r _ _ _ _ _ H k l Hk) as (c & Hc & Ho). exact Ho.
    + intros a b x l1 l2 E1 E2 I1 I2. destruct (Forall2_nth_r _ _ _ _ _ Hf a l1 E1) as (c1 & C1 & O1). destruct (Forall2_nth_r _ _ _ _ _ Hf b l2 E2) as (c2 & C2 & O2).
      apply (order_below _ _ _ O1) in I1. apply (order_below _ _ _ O2) in I2.
      assert (c1 = c2). { apply (siblings d W i c1 c2 x); auto; exists n; split; auto; eapply nth_error_In; eassumption. } subst c2.
      pose proof (wf_nodup d W _ _ Hn) as N. rewrite NoDup_nth_error in N. apply N; [apply (nth_lt _ _ _ _ C1)|congruence].
Qed.
Lemma visit_ok : forall d, wf d -> exists l, accept (S (fuel d)) (nodes d) root = Ok l /\ in_order (nodes d) root (entered l) /\ NoDup (entered l)
  /\ forall j, In j (entered l) <-> below (nodes d) root j.
Proof.
  intros d W. destruct (wf_root d W) as (n & Hn & _). pose proof (nth_lt _ _ _ _ Hn) as H.
  destruct (accept_ok d W (S (fuel d)) root) as [l Hl]; [exact H|unfold fuel, root; lia|]. exists l. pose proof (accept_order _ _ _ _ Hl) as O.
  split; [exact Hl|]. split; [exact O|]. split; [apply (order_nodup d W _ _ O)|apply (order_below _ _ _ O)].
Qed.
