(* A text parsed at the end of another one gives the nodes that it gives alone, moved *)
From Verif Require Import Py PyFacts Re Rx HtmlModel TreeModel TreeSpec TreeProofs TreeVisit TocModel WikiModel WikiSpec WikiFrame.
Open Scope string_scope.
Open Scope list_scope.
Open Scope nat_scope.

(* ---- what is so of every document made from a text ---- *)
Record tidy (d : doc) : Prop := {
  t_wf : wf d;
  t_root : forall r, nth_error (nodes d) root = Some r -> attrs r = [] /\ text r = [] /\ processor r = None;
  t_texts : forall c n i m, nth_error (nodes d) c = Some n -> In i (children n) -> nth_error (nodes d) i = Some m -> cls m = Text -> parent m = Some c }.
Lemma tidy_new : tidy new_doc.
Proof.
  split; [apply wf_new| |].
  - intros r H. cbn in H. injection H as <-. auto.
  - intros [|[|c]] n i m H I; cbn in H; inversion H; subst; destruct I.
Qed.
Lemma tidy_goto : forall d c, tidy d -> wf (mkdoc (nodes d) c) -> tidy (mkdoc (nodes d) c).
Proof. intros d c [W H1 H2] H. split; auto. Qed.
Lemma tidy_attach : forall d h n new cur, tidy d -> nth_error (nodes d) h = Some n -> wf (mkdoc (attach (nodes d) h n new) cur) ->
  children new = [] -> (cls new = Text -> parent new = Some h) -> tidy (mkdoc (attach (nodes d) h n new) cur).
Proof.
  intros d h n new cur [W H1 H2] Hn Wn Hch Ht. split; [exact Wn| |]; cbn [nodes].
  - intros r Hr. rewrite (attach_nth _ _ _ _ _ Hn) in Hr. pose proof (nth_lt _ _ _ _ Hn). destruct (Nat.eqb_spec root (List.length (nodes d))) as [E|_]; [unfold root in E; lia|].
    destruct (Nat.eqb_spec root h) as [<-|_]; [injection Hr as <-; cbn [attrs text processor with_children]; apply H1; exact Hn|apply H1; exact Hr].
  - intros c m i x Hc I Hx Kx. rewrite (attach_nth _ _ _ _ _ Hn) in Hc. rewrite (attach_nth _ _ _ _ _ Hn) in Hx.
    destruct (Nat.eqb_spec c (List.length (nodes d))) as [->|N1]; [injection Hc as <-; rewrite Hch in I; destruct I|].
    assert (Hold : forall y z, nth_error (nodes d) i = Some y -> cls y = Text -> nth_error (nodes d) c = Some z -> In i (children z) -> parent y = Some c)
      by (intros y z A1 A2 A3 A4; apply (H2 c z i y A3 A4 A1 A2)).
    destruct (Nat.eqb_spec c h) as [->|N2].
    + injection Hc as <-. cbn [children with_children] in I. apply in_app_or in I.
      destruct (Nat.eqb_spec i (List.length (nodes d))) as [->|N3]; [injection Hx as <-; apply Ht; exact Kx|]. destruct I as [I|[I|[]]]; [|congruence].
      destruct (Nat.eqb_spec i h) as [->|N4]; [injection Hx as <-; cbn [parent with_children cls] in *; apply (Hold n n); auto|apply (Hold x n); auto].
    + destruct (Nat.eqb_spec i (List.length (nodes d))) as [->|N3]; [pose proof (wf_children d W _ _ _ Hc I); lia|].
      destruct (Nat.eqb_spec i h) as [->|N4]; [injection Hx as <-; cbn [parent with_children cls] in *; apply (Hold n m); auto|apply (Hold x m); auto].
Qed.
Lemma tidy_set : forall d i n n', tidy d -> nth_error (nodes d) i = Some n -> wf (mkdoc (set_node (nodes d) i n') (current d)) ->
  cls n' = cls n -> parent n' = parent n -> children n' = children n -> (i = root -> attrs n' = attrs n /\ text n' = text n /\ processor n' = processor n) ->
  tidy (mkdoc (set_node (nodes d) i n') (current d)).
Proof.
  intros d i n n' [W H1 H2] Hn Wn E1 E2 E3 Hr. split; [exact Wn| |]; cbn [nodes].
  - intros r H. rewrite (set_nth _ _ _ _ _ Hn) in H. destruct (Nat.eqb_spec root i) as [<-|_]; [|apply H1; exact H].
    injection H as <-. destruct (Hr eq_refl) as (A1 & A2 & A3). rewrite A1, A2, A3. apply H1. exact Hn.
  - intros c m j x Hc I Hx Kx. rewrite (set_nth _ _ _ _ _ Hn) in Hc. rewrite (set_nth _ _ _ _ _ Hn) in Hx.
    assert (Hc' : exists m0, nth_error (nodes d) c = Some m0 /\ children m0 = children m).
    { destruct (Nat.eqb_spec c i) as [->|]; [injection Hc as <-; exists n; auto|exists m; auto]. }
    assert (Hx' : exists x0, nth_error (nodes d) j = Some x0 /\ cls x0 = cls x /\ parent x0 = parent x).
    { destruct (Nat.eqb_spec j i) as [->|]; [injection Hx as <-; exists n; auto|exists x; auto]. }
    destruct Hc' as (m0 & A1 & A2). destruct Hx' as (x0 & B1 & B2 & B3). rewrite <- B3. apply (H2 c m0 j x0 A1); [rewrite A2; exact I|exact B1|congruence].
Qed.
Definition kept (d e : doc) : Prop := d = e /\ tidy d.
Definition new_id (i j : nat) : Prop := i = j /\ i <> root.
Notation unary Q m := (rel kept Q m m).
Lemma k_enter : forall k a, k <> BgRoot -> k <> Text -> unary new_id (m_enter k a).
Proof.
  intros k a HR HT d e [<- I]. unfold m_enter, enter. pose proof (t_wf d I) as W.
  assert (W1 : wf (fst (exec d (Append k a)))) by (apply exec_wf; exact W). assert (W2 : wf (fst (exec d (Enter k a)))) by (apply exec_wf; exact W).
  cbn [exec] in W1, W2. unfold enter in W2. destruct (append d k a) as [d' r] eqn:Ea.
  destruct (append_cases _ _ _ _ _ W Ea) as [(-> & H)|(x & h & m & Hx & U & Hm & Ha & _ & Hl & -> & ->)].
  - destruct r as [i|f]; [destruct H as [[_ H]|[_ H]]; discriminate|]. cbn [fst snd lift]. split; [split; auto|reflexivity].
  - cbn [fst snd lift goto nodes] in *. split; [split; [reflexivity|]|].
    + apply tidy_attach; auto. cbn [cls created]. congruence.
    + split; [reflexivity|]. pose proof (nth_lt _ _ _ _ Hm). unfold root. lia.
Qed.
Lemma k_toc : unary eq (run_op table_of_contents).
Proof.
  intros d e [<- I]. unfold run_op, table_of_contents. pose proof (t_wf d I) as W. pose proof (exec_wf d (Append MacroNode [("editor", VOther)]) W) as W1. cbn [exec] in *.
  destruct (append d MacroNode [("editor", VOther)]) as [d' r] eqn:Ea.
  destruct (append_cases _ _ _ _ _ W Ea) as [(-> & H)|(x & h & m & Hx & U & Hm & Ha & _ & Hl & -> & ->)].
  - destruct r as [i|f]; [destruct H as [[_ H]|[_ H]]; discriminate|]. cbn [fst snd lift]. split; [split; auto|reflexivity].
  - cbn [fst snd lift] in *. split; [split; [reflexivity|]|reflexivity]. apply tidy_attach; auto. discriminate.
Qed.
Lemma k_leave : forall ks, unary eq (m_leave ks).
Proof.
  intros ks d e [<- I]. unfold m_leave, run_op. pose proof (exec_wf d (Leave ks) (t_wf d I)) as W. cbn [exec] in *. unfold leave in *.
  destruct (look d (fun n => is_any (cls n) ks)) as [[i|]|f]; cbn [fst snd lift] in *; (split; [split; [reflexivity|]|reflexivity]); auto. apply tidy_goto; assumption.
Qed.
Lemma k_text : forall s, unary eq (m_text s).
Proof.
  intros s d e [<- I]. unfold m_text, run_op. pose proof (t_wf d I) as W. pose proof (exec_wf d (AddText s) W) as W'. cbn [exec] in *. unfold append_text in *.
  destruct (current d) as [c|] eqn:Hc; cbn [fst snd lift] in *; [|split; [split; auto|reflexivity]].
  destruct (nth_error (nodes d) c) as [n|] eqn:Hn; cbn [fst snd lift] in *; [|split; [split; auto|reflexivity]].
  assert (Hnew : wf (mkdoc (attach (nodes d) c n (mknode Text [] s None (Some c) [])) (Some c)) -> tidy (mkdoc (attach (nodes d) c n (mknode Text [] s None (Some c) [])) (Some c)))
    by (intro W0; apply tidy_attach; auto).
  destruct (rev (children n)) as [|i l] eqn:Er; cbn [fst snd lift] in *; [split; [split; [reflexivity|apply Hnew; exact W']|reflexivity]|].
  destruct (nth_error (nodes d) i) as [m|] eqn:Hm; cbn [fst snd lift] in *; [|split; [split; auto|reflexivity]].
  destruct (cls m) eqn:Km; cbn [fst snd lift] in *; try (split; [split; [reflexivity|apply Hnew; exact W']|reflexivity]).
  split; [split; [reflexivity|]|reflexivity]. unfold update in *. rewrite Hm in *. apply (tidy_set d i m); auto; try reflexivity.
  intros ->. destruct (wf_root d W) as (r & H1 & H2 & _). congruence.
Qed.
Lemma k_pure : forall (X : Type) (f : doc -> res X), unary eq (fun d => (d, f d)).
Proof. intros X f d e [<- I]. cbn [fst snd]. split; [split; auto|]. unfold lift. destruct (f d); reflexivity. Qed.
Lemma k_goto : forall i j, i = j -> rel kept eq (run_op (GoTo i)) (run_op (GoTo j)).
Proof.
  intros i j <- d e [<- I]. unfold run_op. pose proof (exec_wf d (GoTo i) (t_wf d I)) as W. cbn [exec] in *.
  destruct (Nat.ltb i (List.length (nodes d))); cbn [fst snd lift] in *; (split; [split; [reflexivity|]|reflexivity]); [apply tidy_goto; assumption|exact I].
Qed.
Lemma k_set : forall i j s, new_id i j -> rel kept eq (set_url i s) (set_url j s).
Proof.
  intros i j s [<- N] d e [<- I]. unfold set_url, run_op. pose proof (exec_wf d (SetAttr i "href" (VStr s)) (t_wf d I)) as W. cbn [exec fst snd lift] in *.
  split; [split; [reflexivity|]|reflexivity]. unfold set_attr, update in *. destruct (nth_error (nodes d) i) as [n|] eqn:Hn; [|exact I].
  apply (tidy_set d i n); auto; try reflexivity. intro C. contradiction.
Qed.
Lemma k_wrapping : forall d i n, tidy d -> nth_error (nodes d) i = Some n -> cls n = Wrapping -> i <> root.
Proof. intros d i n I H K ->. destruct (wf_root d (t_wf d I)) as (r & H1 & H2 & _). congruence. Qed.
Lemma k_add : forall i j s, i = j -> rel kept eq (run_op (AddLine i s)) (run_op (AddLine j s)).
Proof.
  intros i j s <- d e [<- I]. unfold run_op. pose proof (exec_wf d (AddLine i s) (t_wf d I)) as W. cbn [exec] in *.
  destruct (nth_error (nodes d) i) as [n|] eqn:Hn; cbn [fst snd lift] in *; [|split; [split; auto|reflexivity]].
  destruct (cls n) eqn:K; cbn [fst snd lift] in *; try solve [split; [split; auto|reflexivity]]. split; [split; [reflexivity|]|reflexivity].
  unfold add_line, update in *. rewrite Hn in *. apply (tidy_set d i n); auto; try reflexivity. intro C. exfalso. apply (k_wrapping _ _ _ I Hn K C).
Qed.
Lemma k_name : forall i j s, i = j -> rel kept eq (run_op (SetProcessor i s)) (run_op (SetProcessor j s)).
Proof.
  intros i j s <- d e [<- I]. unfold run_op. pose proof (exec_wf d (SetProcessor i s) (t_wf d I)) as W. cbn [exec] in *.
  destruct (nth_error (nodes d) i) as [n|] eqn:Hn; cbn [fst snd lift] in *; [|split; [split; auto|reflexivity]].
  destruct (cls n) eqn:K; cbn [fst snd lift] in *; try solve [split; [split; auto|reflexivity]]. split; [split; [reflexivity|]|reflexivity].
  unfold set_processor, update in *. rewrite Hn in *. apply (tidy_set d i n); auto; try reflexivity. intro C. exfalso. apply (k_wrapping _ _ _ I Hn K C).
Qed.
Lemma opt_refl : forall (X : Type) (o : option X), opt eq o o.
Proof. intros X [x|]; cbn [opt]; auto. Qed.
Lemma tidy_lines : forall design_order wikipath now urlencode analysis ls d, tidy d -> tidy (fst (m_each (parse_line design_order wikipath now urlencode analysis) ls d)).
Proof.
  intros design_order wikipath now urlencode analysis ls d I.
  assert (Ha : forall ks, rel kept (opt eq) (m_ancestor ks) (m_ancestor ks)).
  { intros ks d0 e0 [<- I0]. unfold m_ancestor. cbn [fst snd]. split; [split; auto|]. destruct (ancestor d0 ks); cbn [lift]; [apply opt_refl|reflexivity]. }
  apply (r_lines kept eq new_id (fun k a H1 H2 _ => k_enter k a H1 H2) (r_div kept eq new_id k_enter Ha) k_leave k_text Ha) with (d := d) (e := d); try (split; auto; fail).
  - intros ks. apply (k_pure nat (fun d => count_nesting d ks)).
  - apply k_set.
  - apply k_goto.
  - intros d0 e0 [<- I0]. unfold run_op. pose proof (exec_wf d0 Done (t_wf d0 I0)) as W. cbn [exec fst snd lift] in *. split; [split; [reflexivity|]|reflexivity]. apply tidy_goto; assumption.
  - intros d0 e0 [<- I0]. unfold m_current. cbn [fst snd]. split; [split; auto|]. destruct (current d0); [|reflexivity]. destruct (nth_error (nodes d0) n); [split; reflexivity|reflexivity].
  - apply k_add.
  - apply k_name.
  - apply k_toc.
  - intros d0 e0 [<- _]. apply opt_refl.
  - intros d0 e0 i j [<- _] <-. destruct (nth_error (nodes d0) i); [split; reflexivity|exact Logic.I].
Qed.

(* ---- the nodes of a text, behind those of another one ---- *)
Section Shift.
Variable base : list node.
Variable top : node.
Hypothesis Htop : nth_error base root = Some top.
Hypothesis Hin : forall i, In i (children top) -> root < i < List.length base.
Hypothesis Hlast : forall i n, In i (children top) -> nth_error base i = Some n -> cls n <> Text.
Definition sh (i : nat) : nat := match i with 0 => 0 | Datatypes.S j => j + List.length base end.
Definition place (i : nat) (n : node) : node :=
  mknode (cls n) (attrs n) (text n) (processor n) (option_map sh (parent n)) ((if Nat.eqb i root then children top else []) ++ map sh (children n)).
Record behind (d e : doc) : Prop := {
  b_wf : wf d;
  b_len : S (List.length (nodes e)) = List.length (nodes d) + List.length base;
  b_old : forall i, root < i < List.length base -> nth_error (nodes e) i = nth_error base i;
  b_new : forall i n, nth_error (nodes d) i = Some n -> nth_error (nodes e) (sh i) = Some (place i n);
  b_cur : current e = option_map sh (current d) }.
Lemma base_len : List.length base > 0.
Proof. apply nth_lt in Htop. unfold root in Htop. lia. Qed.
Lemma sh_inj : forall i j, sh i = sh j -> i = j.
Proof. pose proof base_len. intros [|i] [|j]; cbn [sh]; lia. Qed.
Lemma sh_len : forall d e, behind d e -> sh (List.length (nodes d)) = List.length (nodes e).
Proof. intros d e B. pose proof (b_len d e B). destruct (wf_root d (b_wf d e B)) as (r & Hr & _). apply nth_lt in Hr. unfold root in Hr. destruct (List.length (nodes d)); cbn [sh]; lia. Qed.
Lemma sh_range : forall d e i, behind d e -> i < List.length (nodes d) -> sh i < List.length (nodes e).
Proof. intros d e i B H. rewrite <- (sh_len d e B). pose proof base_len. destruct i, (List.length (nodes d)); cbn [sh]; lia. Qed.
Lemma sh_out : forall d e i, behind d e -> nth_error (nodes d) i = None -> nth_error (nodes e) (sh i) = None.
Proof.
  intros d e i B H. apply nth_error_None in H. apply nth_error_None. rewrite <- (sh_len d e B). destruct (wf_root d (b_wf d e B)) as (r & Hr & _). apply nth_lt in Hr. unfold root in Hr.
  destruct i; [lia|]. destruct (List.length (nodes d)); cbn [sh]; lia.
Qed.
Lemma sh_base : forall i j, root < j < List.length base -> sh i <> j.
Proof. intros [|i] j; unfold root; cbn [sh]; lia. Qed.
Lemma climb_sh : forall d e (p : node -> bool), behind d e -> (forall i n, p (place i n) = p n) ->
  forall f f' i r, f <= f' -> climb f (nodes d) p i = Ok r -> climb f' (nodes e) p (option_map sh i) = Ok (option_map sh r).
Proof.
  intros d e p B Hp. induction f as [|f IH]; intros f' i r Hf H; cbn [climb] in H; [discriminate|]. destruct f' as [|f']; [lia|]. cbn [climb].
  destruct i as [i|]; cbn [option_map]; [|injection H as <-; reflexivity]. destruct (nth_error (nodes d) i) as [n|] eqn:Hn; [|discriminate].
  rewrite (b_new d e B i n Hn), Hp. destruct (p n); [injection H as <-; reflexivity|]. cbn [place parent]. apply IH; [lia|exact H].
Qed.
Lemma look_sh : forall d e (p : node -> bool), behind d e -> (forall i n, p (place i n) = p n) -> forall r, look d p = Ok r -> look e p = Ok (option_map sh r).
Proof.
  intros d e p B Hp r H. unfold look in *. rewrite (b_cur d e B). apply (climb_sh d e p B Hp (S (fuel d))); [|exact H].
  unfold fuel. pose proof (b_len d e B). pose proof base_len. lia.
Qed.
Lemma count_sh : forall d e (p : node -> bool), behind d e -> (forall i n, p (place i n) = p n) ->
  forall f f' i r, f <= f' -> count_up f (nodes d) p i = Ok r -> count_up f' (nodes e) p (option_map sh i) = Ok r.
Proof.
  intros d e p B Hp. induction f as [|f IH]; intros f' i r Hf H; cbn [count_up] in H; [discriminate|]. destruct f' as [|f']; [lia|]. cbn [count_up].
  destruct i as [i|]; cbn [option_map]; [|injection H as <-; reflexivity]. destruct (nth_error (nodes d) i) as [n|] eqn:Hn; [|discriminate].
  rewrite (b_new d e B i n Hn), Hp. destruct (count_up f (nodes d) p (parent n)) as [c|] eqn:Ec; [|discriminate]. cbn [place parent].
  rewrite (IH f' (parent n) c); [exact H|lia|exact Ec].
Qed.
Lemma behind_goto : forall d e c, behind d e -> wf (mkdoc (nodes d) c) -> behind (mkdoc (nodes d) c) (mkdoc (nodes e) (option_map sh c)).
Proof. intros d e c [W L O N C] W'. split; auto. Qed.
Lemma behind_attach : forall d e h n new cur, behind d e -> nth_error (nodes d) h = Some n -> children new = [] ->
  wf (mkdoc (attach (nodes d) h n new) cur) ->
  behind (mkdoc (attach (nodes d) h n new) cur) (mkdoc (attach (nodes e) (sh h) (place h n) (mknode (cls new) (attrs new) (text new) (processor new) (option_map sh (parent new)) [])) (option_map sh cur)).
Proof.
  intros d e h n new cur B Hn Hch W'. pose proof (b_new d e B h n Hn) as Hn'. split; auto; cbn [nodes].
  - rewrite (attach_length _ _ _ _ Hn), (attach_length _ _ _ _ Hn'). pose proof (b_len d e B). lia.
  - intros i Hi. rewrite (attach_nth _ _ _ _ _ Hn'). pose proof (b_len d e B). destruct (wf_root d (b_wf d e B)) as (r & Hr & _). apply nth_lt in Hr.
    destruct (Nat.eqb_spec i (List.length (nodes e))) as [->|_]; [unfold root in *; lia|]. destruct (Nat.eqb_spec i (sh h)) as [->|_]; [exfalso; apply (sh_base h (sh h) Hi); reflexivity|].
    apply (b_old d e B). exact Hi.
  - intros i m Hi. rewrite (attach_nth _ _ _ _ _ Hn) in Hi. rewrite (attach_nth _ _ _ _ _ Hn'). rewrite <- (sh_len d e B).
    destruct (Nat.eqb_spec i (List.length (nodes d))) as [->|N1].
    + injection Hi as <-. rewrite Nat.eqb_refl. f_equal. unfold place. rewrite Hch. cbn [map]. pose proof (nth_lt _ _ _ _ Hn).
      destruct (Nat.eqb_spec (List.length (nodes d)) root) as [E|_]; [unfold root in E; lia|]. reflexivity.
    + destruct (Nat.eqb_spec (sh i) (sh (List.length (nodes d)))) as [E|_]; [apply sh_inj in E; contradiction|].
      destruct (Nat.eqb_spec i h) as [->|N2].
      * rewrite Nat.eqb_refl. injection Hi as <-. f_equal. unfold place, with_children. cbn [cls attrs text processor parent children]. rewrite map_app, app_assoc. reflexivity.
      * destruct (Nat.eqb_spec (sh i) (sh h)) as [E|_]; [apply sh_inj in E; contradiction|]. apply (b_new d e B). exact Hi.
Qed.
Lemma behind_set : forall d e i n n', behind d e -> nth_error (nodes d) i = Some n -> wf (mkdoc (set_node (nodes d) i n') (current d)) ->
  behind (mkdoc (set_node (nodes d) i n') (current d)) (mkdoc (set_node (nodes e) (sh i) (place i n')) (current e)).
Proof.
  intros d e i n n' B Hn W'. pose proof (b_new d e B i n Hn) as Hn'. split; auto; cbn [nodes current].
  - rewrite (set_length _ _ _ _ Hn), (set_length _ _ _ _ Hn'). apply (b_len d e B).
  - intros j Hj. rewrite (set_nth _ _ _ _ _ Hn'). destruct (Nat.eqb_spec j (sh i)) as [->|_]; [exfalso; apply (sh_base i (sh i) Hj); reflexivity|]. apply (b_old d e B). exact Hj.
  - intros j m Hj. rewrite (set_nth _ _ _ _ _ Hn) in Hj. rewrite (set_nth _ _ _ _ _ Hn'). destruct (Nat.eqb_spec j i) as [->|N].
    + rewrite Nat.eqb_refl. injection Hj as <-. reflexivity.
    + destruct (Nat.eqb_spec (sh j) (sh i)) as [E|_]; [apply sh_inj in E; contradiction|]. apply (b_new d e B). exact Hj.
  - apply (b_cur d e B).
Qed.
Definition moved (i j : nat) : Prop := j = sh i.
Lemma s_enter : forall k a, k <> BgRoot -> k <> Text -> rel behind moved (m_enter k a) (m_enter k a).
Proof.
  intros k a HR _ d e B. unfold m_enter, enter. pose proof (b_wf d e B) as W. pose proof (exec_wf d (Enter k a) W) as W2. cbn [exec] in W2. unfold enter in W2.
  assert (E : forall x, append x k a = match look x (fun n => is_acceptable (cls n) k) with
      | Exc f => (x, Exc f) | Ok None => (x, Exc AttributeError)
      | Ok (Some c) => (mkdoc (nodes (update x c (fun n => with_children n (children n ++ [List.length (nodes x)]))) ++ [created k a (current x)]) (Some c), Ok (List.length (nodes x)))
      end) by (intro x; destruct k; try reflexivity; contradiction).
  rewrite !E in *. destruct (look_ok d (fun n => is_acceptable (cls n) k) W) as [r Hr]. rewrite (look_sh d e (fun n => is_acceptable (cls n) k) B (fun _ _ => eq_refl) r Hr). rewrite Hr in *.
  destruct r as [c|]; cbn [option_map]; cbn [fst snd lift] in *; [|split; [exact B|reflexivity]].
  destruct (look_some _ _ _ Hr) as (x & n & Hx & U & Hn & Hp). unfold update in *. rewrite Hn in *. rewrite (b_new d e B c n Hn).
  cbn [goto nodes fst snd] in *. split; [|symmetry; apply (sh_len d e B)].
  rewrite <- (sh_len d e B). change (Some (sh (List.length (nodes d)))) with (option_map sh (Some (List.length (nodes d)))). rewrite (sh_len d e B), (b_cur d e B).
  exact (behind_attach d e c n (created k a (current d)) (Some (List.length (nodes d))) B Hn eq_refl W2).
Qed.
Lemma s_toc : rel behind eq (run_op table_of_contents) (run_op table_of_contents).
Proof.
  intros d e B. unfold run_op, table_of_contents. pose proof (b_wf d e B) as W. pose proof (exec_wf d (Append MacroNode [("editor", VOther)]) W) as W2. cbn [exec] in *. unfold append in *.
  destruct (look_ok d (fun n => is_acceptable (cls n) MacroNode) W) as [r Hr]. rewrite (look_sh d e (fun n => is_acceptable (cls n) MacroNode) B (fun _ _ => eq_refl) r Hr). rewrite Hr in *.
  destruct r as [c|]; cbn [option_map]; cbn [fst snd lift] in *; [|split; [exact B|reflexivity]].
  destruct (look_some _ _ _ Hr) as (x & n & Hx & U & Hn & Hp). unfold update in *. rewrite Hn in *. rewrite (b_new d e B c n Hn).
  cbn [nodes fst snd] in *. split; [|reflexivity]. rewrite (b_cur d e B). change (Some (sh c)) with (option_map sh (Some c)).
  exact (behind_attach d e c n (created MacroNode [("editor", VOther)] (current d)) (Some c) B Hn eq_refl W2).
Qed.
Lemma s_leave : forall ks, rel behind eq (m_leave ks) (m_leave ks).
Proof.
  intros ks d e B. unfold m_leave, run_op. pose proof (b_wf d e B) as W. pose proof (exec_wf d (Leave ks) W) as W2. cbn [exec] in *. unfold leave in *.
  destruct (look_ok d (fun n => is_any (cls n) ks) W) as [r Hr]. rewrite (look_sh d e (fun n => is_any (cls n) ks) B (fun _ _ => eq_refl) r Hr). rewrite Hr in *.
  destruct r as [c|]; cbn [option_map fst snd lift] in *; (split; [|reflexivity]); [|exact B].
  destruct (look_some _ _ _ Hr) as (x & n & Hx & U & Hn & Hp). rewrite Hn in *. rewrite (b_new d e B c n Hn). cbn [place parent]. apply behind_goto; assumption.
Qed.
Lemma s_text : forall s, rel behind eq (m_text s) (m_text s).
Proof.
  intros s d e B. unfold m_text, run_op. pose proof (b_wf d e B) as W. pose proof (exec_wf d (AddText s) W) as W'. cbn [exec] in *. unfold append_text in *.
  rewrite (b_cur d e B). destruct (current d) as [c|] eqn:Hc; cbn [option_map]; cbn [fst snd lift] in *; [|split; [exact B|reflexivity]].
  destruct (nth_error (nodes d) c) as [n|] eqn:Hn; cbn [fst snd lift] in *; [|exfalso; apply nth_error_None in Hn; pose proof (wf_current d W c Hc); lia].
  pose proof (b_new d e B c n Hn) as Hn'. rewrite Hn'. set (new := mknode Text [] s None (Some c) []).
  assert (Hnew : wf (mkdoc (attach (nodes d) c n new) (Some c)) ->
    behind (mkdoc (attach (nodes d) c n new) (Some c)) (mkdoc (attach (nodes e) (sh c) (place c n) (mknode Text [] s None (Some (sh c)) [])) (Some (sh c))))
    by (intro W0; exact (behind_attach d e c n new (Some c) B Hn eq_refl W0)).
  assert (Erev : rev (children (place c n)) = map sh (rev (children n)) ++ rev (if Nat.eqb c root then children top else []))
    by (cbn [place children]; rewrite rev_app_distr, map_rev; reflexivity).
  destruct (rev (children n)) as [|i l] eqn:Er; cbn [map app] in Erev; rewrite Erev.
  - cbn [fst snd] in *. assert (Hgo : forall X (r : X) (b : X), (if Nat.eqb c root then children top else []) = [] -> match rev (if Nat.eqb c root then children top else []) with [] => r | _ :: _ => b end = r)
      by (intros X r b ->; reflexivity).
    destruct (Nat.eqb_spec c root) as [->|N]; cbn [rev]; [|split; [apply Hnew; exact W'|reflexivity]].
    destruct (rev (children top)) as [|j l] eqn:Et; [split; [apply Hnew; exact W'|reflexivity]|].
    destruct (last_rev _ _ _ 0 Et) as [_ Hj]. rewrite (b_old d e B j (Hin j Hj)). destruct (nth_some _ base j (proj2 (Hin j Hj))) as [m Hm]. rewrite Hm.
    pose proof (Hlast j m Hj Hm) as Km. destruct (cls m); try contradiction; (split; [apply Hnew; exact W'|reflexivity]).
  - destruct (last_rev _ _ _ 0 Er) as [_ Hi]. destruct (nth_some _ _ i (proj2 (wf_children d W _ _ _ Hn Hi))) as [m Hm].
    rewrite Hm in *. rewrite (b_new d e B i m Hm). cbn [place cls].
    destruct (cls m) eqn:Km; cbn [fst snd lift] in *; try (split; [apply Hnew; exact W'|reflexivity]).
    split; [|reflexivity]. unfold update in *. rewrite Hm in *. rewrite (b_new d e B i m Hm). exact (behind_set d e i m (with_text m (text m ++ s)) B Hm W').
Qed.
Lemma s_ancestor : forall ks, rel behind (opt moved) (m_ancestor ks) (m_ancestor ks).
Proof.
  intros ks d e B. unfold m_ancestor, ancestor. cbn [fst snd]. split; [exact B|]. destruct (look_ok d (fun n => is_any (cls n) ks) (b_wf d e B)) as [r Hr].
  rewrite (look_sh d e (fun n => is_any (cls n) ks) B (fun _ _ => eq_refl) r Hr), Hr. destruct r as [c|]; cbn [lift option_map opt]; [reflexivity|exact I].
Qed.
Lemma count_total : forall d p, wf d -> forall f i, (forall c, i = Some c -> c + 1 < f /\ c < List.length (nodes d)) -> f > 0 -> exists r, count_up f (nodes d) p i = Ok r.
Proof.
  intros d p W. induction f as [|f IH]; intros i H Fp; [lia|]. cbn [count_up]. destruct i as [i|]; [|eauto].
  destruct (H i eq_refl) as [H1 H2]. destruct (nth_some _ _ _ H2) as [n Hn]. rewrite Hn.
  destruct (IH (parent n)) as [r ->]; [|lia|eauto]. intros c Hc. pose proof (wf_parent d W _ _ _ Hn Hc). lia.
Qed.
Lemma s_count : forall ks, rel behind eq (m_count ks) (m_count ks).
Proof.
  intros ks d e B. unfold m_count, count_nesting. cbn [fst snd]. split; [exact B|]. pose proof (b_wf d e B) as W.
  destruct (count_total d (fun n => is_any (cls n) ks) W (S (fuel d)) (current d)) as [r Hr]; [|lia|].
  - intros c Hc. pose proof (wf_current d W c Hc). unfold fuel. lia.
  - rewrite (b_cur d e B), (count_sh d e (fun n => is_any (cls n) ks) B (fun _ _ => eq_refl) (S (fuel d)) (S (fuel e)) (current d) r); [rewrite Hr; reflexivity| |exact Hr].
    unfold fuel. pose proof (b_len d e B). pose proof base_len. lia.
Qed.
Lemma s_set : forall i j s, moved i j -> rel behind eq (set_url i s) (set_url j s).
Proof.
  intros i j s -> d e B. unfold set_url, run_op. pose proof (exec_wf d (SetAttr i "href" (VStr s)) (b_wf d e B)) as W. cbn [exec fst snd lift] in *. split; [|reflexivity].
  unfold set_attr, update in *. destruct (nth_error (nodes d) i) as [n|] eqn:Hn; [|rewrite (sh_out d e i B Hn); exact B].
  rewrite (b_new d e B i n Hn). exact (behind_set d e i n _ B Hn W).
Qed.
Lemma s_goto : forall i j, moved i j -> rel behind eq (run_op (GoTo i)) (run_op (GoTo j)).
Proof.
  intros i j -> d e B. unfold run_op. pose proof (exec_wf d (GoTo i) (b_wf d e B)) as W. cbn [exec] in *.
  destruct (nth_error (nodes d) i) as [n|] eqn:Hn.
  - pose proof (nth_lt _ _ _ _ Hn) as L1. pose proof (sh_range d e i B L1) as L2. rewrite (proj2 (Nat.ltb_lt _ _) L1) in *. rewrite (proj2 (Nat.ltb_lt _ _) L2).
    cbn [fst snd lift] in *. split; [|reflexivity]. exact (behind_goto d e (Some i) B W).
  - pose proof (sh_out d e i B Hn) as H2. apply nth_error_None in Hn, H2. rewrite (proj2 (Nat.ltb_ge _ _) Hn), (proj2 (Nat.ltb_ge _ _) H2). split; [exact B|reflexivity].
Qed.
Lemma s_done : rel behind eq (run_op Done) (run_op Done).
Proof.
  intros d e B. unfold run_op. pose proof (exec_wf d Done (b_wf d e B)) as W. cbn [exec fst snd lift] in *. split; [|reflexivity]. exact (behind_goto d e (Some root) B W).
Qed.
Lemma s_current : rel behind alike m_current m_current.
Proof.
  intros d e B. unfold m_current. cbn [fst snd]. split; [exact B|]. rewrite (b_cur d e B). destruct (current d) as [c|]; cbn [option_map]; [|reflexivity].
  destruct (nth_error (nodes d) c) as [n|] eqn:Hn; [rewrite (b_new d e B c n Hn); split; reflexivity|rewrite (sh_out d e c B Hn); reflexivity].
Qed.
Lemma s_add : forall i j s, moved i j -> rel behind eq (run_op (AddLine i s)) (run_op (AddLine j s)).
Proof.
  intros i j s -> d e B. unfold run_op. pose proof (exec_wf d (AddLine i s) (b_wf d e B)) as W. cbn [exec] in *.
  destruct (nth_error (nodes d) i) as [n|] eqn:Hn; [|rewrite (sh_out d e i B Hn); split; [exact B|reflexivity]]. rewrite (b_new d e B i n Hn). cbn [place cls].
  destruct (cls n) eqn:K; cbn [fst snd lift] in *; try (split; [exact B|reflexivity]). split; [|reflexivity].
  unfold add_line, update in *. rewrite Hn in *. rewrite (b_new d e B i n Hn). exact (behind_set d e i n _ B Hn W).
Qed.
Lemma s_name : forall i j s, moved i j -> rel behind eq (run_op (SetProcessor i s)) (run_op (SetProcessor j s)).
Proof.
  intros i j s -> d e B. unfold run_op. pose proof (exec_wf d (SetProcessor i s) (b_wf d e B)) as W. cbn [exec] in *.
  destruct (nth_error (nodes d) i) as [n|] eqn:Hn; [|rewrite (sh_out d e i B Hn); split; [exact B|reflexivity]]. rewrite (b_new d e B i n Hn). cbn [place cls].
  destruct (cls n) eqn:K; cbn [fst snd lift] in *; try (split; [exact B|reflexivity]). split; [|reflexivity].
  unfold set_processor, update in *. rewrite Hn in *. rewrite (b_new d e B i n Hn). exact (behind_set d e i n _ B Hn W).
Qed.
Lemma s_place : forall d e, behind d e -> opt moved (current d) (current e).
Proof. intros d e B. rewrite (b_cur d e B). destruct (current d); cbn [option_map opt]; [reflexivity|exact I]. Qed.
Lemma s_node : forall d e i j, behind d e -> moved i j -> opt alike (nth_error (nodes d) i) (nth_error (nodes e) j).
Proof.
  intros d e i j B ->. destruct (nth_error (nodes d) i) as [n|] eqn:Hn; [rewrite (b_new d e B i n Hn); split; reflexivity|rewrite (sh_out d e i B Hn); exact I].
Qed.
Lemma behind_lines : forall design_order wikipath now urlencode analysis ls,
  rel behind eq (m_each (parse_line design_order wikipath now urlencode analysis) ls) (m_each (parse_line design_order wikipath now urlencode analysis) ls).
Proof.
  intros. exact (r_lines behind moved moved (fun k a H1 H2 _ => s_enter k a H1 H2) (r_div behind moved moved s_enter s_ancestor) s_leave s_text s_ancestor s_count s_set s_goto s_done s_current s_add s_name s_toc s_place s_node design_order wikipath now urlencode analysis ls).
Qed.
Lemma behind_new : cls top = BgRoot -> attrs top = [] -> text top = [] -> processor top = None -> parent top = None -> behind new_doc (mkdoc base (Some root)).
Proof.
  intros E1 E2 E3 E4 E5. split; cbn [nodes current new_doc].
  - apply wf_new.
  - reflexivity.
  - auto.
  - intros [|[|i]] n H; cbn in H; inversion H; subst. cbn [sh]. change 0 with root. rewrite Htop. f_equal. unfold place. cbn. rewrite app_nil_r. destruct top; cbn in *; congruence.
  - reflexivity.
Qed.

End Shift.

(* ---- writing ---- *)
Definition cat2 (a b : res str) : res str := match a with Ok x => match b with Ok y => Ok (x ++ y) | Exc e => Exc e end | Exc e => Exc e end.
Definition cats (l : list (res str)) : res str := fold_right cat2 (Ok []) l.
Lemma cat2_assoc : forall a b c, cat2 (cat2 a b) c = cat2 a (cat2 b c).
Proof. intros [a|] [b|] [c|]; cbn [cat2]; try reflexivity. rewrite app_assoc. reflexivity. Qed.
Lemma cat2_nil : forall b, cat2 (Ok []) b = b.
Proof. intros [b|]; reflexivity. Qed.
Lemma cat2_nil_r : forall b, cat2 b (Ok []) = b.
Proof. intros [b|]; cbn [cat2]; [rewrite app_nil_r|]; reflexivity. Qed.
Lemma cats_app : forall a b, cats (a ++ b) = cat2 (cats a) (cats b).
Proof. induction a as [|x a IH]; intro b; cbn [app cats fold_right]; [symmetry; apply cat2_nil|]. fold (cats (a ++ b)) (cats a). rewrite IH, cat2_assoc. reflexivity. Qed.
Lemma mapM_cats : forall (X : Type) (f : X -> res str) l, match mapM f l with Ok ss => Ok (List.concat ss) | Exc e => Exc e end = cats (map f l).
Proof.
  intros X f. induction l as [|x l IH]; [reflexivity|]. cbn [mapM map cats fold_right]. fold (cats (map f l)). rewrite <- IH.
  destruct (f x); [|reflexivity]. destruct (mapM f l); reflexivity.
Qed.
Section Write.
Variables (order : list string) (rst : str -> res str).
Definition out (ns : list node) (l : list visit) : res str := cats (map (write1 order rst ns) l).
Definition shown (ns : list node) (f i : nat) : res str := match accept f ns i with Ok l => out ns l | Exc e => Exc e end.
Lemma accept_more : forall ns f i l f', accept f ns i = Ok l -> f <= f' -> accept f' ns i = Ok l.
Proof.
  intros ns. induction f as [|f IH]; intros i l f' H Hf; [discriminate|]. destruct f' as [|f']; [lia|]. cbn [accept] in *.
  destruct (nth_error ns i) as [n|]; [|discriminate]. destruct (mapM (accept f ns) (children n)) as [ls|] eqn:E; [|discriminate].
  replace (mapM (accept f' ns) (children n)) with (Ok ls : res (list (list visit))); [exact H|]. symmetry. apply mapM_forall2. apply mapM_forall2 in E.
  clear H. induction E as [|c y cs ys H1 E IHE]; [constructor|constructor; [apply (IH _ _ _ H1); lia|exact IHE]].
Qed.
Lemma out_app : forall ns a b, out ns (a ++ b) = cat2 (out ns a) (out ns b).
Proof. intros. unfold out. rewrite map_app. apply cats_app. Qed.
Lemma out_concat : forall ns f cs ls, Forall2 (fun c l => accept f ns c = Ok l) cs ls -> out ns (List.concat ls) = cats (map (shown ns f) cs).
Proof.
  intros ns f cs ls H. induction H as [|c l cs ls H1 H IH]; [reflexivity|]. cbn [List.concat map cats fold_right]. rewrite out_app, IH. unfold shown at 2. rewrite H1. reflexivity.
Qed.
Lemma render_shown : forall d r, wf d -> nth_error (nodes d) root = Some r -> render order rst d = cats (map (shown (nodes d) (fuel d)) (children r)).
Proof.
  intros d r W Hr. destruct (visit_ok d W) as (l & Hl & _). unfold render. rewrite Hl. rewrite mapM_cats. change (out (nodes d) l = cats (map (shown (nodes d) (fuel d)) (children r))).
  destruct (accept_inv _ _ _ _ Hl) as (n & ls & f' & Ef & Hn & F & El). injection Ef as <-. replace n with r in * by congruence. subst l.
  destruct (wf_root d W) as (r' & Hr' & K & _). replace r' with r in * by congruence.
  change (VEnter root :: List.concat ls ++ [VLeave root]) with ([VEnter root] ++ List.concat ls ++ [VLeave root]). rewrite !out_app, (out_concat _ _ _ _ F).
  unfold out. cbn [map write1 cats fold_right]. rewrite Hr. unfold open, close, generic_open, generic_close. rewrite K. cbn [html_element].
  rewrite !cat2_nil, cat2_nil_r. reflexivity.
Qed.
End Write.
Section Both.
Variables (order : list string) (rst : str -> res str).
Variables (a d e : doc) (top : node).
Hypothesis Wa : wf a.
Hypothesis Htop : nth_error (nodes a) root = Some top.
Hypothesis B : behind (nodes a) top d e.
Notation sh := (sh (nodes a)).
Definition vsh (v : visit) : visit := match v with VEnter i => VEnter (sh i) | VLeave i => VLeave (sh i) end.
Lemma old_accept : forall f i l, root < i < List.length (nodes a) -> accept f (nodes a) i = Ok l ->
  accept f (nodes e) i = Ok l /\ forall v, In v l -> write1 order rst (nodes e) v = write1 order rst (nodes a) v.
Proof.
  induction f as [|f IH]; intros i l Hi H; [discriminate|]. destruct (accept_inv _ _ _ _ H) as (n & ls & f' & Ef & Hn & F & El). injection Ef as <-.
  assert (He : nth_error (nodes e) i = Some n) by (rewrite (b_old _ _ _ _ B i Hi); exact Hn).
  assert (G : Forall2 (fun c l => accept f (nodes e) c = Ok l) (children n) ls /\ forall v l, In l ls -> In v l -> write1 order rst (nodes e) v = write1 order rst (nodes a) v).
  { assert (Hc : forall c, In c (children n) -> root < c < List.length (nodes a)) by (intros c I; pose proof (wf_children a Wa _ _ _ Hn I); lia).
    clear H El Hn He. induction F as [|c l0 cs ls H1 F IHF]; [split; [constructor|intros v l0 []]|].
    destruct IHF as [G1 G2]; [intros c' I; apply Hc; right; exact I|]. destruct (IH c l0 (Hc c (or_introl eq_refl)) H1) as [A1 A2].
    split; [constructor; assumption|]. intros v l1 [<-|I] Iv; [apply A2; exact Iv|apply (G2 v l1 I Iv)]. }
  destruct G as [G1 G2]. split.
  - cbn [accept]. rewrite He. apply mapM_forall2 in G1. rewrite G1, El. reflexivity.
  - subst l. intros v [<-|I]; [cbn [write1]; rewrite He, Hn; reflexivity|]. apply in_app_or in I. destruct I as [I|[<-|[]]]; [|cbn [write1]; rewrite He, Hn; reflexivity].
    apply in_concat in I. destruct I as (l0 & I1 & I2). apply (G2 v l0 I1 I2).
Qed.
Lemma write_place : forall v, (forall i, v = VEnter i \/ v = VLeave i -> exists n, nth_error (nodes d) i = Some n) -> write1 order rst (nodes e) (vsh v) = write1 order rst (nodes d) v.
Proof.
  intros [i|i] H; destruct (H i) as [n Hn]; auto; cbn [vsh write1]; rewrite Hn, (b_new _ _ _ _ B i n Hn); reflexivity.
Qed.
Lemma new_accept : forall f i l, root < i -> accept f (nodes d) i = Ok l ->
  accept f (nodes e) (sh i) = Ok (map vsh l) /\ forall v, In v l -> write1 order rst (nodes e) (vsh v) = write1 order rst (nodes d) v.
Proof.
  induction f as [|f IH]; intros i l Hi H; [discriminate|]. destruct (accept_inv _ _ _ _ H) as (n & ls & f' & Ef & Hn & F & El). injection Ef as <-.
  pose proof (b_new _ _ _ _ B i n Hn) as He.
  assert (G : Forall2 (fun c l => accept f (nodes e) c = Ok l) (map sh (children n)) (map (map vsh) ls) /\ forall v l, In l ls -> In v l -> write1 order rst (nodes e) (vsh v) = write1 order rst (nodes d) v).
  { assert (Hc : forall c, In c (children n) -> root < c) by (intros c I; pose proof (wf_children d (b_wf _ _ _ _ B) _ _ _ Hn I); lia).
    clear H El Hn He. induction F as [|c l0 cs ls H1 F IHF]; [split; [constructor|intros v l0 []]|].
    destruct IHF as [G1 G2]; [intros c' I; apply Hc; right; exact I|]. destruct (IH c l0 (Hc c (or_introl eq_refl)) H1) as [A1 A2].
    split; [cbn [map]; constructor; assumption|]. intros v l1 [<-|I] Iv; [apply A2; exact Iv|apply (G2 v l1 I Iv)]. }
  destruct G as [G1 G2]. split.
  - cbn [accept]. rewrite He. cbn [place children]. destruct (Nat.eqb_spec i root) as [->|_]; [unfold root in Hi; lia|]. cbn [app].
    apply mapM_forall2 in G1. rewrite G1, El. cbn [map vsh]. rewrite map_app, concat_map. reflexivity.
  - subst l. intros v [<-|I]; [apply write_place; intros j [E|E]; inversion E; subst; eauto|]. apply in_app_or in I.
    destruct I as [I|[<-|[]]]; [|apply write_place; intros j [E|E]; inversion E; subst; eauto]. apply in_concat in I. destruct I as (l0 & I1 & I2). apply (G2 v l0 I1 I2).
Qed.
Lemma map_same : forall (X Y : Type) (f g : X -> Y) l, (forall x, In x l -> f x = g x) -> map f l = map g l.
Proof. intros. apply map_ext_in. assumption. Qed.
Lemma both : forall we : wf e, render order rst e = cat2 (render order rst a) (render order rst d).
Proof.
  intros We. destruct (wf_root d (b_wf _ _ _ _ B)) as (r & Hr & _). pose proof (b_new _ _ _ _ B root r Hr) as He. change (sh root) with root in He.
  rewrite (render_shown order rst e _ We He), (render_shown order rst a _ Wa Htop), (render_shown order rst d _ (b_wf _ _ _ _ B) Hr). cbn [place children]. rewrite Nat.eqb_refl.
  rewrite map_app, cats_app. pose proof (b_len _ _ _ _ B) as Ln. assert (L0 : List.length (nodes a) > 0) by (apply nth_lt in Htop; unfold root in Htop; lia).
  assert (L1 : List.length (nodes d) > 0) by (apply nth_lt in Hr; unfold root in Hr; lia). f_equal; f_equal.
  - apply map_same. intros i I. pose proof (wf_children a Wa _ _ _ Htop I) as Hi. unfold shown.
    destruct (accept_ok a Wa (fuel a) i) as [l Hl]; [lia|unfold fuel, root in *; lia|]. rewrite Hl.
    destruct (old_accept (fuel a) i l Hi Hl) as [A1 A2]. rewrite (accept_more _ _ _ _ (fuel e) A1) by (unfold fuel; lia).
    unfold out. f_equal. apply map_same. exact A2.
  - rewrite map_map. apply map_same. intros i I. pose proof (wf_children d (b_wf _ _ _ _ B) _ _ _ Hr I) as Hi. unfold shown.
    destruct (accept_ok d (b_wf _ _ _ _ B) (fuel d) i) as [l Hl]; [lia|unfold fuel, root in *; lia|]. rewrite Hl.
    destruct (new_accept (fuel d) i l (proj1 Hi) Hl) as [A1 A2]. rewrite (accept_more _ _ _ _ (fuel e) A1) by (unfold fuel; lia).
    unfold out. rewrite map_map. f_equal. apply map_same. exact A2.
Qed.
End Both.
