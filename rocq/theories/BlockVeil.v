(* Preformatted blocks that the root holds have no influence on the lines after them *)
From Verif Require Import Py PyFacts Re Rx RxFacts HtmlModel HtmlSpec HtmlProofs TreeModel TreeSpec TreeProofs TreeVisit TocModel TocSpec TocProofs WikiModel WikiSpec WikiFrame.
Open Scope string_scope.
Open Scope list_scope.
Open Scope nat_scope.

Section Veil.
(* the children of the root before and after the blocks; the blocks; what is numbered below [m] was there before the line *)
Variables (P ids : list nat) (w : nat -> node) (m : nat).
Hypothesis w_wrapping : forall i, In i ids -> cls (w i) = Wrapping.
(* two documents, one with the blocks and one without *)
Record veil (d e : doc) : Prop := {
  v_cur : current d = current e;
  v_len : List.length (nodes d) = List.length (nodes e);
  v_root : exists n x, nth_error (nodes e) root = Some n /\ cls n = BgRoot /\ children n = P ++ x /\ nth_error (nodes d) root = Some (with_children n (P ++ ids ++ x)) /\ forall i, In i x -> m <= i;
  v_same : forall j, j <> root -> nth_error (nodes d) j = nth_error (nodes e) j;
  v_ids : forall i, In i ids -> root < i < m /\ nth_error (nodes e) i = Some (w i);
  v_last : exists P0 dv n, P = P0 ++ [dv] /\ nth_error (nodes e) dv = Some n /\ cls n = Div;
  v_away : forall j n p, nth_error (nodes e) j = Some n -> parent n = Some p -> ~ In p ids;
  v_out : forall c, current e = Some c -> ~ In c ids;
  v_nodiv : forall j n, m <= j -> nth_error (nodes e) j = Some n -> cls n <> Div;
  v_old : m <= List.length (nodes e) }.
Definition same (i j : nat) : Prop := i = j /\ ~ In i ids.
Definition fresh (i j : nat) : Prop := i = j /\ ~ In i ids /\ i <> root.
(* nodes are the same but for children *)
Definition twin (a b : option node) : Prop :=
  match a, b with Some n, Some k => cls n = cls k /\ attrs n = attrs k /\ parent n = parent k | None, None => True | _, _ => False end.
Lemma v_twin : forall d e j, veil d e -> twin (nth_error (nodes d) j) (nth_error (nodes e) j).
Proof.
  intros d e j V. destruct (Nat.eq_dec j root) as [->|N].
  - destruct (v_root d e V) as (n & x & H1 & _ & _ & H2 & _). rewrite H1, H2. cbn. auto.
  - rewrite (v_same d e V j N). destruct (nth_error (nodes e) j); cbn; auto.
Qed.
Lemma climb_veil : forall d e q, veil d e -> forall f i, climb f (nodes d) (fun n => q (cls n)) i = climb f (nodes e) (fun n => q (cls n)) i.
Proof.
  intros d e q V. induction f as [|f IH]; intros i; [reflexivity|]. cbn [climb]. destruct i as [i|]; [|reflexivity]. pose proof (v_twin d e i V) as T. unfold twin in T.
  destruct (nth_error (nodes d) i) as [n|], (nth_error (nodes e) i) as [k|]; try contradiction; [|reflexivity]. destruct T as (T1 & _ & T2). rewrite T1, T2, IH. reflexivity.
Qed.
Lemma look_veil : forall d e q, veil d e -> look d (fun n => q (cls n)) = look e (fun n => q (cls n)).
Proof. intros d e q V. unfold look, fuel. rewrite (v_cur d e V), (v_len d e V). apply climb_veil. exact V. Qed.
Lemma count_veil : forall d e q, veil d e -> forall f i, count_up f (nodes d) (fun n => q (cls n)) i = count_up f (nodes e) (fun n => q (cls n)) i.
Proof.
  intros d e q V. induction f as [|f IH]; intros i; [reflexivity|]. cbn [count_up]. destruct i as [i|]; [|reflexivity]. pose proof (v_twin d e i V) as T. unfold twin in T.
  destruct (nth_error (nodes d) i) as [n|], (nth_error (nodes e) i) as [k|]; try contradiction; [|reflexivity]. destruct T as (T1 & _ & T2). rewrite T1, T2, IH. reflexivity.
Qed.
Lemma climb_out : forall d e q, veil d e -> forall f i x, (forall c, i = Some c -> ~ In c ids) -> climb f (nodes e) q i = Ok (Some x) -> ~ In x ids /\ exists n, nth_error (nodes e) x = Some n.
Proof.
  intros d e q V. induction f as [|f IH]; intros i x O H; [discriminate H|]. cbn [climb] in H. destruct i as [i|]; [|discriminate H]. destruct (nth_error (nodes e) i) as [n|] eqn:Hn; [|discriminate H].
  destruct (q n); [injection H as <-; split; [apply O; reflexivity|eauto]|]. apply (IH _ _ (fun c Hc => v_away d e V i n c Hn Hc) H).
Qed.
Lemma look_out : forall d e q x, veil d e -> look e q = Ok (Some x) -> ~ In x ids /\ exists n, nth_error (nodes e) x = Some n.
Proof. intros d e q x V H. eapply (climb_out d e q V); [|exact H]. exact (v_out d e V). Qed.
Lemma root_out : forall d e, veil d e -> ~ In root ids.
Proof. intros d e V I. pose proof (proj1 (v_ids d e V _ I)). unfold root in *. lia. Qed.
Lemma veil_goto : forall d e c, veil d e -> (forall x, c = Some x -> ~ In x ids) -> veil (goto d c) (goto e c).
Proof. intros d e c [H1 H2 H3 H4 H5 H6 H7 H8 H9 H10] O. split; cbn [goto current nodes]; auto. Qed.
(* a node that is no block gets another text or other attributes *)
Lemma veil_set : forall d e c n n', veil d e -> c <> root -> ~ In c ids -> nth_error (nodes e) c = Some n -> cls n' = cls n -> parent n' = parent n ->
  veil (mkdoc (set_node (nodes d) c n') (current d)) (mkdoc (set_node (nodes e) c n') (current e)).
Proof.
  intros d e c n n' V Nc No Hn E1 E2. assert (Hd : nth_error (nodes d) c = Some n) by (rewrite (v_same d e V c Nc); exact Hn).
  split; cbn [current nodes].
  - exact (v_cur d e V).
  - rewrite (set_length _ _ _ _ Hd), (set_length _ _ _ _ Hn). exact (v_len d e V).
  - destruct (v_root d e V) as (r & x & H1 & H2 & H3 & H4 & H5). exists r, x. rewrite (set_nth _ _ _ _ _ Hd), (set_nth _ _ _ _ _ Hn). destruct (Nat.eqb_spec root c); [congruence|]. auto.
  - intros j Nj. rewrite (set_nth _ _ _ _ _ Hd), (set_nth _ _ _ _ _ Hn). destruct (Nat.eqb j c); [reflexivity|]. apply (v_same d e V j Nj).
  - intros i I. destruct (v_ids d e V i I) as [H1 H2]. split; [exact H1|]. rewrite (set_nth _ _ _ _ _ Hn). destruct (Nat.eqb_spec i c); [subst; contradiction|exact H2].
  - destruct (v_last d e V) as (P0 & dv & k & H1 & H2 & H3). exists P0, dv. rewrite (set_nth _ _ _ _ _ Hn). destruct (Nat.eqb_spec dv c) as [->|]; [exists n'; split; [exact H1|]; split; [reflexivity|congruence]|exists k; auto].
  - intros j k p Hj Hp. rewrite (set_nth _ _ _ _ _ Hn) in Hj. destruct (Nat.eqb_spec j c) as [->|]; [injection Hj as <-; rewrite E2 in Hp; exact (v_away d e V _ _ _ Hn Hp)|exact (v_away d e V _ _ _ Hj Hp)].
  - exact (v_out d e V).
  - intros j k L Hj. rewrite (set_nth _ _ _ _ _ Hn) in Hj. destruct (Nat.eqb_spec j c) as [->|]; [injection Hj as <-; rewrite E1; exact (v_nodiv d e V _ _ L Hn)|exact (v_nodiv d e V _ _ L Hj)].
  - rewrite (set_length _ _ _ _ Hn). exact (v_old d e V).
Qed.
(* a node that is no block gets a child *)
Lemma veil_attach : forall d e c k n new cur, veil d e -> nth_error (nodes d) c = Some k -> nth_error (nodes e) c = Some n -> ~ In c ids -> cls new <> Div -> (forall p, parent new = Some p -> ~ In p ids) ->
  (forall x, cur = Some x -> ~ In x ids) -> veil (mkdoc (attach (nodes d) c k new) cur) (mkdoc (attach (nodes e) c n new) cur).
Proof.
  intros d e c k n new cur V Hk Hn No Kd Hp O. pose proof (v_len d e V) as Len. pose proof (v_old d e V) as Old. pose proof (nth_lt _ _ _ _ Hn) as Lc.
  destruct (v_root d e V) as (r & x & R1 & R2 & R3 & R4 & R5). pose proof (nth_lt _ _ _ _ R1) as Lr.
  split; cbn [current nodes].
  - reflexivity.
  - rewrite (attach_length _ _ _ _ Hk), (attach_length _ _ _ _ Hn), Len. reflexivity.
  - rewrite (attach_nth _ _ _ _ _ Hk), (attach_nth _ _ _ _ _ Hn), Len. destruct (Nat.eqb_spec root (List.length (nodes e))); [lia|]. destruct (Nat.eqb_spec root c) as [<-|].
    + replace n with r in * by congruence. replace k with (with_children r (P ++ ids ++ x)) in * by congruence. exists (with_children r (children r ++ [List.length (nodes e)])), (x ++ [List.length (nodes e)]).
      split; [reflexivity|]. split; [exact R2|]. cbn [with_children children cls attrs text processor parent]. rewrite R3. split; [rewrite <- app_assoc; reflexivity|]. split; [rewrite <- !app_assoc; reflexivity|].
      intros i I. apply in_app_or in I. destruct I as [I|[<-|[]]]; [apply R5; exact I|exact Old].
    + exists r, x. auto.
  - intros j Nj. rewrite (attach_nth _ _ _ _ _ Hk), (attach_nth _ _ _ _ _ Hn), Len. destruct (Nat.eqb j (List.length (nodes e))); [reflexivity|]. destruct (Nat.eqb_spec j c) as [->|]; [|apply (v_same d e V j Nj)].
    rewrite (v_same d e V c Nj), Hn in Hk. injection Hk as ->. reflexivity.
  - intros i I. destruct (v_ids d e V i I) as [H1 H2]. split; [exact H1|]. rewrite (attach_nth _ _ _ _ _ Hn). destruct (Nat.eqb_spec i (List.length (nodes e))); [lia|]. destruct (Nat.eqb_spec i c); [subst; contradiction|exact H2].
  - destruct (v_last d e V) as (P0 & dv & q & H1 & H2 & H3). pose proof (nth_lt _ _ _ _ H2). exists P0, dv. rewrite (attach_nth _ _ _ _ _ Hn). destruct (Nat.eqb_spec dv (List.length (nodes e))); [lia|].
    destruct (Nat.eqb_spec dv c) as [->|]; [eexists; split; [exact H1|]; split; [reflexivity|]; cbn; congruence|exists q; auto].
  - intros j q p Hj Hq. rewrite (attach_nth _ _ _ _ _ Hn) in Hj. destruct (Nat.eqb_spec j (List.length (nodes e))); [injection Hj as <-; exact (Hp p Hq)|].
    destruct (Nat.eqb_spec j c) as [->|]; [injection Hj as <-; exact (v_away d e V _ _ _ Hn Hq)|exact (v_away d e V _ _ _ Hj Hq)].
  - exact O.
  - intros j q L Hj. rewrite (attach_nth _ _ _ _ _ Hn) in Hj. destruct (Nat.eqb_spec j (List.length (nodes e))); [injection Hj as <-; exact Kd|].
    destruct (Nat.eqb_spec j c) as [->|]; [injection Hj as <-; exact (v_nodiv d e V _ _ L Hn)|exact (v_nodiv d e V _ _ L Hj)].
  - rewrite (attach_length _ _ _ _ Hn). lia.
Qed.
(* ---- the actions ---- *)
Lemma veil_append : forall k a d e, veil d e -> k <> Div -> k <> BgRoot -> veil (fst (append d k a)) (fst (append e k a)) /\ lift fresh (snd (append d k a)) (snd (append e k a)).
Proof.
  intros k a d e V Kd Kr. unfold append.
  rewrite (look_veil d e (fun q => is_acceptable q k) V). destruct (look e (fun n => is_acceptable (cls n) k)) as [[c|]|x] eqn:El.
  - destruct (look_out d e _ c V El) as [No [n Hn]]. pose proof (v_twin d e c V) as T. rewrite Hn in T. destruct (nth_error (nodes d) c) as [n'|] eqn:Hn'; [|destruct T]. pose proof (v_len d e V) as Len.
    assert (E : forall d n, nth_error (nodes d) c = Some n -> nodes (update d c (fun n => with_children n (children n ++ [List.length (nodes d)]))) ++ [mknode k (match k with Wrapping => [] | _ => a end) [] None (current d) []] = attach (nodes d) c n (created k a (current d))).
    { intros d0 n0 H0. unfold update. rewrite H0. reflexivity. }
    pose proof (veil_attach d e c n' n (created k a (current e)) (Some c) V Hn' Hn No Kd (v_out d e V)) as G.
    assert (V' : veil (mkdoc (nodes (update d c (fun n => with_children n (children n ++ [List.length (nodes d)]))) ++ [mknode k (match k with Wrapping => [] | _ => a end) [] None (current d) []]) (Some c))
                   (mkdoc (nodes (update e c (fun n => with_children n (children n ++ [List.length (nodes e)]))) ++ [mknode k (match k with Wrapping => [] | _ => a end) [] None (current e) []]) (Some c))).
    { rewrite (E d n' Hn'), (E e n Hn), (v_cur d e V). apply G. intros x Hx. injection Hx as <-. exact No. }
    destruct k; try congruence; (split; [exact V'|]); cbn [snd lift]; (split; [exact Len|]); rewrite Len; (split; [intro I; pose proof (v_ids d e V _ I) as [Q _]; pose proof (v_old d e V); lia|]); pose proof (nth_lt _ _ _ _ Hn); unfold root; lia.
  - destruct k; try congruence; (split; [exact V|reflexivity]).
  - destruct k; try congruence; (split; [exact V|reflexivity]).
Qed.
Lemma ve_enter : forall k a, k <> BgRoot -> k <> Text -> k <> Div -> rel veil fresh (m_enter k a) (m_enter k a).
Proof.
  intros k a K1 K2 K3 d e V. unfold m_enter, enter. destruct (veil_append k a d e V K3 K1) as [V' H]. destruct (append d k a) as [d1 [i|x]], (append e k a) as [e1 [j|y]]; cbn [fst snd lift] in *; try contradiction; [|split; assumption].
  destruct H as (<- & H1 & H2). split; [|split; auto]. apply veil_goto; [exact V'|]. intros z Hz. injection Hz as <-. exact H1.
Qed.
Lemma ve_leave : forall ks, rel veil eq (m_leave ks) (m_leave ks).
Proof.
  intros ks d e V. unfold m_leave, run_op. cbn [exec]. unfold leave. rewrite (look_veil d e (fun q => is_any q ks) V). destruct (look e (fun n => is_any (cls n) ks)) as [[c|]|x] eqn:El; cbn [fst snd lift]; [|split; [exact V|reflexivity]|split; [exact V|reflexivity]].
  split; [|reflexivity]. destruct (look_out d e _ c V El) as [No [n Hn]]. pose proof (v_twin d e c V) as T. rewrite Hn in *. destruct (nth_error (nodes d) c) as [n'|]; [|destruct T]. destruct T as (_ & _ & T). rewrite T.
  apply veil_goto; [exact V|]. intros p Hp. exact (v_away d e V _ _ _ Hn Hp).
Qed.
(* append_text, by the last child *)
Definition add_text (d : doc) (c : nat) (n : node) (s : str) (last : list nat) : doc * res unit :=
  match last with
  | i :: _ => match nth_error (nodes d) i with
              | Some k => match cls k with
                          | Text => (update d i (fun m => with_text m (text m ++ s)), Ok tt)
                          | _ => (mkdoc (attach (nodes d) c n (mknode Text [] s None (Some c) [])) (current d), Ok tt)
                          end
              | None => (d, Exc AttributeError)
              end
  | [] => (mkdoc (attach (nodes d) c n (mknode Text [] s None (Some c) [])) (current d), Ok tt)
  end.
Lemma append_is : forall d c n s, current d = Some c -> nth_error (nodes d) c = Some n -> append_text d s = add_text d c n s (rev (children n)).
Proof. intros d c n s Hc Hn. unfold append_text, add_text. rewrite Hc, Hn. reflexivity. Qed.
Lemma add_new : forall d c n s l i k, nth_error (nodes d) i = Some k -> cls k <> Text -> add_text d c n s (i :: l) = (mkdoc (attach (nodes d) c n (mknode Text [] s None (Some c) [])) (current d), Ok tt).
Proof. intros d c n s l i k Hi K. unfold add_text. rewrite Hi. destruct (cls k); try congruence; reflexivity. Qed.
Lemma ve_text : forall s, rel veil eq (m_text s) (m_text s).
Proof.
  intros s d e V. unfold m_text, run_op. cbn [exec]. pose proof (v_cur d e V) as Ec. destruct (current e) as [c|] eqn:Hc; [|unfold append_text; rewrite Ec, Hc; split; [exact V|reflexivity]].
  pose proof (v_out d e V c Hc) as No. pose proof (v_twin d e c V) as T. destruct (nth_error (nodes d) c) as [n'|] eqn:Hn', (nth_error (nodes e) c) as [n|] eqn:Hn; try contradiction; [|unfold append_text; rewrite Ec, Hc, Hn, Hn'; split; [exact V|reflexivity]].
  rewrite (append_is d c n' s Ec Hn'), (append_is e c n s Hc Hn).
  assert (New : veil (mkdoc (attach (nodes d) c n' (mknode Text [] s None (Some c) [])) (current d)) (mkdoc (attach (nodes e) c n (mknode Text [] s None (Some c) [])) (current e))).
  { rewrite Ec, Hc. apply veil_attach; auto; [discriminate|intros p Hp; cbn in Hp; injection Hp as <-; exact No|intros p Hp; injection Hp as <-; exact No]. }
  destruct (v_root d e V) as (r & x & R1 & R2 & R3 & R4 & R5).
  assert (Upd : forall i k, nth_error (nodes e) i = Some k -> cls k = Text -> veil (update d i (fun m => with_text m (text m ++ s))) (update e i (fun m => with_text m (text m ++ s)))).
  { intros i k Hi K. assert (Ni : i <> root) by (intros ->; congruence). assert (Hd : nth_error (nodes d) i = Some k) by (rewrite (v_same d e V i Ni); exact Hi).
    assert (Oi : ~ In i ids) by (intro I; destruct (v_ids d e V i I) as [_ H]; rewrite Hi in H; injection H as ->; rewrite (w_wrapping i I) in K; discriminate K).
    unfold update. rewrite Hi, Hd. apply (veil_set d e i k); auto. }
  assert (Same : forall i l l', veil (fst (add_text d c n' s (i :: l))) (fst (add_text e c n s (i :: l'))) /\ lift eq (snd (add_text d c n' s (i :: l))) (snd (add_text e c n s (i :: l')))).
  { intros i l l'. unfold add_text. pose proof (v_twin d e i V) as Ti. destruct (nth_error (nodes d) i) as [k'|], (nth_error (nodes e) i) as [k|] eqn:Hi; try contradiction; [|split; [exact V|reflexivity]].
    destruct Ti as (Ti & _). rewrite Ti. destruct (cls k) eqn:K; (split; [first [exact New|exact (Upd i k Hi K)]|reflexivity]). }
  destruct (Nat.eq_dec c root) as [->|Nc].
  - replace n with r in * by congruence. replace n' with (with_children r (P ++ ids ++ x)) in * by congruence. cbn [with_children children]. rewrite R3, !rev_app_distr.
    destruct (rev x) as [|y x']; [|cbn [app]; apply Same]. cbn [app]. destruct (v_last d e V) as (P0 & dv & q & Ep & Hq & Kq).
    assert (Er : rev P = dv :: rev P0) by (rewrite Ep, rev_app_distr; reflexivity). rewrite Er.
    destruct (rev ids) as [|j ids'] eqn:Ei; [cbn [app]; apply Same|]. cbn [app].
    assert (Ij : In j ids) by (apply in_rev; rewrite Ei; left; reflexivity). destruct (v_ids d e V j Ij) as [Bj Hj].
    rewrite (add_new e root r s (rev P0) dv q Hq) by congruence. rewrite (add_new d root _ s _ j (w j)); [split; [exact New|reflexivity]| |rewrite (w_wrapping j Ij); discriminate].
    rewrite (v_same d e V j) by lia. exact Hj.
  - assert (n' = n) by (rewrite (v_same d e V c Nc) in Hn'; congruence). subst n'. destruct (rev (children n)) as [|i l]; [split; [exact New|reflexivity]|apply Same].
Qed.
Lemma ve_ancestor : forall ks, rel veil (opt same) (m_ancestor ks) (m_ancestor ks).
Proof.
  intros ks d e V. unfold m_ancestor, ancestor. cbn [fst snd]. split; [exact V|]. rewrite (look_veil d e (fun q => is_any q ks) V). destruct (look e (fun n => is_any (cls n) ks)) as [[c|]|x] eqn:El; cbn [lift opt]; auto.
  split; [reflexivity|]. apply (look_out d e _ c V El).
Qed.
Lemma ve_count : forall ks, rel veil eq (m_count ks) (m_count ks).
Proof.
  intros ks d e V. unfold m_count, count_nesting. cbn [fst snd]. split; [exact V|]. unfold fuel. rewrite (v_cur d e V), (v_len d e V), (count_veil d e (fun q => is_any q ks) V).
  destruct (count_up _ (nodes e) _ (current e)); reflexivity.
Qed.
Lemma ve_set : forall i j s, fresh i j -> rel veil eq (set_url i s) (set_url j s).
Proof.
  intros i j s (<- & H1 & H2) d e V. unfold set_url, run_op. cbn [exec fst snd]. split; [|reflexivity]. unfold set_attr, update. rewrite (v_same d e V i H2). destruct (nth_error (nodes e) i) as [n|] eqn:Hn; [|exact V].
  apply (veil_set d e i n); auto.
Qed.
Lemma ve_goto : forall i j, same i j -> rel veil eq (run_op (GoTo i)) (run_op (GoTo j)).
Proof.
  intros i j (<- & H) d e V. unfold run_op. cbn [exec]. rewrite (v_len d e V). destruct (Nat.ltb i (List.length (nodes e))); cbn [fst snd lift]; [|split; [exact V|reflexivity]].
  split; [|reflexivity]. apply veil_goto; [exact V|]. intros x Hx. injection Hx as <-. exact H.
Qed.
Lemma ve_current : rel veil alike m_current m_current.
Proof.
  intros d e V. unfold m_current. cbn [fst snd]. split; [exact V|]. rewrite (v_cur d e V). destruct (current e) as [c|]; [|reflexivity]. pose proof (v_twin d e c V) as T.
  destruct (nth_error (nodes d) c), (nth_error (nodes e) c); try contradiction; [|reflexivity]. destruct T as (T1 & T2 & _). split; assumption.
Qed.
Lemma ve_toc : rel veil eq (run_op table_of_contents) (run_op table_of_contents).
Proof.
  intros d e V. unfold run_op, table_of_contents. cbn [exec]. destruct (veil_append MacroNode [("editor", VOther)] d e V ltac:(discriminate) ltac:(discriminate)) as [V' H].
  destruct (append d MacroNode [("editor", VOther)]) as [d1 [i|x]], (append e MacroNode [("editor", VOther)]) as [e1 [j|y]]; cbn [fst snd lift] in *; try contradiction; (split; [exact V'|]); [reflexivity|exact H].
Qed.
Lemma veil_tail : forall order wikipath now urlencode analysis c line, rel veil eq (line_tail order wikipath now urlencode analysis c line) (line_tail order wikipath now urlencode analysis c line).
Proof. intros. exact (r_tail veil same fresh ve_enter ve_leave ve_text ve_ancestor ve_count ve_set ve_goto ve_current ve_toc order wikipath now urlencode analysis c line). Qed.
End Veil.
