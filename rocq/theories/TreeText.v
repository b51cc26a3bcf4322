(* Proofs about documents: attributes, content model, and text *)
From Verif Require Import Py PyFacts HtmlModel HtmlSpec HtmlProofs TreeModel TreeSpec TreeProofs TreeVisit TreeHtml.
From Coq Require Import Permutation.
Open Scope nat_scope.

(* ---- attributes ---- *)
Lemma escape_quote : forall s, ~ In quote s -> ~ In quote (escape s).
Proof.
  intros s H F. apply in_flat_map in F. destruct F as (c & Hc & F).
  destruct (escape_char_cases c) as [[-> E]|[[-> E]|[[-> E]|[n E]]]]; rewrite E in F; cbn in F; repeat (destruct F as [F|F]; [try discriminate|]); try contradiction.
  subst c. contradiction.
Qed.
Lemma read_value : forall v k acc r, ~ In quote v ->
  read (Value k acc) (v ++ quote :: r) = match read Gap r with Some l => Some ((k, unescape (acc ++ v)) :: l) | None => None end.
Proof.
  induction v as [|c v IH]; intros k acc r H.
  - cbn [app read]. change (Ascii.eqb quote quote) with true. cbn iota. rewrite app_nil_r. reflexivity.
  - cbn [app read]. destruct (Ascii.eqb_spec c quote) as [->|n]; [exfalso; apply H; left; reflexivity|].
    rewrite (IH k (acc ++ [c]) r); [rewrite <- app_assoc; reflexivity|]. intro F. apply H. right. exact F.
Qed.
Lemma key_char_neq : forall c x, key_char c = true -> key_char x = false -> Ascii.eqb c x = false.
Proof. intros c x H1 H2. apply Ascii.eqb_neq. intros ->. congruence. Qed.
Lemma read_key : forall w k r, (forall c, In c w -> key_char c = true) -> read (Key k) (w ++ "="%char :: r) = read (Quote (k ++ w)) r.
Proof.
  induction w as [|c w IH]; intros k r H.
  - cbn [app read]. rewrite app_nil_r. reflexivity.
  - cbn [app read]. rewrite (key_char_neq c "="); [|apply H; left; reflexivity|reflexivity].
    rewrite (IH (k ++ [c]) r); [rewrite <- app_assoc; reflexivity|]. intros x Hx. apply H. right. exact Hx.
Qed.
Lemma read_attr : forall k s o r, good_key k -> ~ In quote s -> attr_string (k, VStr s) = Ok o ->
  read Gap (o ++ r) = match read Gap r with Some l => Some ((L k, s) :: l) | None => None end.
Proof.
  intros k s o r [Hk Hc] Hq E. unfold attr_string in E. cbn [fst snd] in E.
  apply (f_equal (fun x => match x with Ok a => a | Exc _ => [] end)) in E. cbv beta iota in E. subst o.
  assert (E : L k <> []) by (destruct k; [contradiction|discriminate]). destruct (L k) as [|c w]; [contradiction|].
  rewrite <- !app_assoc. cbn [app read].
  assert (K : key_char c = true) by (apply Hc; left; reflexivity).
  rewrite !(key_char_neq c) by (exact K || reflexivity).
  change (L "=" ++ ascii_of_nat 34 :: escape s ++ ascii_of_nat 34 :: r) with ("="%char :: (quote :: escape s ++ quote :: r)).
  rewrite read_key by (intros x Hx; apply Hc; right; exact Hx).
  cbn [app]. set (t := escape s ++ quote :: r). cbn [read]. change (Ascii.eqb quote quote) with true. cbn iota. unfold t.
  rewrite read_value by (apply escape_quote; exact Hq). cbn [app]. rewrite unescape_escape. reflexivity.
Qed.
Lemma read_join : forall a l r, (forall k s, In (k, s) a -> good_key k) -> (forall k s, In (k, s) a -> ~ In quote s) ->
  mapM attr_string (strings a) = Ok l -> read Gap r = Some [] -> read Gap (join_attrs l ++ r) = Some (map (fun kv => (L (fst kv), snd kv)) a).
Proof.
  induction a as [|[k s] a IH]; intros l r Hk Hq M Hr.
  - cbn in M. injection M as <-. exact Hr.
  - cbn [strings map fst snd] in M. cbn [mapM] in M. unfold bind in M. destruct (attr_string (k, VStr s)) as [o|] eqn:E; [|discriminate].
    destruct (mapM attr_string (map (fun kv : string * str => (fst kv, VStr (snd kv))) a)) as [l'|] eqn:E'; [|discriminate]. injection M as <-.
    assert (G : read Gap (join_attrs l' ++ r) = Some (map (fun kv => (L (fst kv), snd kv)) a)).
    { apply IH; [intros; eapply Hk; right; eassumption|intros; eapply Hq; right; eassumption|exact E'|exact Hr]. }
    assert (Hk' : good_key k) by (apply (Hk k s); left; reflexivity). assert (Hq' : ~ In quote s) by (apply (Hq k s); left; reflexivity).
    destruct l' as [|o' l'].
    + cbn [join_attrs app] in G. change (join_attrs [o]) with o. rewrite (read_attr k s o r Hk' Hq' E), G. reflexivity.
    + change (join_attrs (o :: o' :: l')) with (o ++ L " " ++ join_attrs (o' :: l')). rewrite <- !app_assoc. rewrite (read_attr k s o _ Hk' Hq' E).
      assert (G2 : read Gap (L " " ++ join_attrs (o' :: l') ++ r) = read Gap (join_attrs (o' :: l') ++ r)) by reflexivity.
      rewrite G2, G. reflexivity.
Qed.
Lemma read_name : forall w r, ~ In " "%char w -> ~ In ">"%char w -> read Name (w ++ r) = read Name r.
Proof.
  induction w as [|c w IH]; intros r H1 H2; [reflexivity|]. cbn [app read].
  destruct (Ascii.eqb_spec c " ") as [->|n1]; [exfalso; apply H1; left; reflexivity|].
  destruct (Ascii.eqb_spec c ">") as [->|n2]; [exfalso; apply H2; left; reflexivity|].
  apply IH; intro F; [apply H1|apply H2]; right; exact F.
Qed.
Lemma good_plain : forall k, good_key k -> plain (L k).
Proof.
  intros k [_ H] c Hc. specialize (H c Hc). split; intros ->; discriminate.
Qed.
Lemma attributes_partial : forall order n e a, writes_attributes (cls n) -> html_element (cls n) = Some e -> attrs n = strings a ->
  (forall k s, In (k, s) a -> good_key k) ->
  exists o, open order n = Ok o
    /\ tags o = Some [if is_single (cls n) then TAlone (L e) else TOpen (L e)]
    /\ ((forall k s, In (k, s) a -> ~ In quote s) -> attributes o = Some (map (fun kv => (L (fst kv), snd kv)) a)).
Proof.
  intros order n e a Hw He Ha Hk.
  assert (Hg : open order n = generic_open n).
  { unfold open. unfold writes_attributes in Hw. destruct (cls n); try reflexivity; exfalso; apply Hw; cbn; auto 10. }
  assert (P : plain_attrs (attrs n)).
  { intros k v H. rewrite Ha in H. apply in_map_iff in H. destruct H as ([k' s] & E & H). injection E as <- <-. apply good_plain. apply (Hk k' s H). }
  destruct (mapM_all _ _ attr_string (attrs n)) as [l M].
  { intros [k v] H. rewrite Ha in H. apply in_map_iff in H. destruct H as ([k' s] & E & H). injection E as <- <-. eexists. reflexivity. }
  assert (Ho : exists o, generic_open n = Ok o) by (unfold generic_open; rewrite He, M; eauto). destruct Ho as [o Ho]. exists o. rewrite Hg.
  split; [exact Ho|]. split; [apply (generic_tag n e o P He Ho)|]. intros Hq.
  unfold generic_open in Ho. rewrite He, M in Ho.
  apply (f_equal (fun x => match x with Ok a => a | Exc _ => [] end)) in Ho. cbv beta iota zeta in Ho. subst o. rewrite Ha in M.
  assert (W : ~ In " "%char (L "<" ++ L e) /\ ~ In ">"%char (L "<" ++ L e)).
  { destruct (cls n); cbn in He; inversion He; subst e; cbn; split; intuition discriminate. }
  destruct W as [W1 W2]. unfold attributes. rewrite app_assoc, (read_name _ _ W1 W2).
  pose proof (read_join a l ((if is_single (cls n) then L " />" else L ">") ++ nl) Hk Hq M) as G.
  assert (R : read Gap ((if is_single (cls n) then L " />" else L ">") ++ nl) = Some []) by (destruct (is_single (cls n)); reflexivity).
  specialize (G R). destruct a as [|[k s] a].
  - cbn in M. injection M as <-. cbn [join_attrs app]. destruct (is_single (cls n)); reflexivity.
  - assert (J : exists c j, join_attrs l = c :: j).
    { destruct (join_shape _ _ M) as [x Hx]; [discriminate|]. rewrite Hx. destruct x; cbn; eauto. }
    destruct J as (c & j & J). rewrite J in G |- *. refine (eq_trans _ G). reflexivity.
Qed.
Definition injected : str := L "a" ++ [quote] ++ L " onclick=" ++ [quote] ++ L "b".
Lemma attributes_refuted : exists n o, cls n = Anchor /\ attrs n = strings [("title"%string, injected)] /\ open [] n = Ok o
  /\ attributes o = Some [(L "title", L "a"); (L "onclick", L "b")].
Proof. exists (mknode Anchor (strings [("title"%string, injected)]) [] None (Some 0) []). eexists. split; [reflexivity|]. split; [reflexivity|]. split; reflexivity. Qed.

(* ---- the content model ---- *)
Definition accepted (ns : list node) : Prop := forall i j n m, nth_error ns i = Some n -> In j (children n) -> nth_error ns j = Some m ->
  is_acceptable (cls n) (cls m) = true \/ cls m = Text.
Lemma accepted_set : forall ns i n n', accepted ns -> nth_error ns i = Some n -> cls n' = cls n -> (forall x, In x (children n') -> In x (children n)) -> accepted (set_node ns i n').
Proof.
  intros ns i n n' H Hn E1 E2 a b p q Hp Hb Hq. rewrite (set_nth _ _ _ _ _ Hn) in Hp. rewrite (set_nth _ _ _ _ _ Hn) in Hq.
  assert (Gp : exists p0, nth_error ns a = Some p0 /\ cls p = cls p0 /\ In b (children p0)).
  { destruct (Nat.eqb_spec a i) as [->|]; [injection Hp as <-; exists n; auto|exists p; auto]. }
  assert (Gq : exists q0, nth_error ns b = Some q0 /\ cls q = cls q0).
  { destruct (Nat.eqb_spec b i) as [->|]; [injection Hq as <-; exists n; auto|exists q; auto]. }
  destruct Gp as (p0 & P1 & -> & P3). destruct Gq as (q0 & Q1 & ->). apply (H a b p0 q0 P1 P3 Q1).
Qed.
Lemma accepted_attach : forall d c n new, wf d -> accepted (nodes d) -> nth_error (nodes d) c = Some n -> children new = [] ->
  is_acceptable (cls n) (cls new) = true \/ cls new = Text -> accepted (attach (nodes d) c n new).
Proof.
  intros d c n new W H Hn Hch A i j p q Hp Hj Hq.
  destruct (attach_inv _ _ _ _ _ _ Hn Hp) as [[-> ->]|(p0 & P1 & P2 & _ & _ & _ & P3)]; [rewrite Hch in Hj; contradiction|].
  rewrite P2. rewrite P3 in Hj. apply in_app_or in Hj.
  destruct (attach_inv _ _ _ _ _ _ Hn Hq) as [[-> ->]|(q0 & Q1 & Q2 & _)].
  - destruct Hj as [Hj|Hj]; [pose proof (wf_children d W _ _ _ P1 Hj); lia|]. destruct (Nat.eqb_spec i c) as [->|]; [|contradiction]. replace p0 with n by congruence. exact A.
  - rewrite Q2. destruct Hj as [Hj|Hj]; [apply (H i j p0 q0 P1 Hj Q1)|]. destruct (Nat.eqb i c); [|contradiction]. destruct Hj as [<-|[]].
    apply nth_lt in Q1. lia.
Qed.
Lemma change_accepted : forall d o d' r, wf d -> accepted (nodes d) -> change d o d' r -> accepted (nodes d').
Proof.
  intros d o d' r W C H.
  destruct H as [cur r Hcur _|k a x c n e r He Hx Hl Hn Ha Hk|s c n Ho Hc Hn|s c n i m Ho Hc Hn Hl Hi Hm Ht|i c n r Ho Hn|i k v n r Ho Hn|i s n r Ho Hn Hw|i p n r Ho Hn Hw]; cbn [nodes].
  - exact C.
  - apply (accepted_attach d c n _ W C Hn); [reflexivity|]. left. exact Ha.
  - apply (accepted_attach d c n _ W C Hn); [reflexivity|]. right. reflexivity.
  - apply (accepted_set _ _ m); auto.
  - apply (accepted_set _ _ n); auto. intro x. apply remove_first_in.
  - apply (accepted_set _ _ n); auto.
  - apply (accepted_set _ _ n); auto.
  - apply (accepted_set _ _ n); auto.
Qed.
Lemma content_ok k l : is_acceptable k l = true <-> In l (content k).
Proof.
  assert (G : Bool.eqb (is_acceptable k l) (existsb (klass_eqb l) (content k)) = true) by (destruct k, l; vm_compute; reflexivity).
  apply Bool.eqb_prop in G. rewrite G, existsb_exists. split.
  - intros (x & I & E). unfold klass_eqb in E. destruct (klass_eq_dec l x) as [->|]; [exact I|discriminate].
  - intros I. exists l. split; [exact I|]. unfold klass_eqb. destruct (klass_eq_dec l l); [reflexivity|contradiction].
Qed.
Lemma content_partial : forall ops i j n m, let ns := nodes (edit new_doc ops) in
  nth_error ns i = Some n -> In j (children n) -> nth_error ns j = Some m -> In (cls m) (content (cls n)) \/ cls m = Text.
Proof.
  intros ops i j n m ns. assert (G : forall d, wf d -> accepted (nodes d) -> accepted (nodes (edit d ops))).
  { clear. induction ops as [|o ops IH]; intros d W C; [exact C|]. cbn. apply IH; [apply exec_wf; exact W|]. eapply change_accepted; [exact W|exact C|apply exec_change; exact W]. }
  rewrite <- content_ok. apply (G new_doc wf_new). intros [|[|a]] b p q H; cbn in H; inversion H; subst; contradiction.
Qed.
Lemma content_refuted : exists ops i j n m, let ns := nodes (edit new_doc ops) in
  nth_error ns i = Some n /\ In j (children n) /\ nth_error ns j = Some m /\ cls n = TableRow /\ ~ In (cls m) (content (cls n)).
Proof.
  exists [Enter Table []; Enter TableRow []; AddText (L "x")], 2, 3. eexists _, _. cbn. split; [reflexivity|]. split; [left; reflexivity|]. split; [reflexivity|]. split; [reflexivity|].
  cbn. intuition discriminate.
Qed.

(* ---- nothing is lost ---- *)
Definition own (n : node) : str := match cls n with Text => text n | _ => [] end.
Definition attached (d : doc) : Prop := forall i, i < List.length (nodes d) -> below (nodes d) root i.
Definition total (ns : list node) : str := flat_map own ns.
Lemma set_split : forall ns i n n', nth_error ns i = Some n -> exists a b, ns = a ++ n :: b /\ set_node ns i n' = a ++ n' :: b.
Proof.
  intros ns i n n' H. exists (firstn i ns), (skipn (S i) ns). split; [|reflexivity].
  revert i H. induction ns as [|x ns IH]; intros [|i] H; try discriminate; cbn in *; [injection H as ->; reflexivity|]. f_equal. apply IH. exact H.
Qed.
Lemma total_set : forall ns i n n' s, nth_error ns i = Some n -> own n' = own n ++ s -> Permutation (total (set_node ns i n')) (total ns ++ s).
Proof.
  intros ns i n n' s H E. destruct (set_split ns i n n' H) as (a & b & -> & ->). unfold total. rewrite !flat_map_app. cbn [flat_map]. rewrite E.
  rewrite <- !app_assoc. apply Permutation_app_head. apply Permutation_app_head. apply Permutation_app_comm.
Qed.
Lemma total_attach : forall ns c n new, nth_error ns c = Some n -> total (attach ns c n new) = total ns ++ own new.
Proof.
  intros ns c n new H. unfold attach. destruct (set_split ns c n (with_children n (children n ++ [List.length ns])) H) as (a & b & E1 & E2). rewrite E2.
  unfold total. rewrite flat_map_app. cbn [flat_map]. rewrite app_nil_r. f_equal. rewrite E1, !flat_map_app. reflexivity.
Qed.
Definition gave (o : op) (r : res unit) : str := match o, r with AddText s, Ok _ => s | _, _ => [] end.
Lemma gave_other : forall o r, (forall s, o = AddText s -> False) -> gave o r = [].
Proof. intros [] r H; try reflexivity. exfalso. eapply H. reflexivity. Qed.
Lemma change_total : forall d o d' r, ~ removes o -> change d o d' r -> Permutation (total (nodes d')) (total (nodes d) ++ gave o r).
Proof.
  intros d o d' r NR H.
  destruct H as [cur r Hcur Hr|k a x c n e r He Hx Hl Hn Ha Hk|s c n Ho Hc Hn|s c n i m Ho Hc Hn Hl Hi Hm Ht|i c n r Ho Hn|i k v n r Ho Hn|i s n r Ho Hn Hw|i p n r Ho Hn Hw]; cbn [nodes].
  - assert (E : gave o r = []) by (destruct o; try reflexivity; destruct (Hr s eq_refl) as [e ->]; reflexivity). rewrite E, app_nil_r. apply Permutation_refl.
  - rewrite (total_attach _ _ _ _ Hn). rewrite (gave_other o r) by (intros s ->; destruct He as [[F _]|[F _]]; discriminate).
    replace (own (created k a (current d))) with (@nil ascii) by (destruct k; reflexivity). apply Permutation_refl.
  - subst o. rewrite (total_attach _ _ _ _ Hn). apply Permutation_refl.
  - subst o. apply (total_set _ _ m); [exact Hm|]. unfold own. cbn. rewrite Ht. reflexivity.
  - subst o. exfalso. apply NR. exact Logic.I.
  - subst o. apply (total_set _ _ n); [exact Hn|]. cbn. rewrite app_nil_r. reflexivity.
  - subst o. apply (total_set _ _ n); [exact Hn|]. unfold own. cbn. rewrite Hw. reflexivity.
  - subst o. apply (total_set _ _ n); [exact Hn|]. cbn. rewrite app_nil_r. reflexivity.
Qed.
Lemma below_mono : forall ns ns' i j, (forall a b, holds ns a b -> holds ns' a b) -> below ns i j -> below ns' i j.
Proof. intros ns ns' i j H B. induction B as [|h j B IH Hh]; [constructor|]. eapply below_child; [exact IH|apply H; exact Hh]. Qed.
Lemma holds_set : forall ns i n n', nth_error ns i = Some n -> children n' = children n -> forall a b, holds ns a b <-> holds (set_node ns i n') a b.
Proof.
  intros ns i n n' H E a b. split; intros (m & Hm & Hb).
  - unfold holds. rewrite (set_nth _ _ _ _ _ H). destruct (Nat.eqb_spec a i) as [->|]; [|exists m; auto]. exists n'. split; [reflexivity|]. rewrite E. replace n with m by congruence. exact Hb.
  - rewrite (set_nth _ _ _ _ _ H) in Hm. destruct (Nat.eqb_spec a i) as [->|]; [injection Hm as <-; exists n; rewrite <- E; auto|exists m; auto].
Qed.
Lemma attached_attach : forall d c n new cur, attached d -> nth_error (nodes d) c = Some n -> children new = [] -> attached (mkdoc (attach (nodes d) c n new) cur).
Proof.
  intros d c n new cur At Hn Hch i Hi. cbn [nodes] in *. rewrite (attach_length _ _ _ _ Hn) in Hi.
  assert (M : forall j, below (nodes d) root j -> below (attach (nodes d) c n new) root j).
  { intros j. apply below_mono. intros a b H. apply (holds_attach _ _ _ _ _ _ Hn Hch). left. exact H. }
  destruct (Nat.eq_dec i (List.length (nodes d))) as [->|ne]; [|apply M; apply At; lia].
  eapply below_child; [apply M; apply At; apply (nth_lt _ _ _ _ Hn)|]. apply (holds_attach _ _ _ _ _ _ Hn Hch). right. auto.
Qed.
Lemma attached_set : forall d i n n' cur, attached d -> nth_error (nodes d) i = Some n -> children n' = children n -> attached (mkdoc (set_node (nodes d) i n') cur).
Proof.
  intros d i n n' cur At Hn E j Hj. cbn [nodes] in *. rewrite (set_length _ _ _ _ Hn) in Hj. apply (below_mono (nodes d)); [|apply At; exact Hj].
  intros a b. apply (holds_set _ _ _ _ Hn E).
Qed.
Lemma change_attached : forall d o d' r, ~ removes o -> attached d -> change d o d' r -> attached d'.
Proof.
  intros d o d' r NR At H.
  destruct H as [cur r Hcur Hr|k a x c n e r He Hx Hl Hn Ha Hk|s c n Ho Hc Hn|s c n i m Ho Hc Hn Hl Hi Hm Ht|i c n r Ho Hn|i k v n r Ho Hn|i s n r Ho Hn Hw|i p n r Ho Hn Hw].
  - exact At.
  - apply attached_attach; auto.
  - apply attached_attach; auto.
  - apply (attached_set _ _ m); auto.
  - subst o. exfalso. apply NR. exact Logic.I.
  - apply (attached_set _ _ n); auto.
  - apply (attached_set _ _ n); auto.
  - apply (attached_set _ _ n); auto.
Qed.
Lemma own_seq : forall ns pre, flat_map (text_of (pre ++ ns)) (seq (List.length pre) (List.length ns)) = total ns.
Proof.
  induction ns as [|n ns IH]; intros pre; [reflexivity|]. cbn [List.length seq flat_map]. unfold total. cbn [flat_map]. f_equal.
  - unfold text_of. rewrite nth_error_app2, Nat.sub_diag by lia. reflexivity.
  - specialize (IH (pre ++ [n])). rewrite app_length in IH. cbn [List.length] in IH. replace (List.length pre + 1) with (S (List.length pre)) in IH by lia.
    rewrite <- app_assoc in IH. exact IH.
Qed.
Lemma below_lt : forall d, wf d -> forall j, below (nodes d) root j -> j < List.length (nodes d).
Proof.
  intros d W j B. destruct B as [|h j B (n & Hn & Hj)]; [destruct (wf_root d W) as (n & Hn & _); apply (nth_lt _ _ _ _ Hn)|]. apply (wf_children d W _ _ _ Hn Hj).
Qed.
Lemma text_total : forall d, wf d -> attached d -> exists t, document_text d = Ok t /\ Permutation t (total (nodes d)).
Proof.
  intros d W At. destruct (visit_ok d W) as (l & Hl & _ & N & B). unfold document_text. rewrite Hl. eexists. split; [reflexivity|].
  rewrite <- (own_seq (nodes d) []). cbn [app List.length]. apply Permutation_flat_map. apply NoDup_Permutation; [exact N|apply seq_NoDup|].
  intro x. rewrite B, in_seq. split; [intro H; pose proof (below_lt d W x H); lia|intro H; apply At; lia].
Qed.
Lemma added_cons : forall d o ops, added d (o :: ops) = gave o (snd (exec d o)) ++ added (fst (exec d o)) ops.
Proof. intros d o ops. destruct o; reflexivity. Qed.
Lemma text_kept : forall ops, Forall (fun o => ~ removes o) ops -> exists t, document_text (edit new_doc ops) = Ok t /\ Permutation t (added new_doc ops).
Proof.
  assert (G : forall ops d, wf d -> attached d -> Forall (fun o => ~ removes o) ops ->
    wf (edit d ops) /\ attached (edit d ops) /\ Permutation (total (nodes (edit d ops))) (total (nodes d) ++ added d ops)).
  { induction ops as [|o ops IH]; intros d W At F.
    - split; [exact W|]. split; [exact At|]. cbn. rewrite app_nil_r. apply Permutation_refl.
    - inversion F as [|? ? F1 F2]; subst. pose proof (exec_change d o W) as C. destruct (IH (fst (exec d o))) as (W' & A' & P'); [apply exec_wf; exact W|eapply change_attached; eassumption|exact F2|].
      cbn [edit fold_left]. split; [exact W'|]. split; [exact A'|]. eapply Permutation_trans; [exact P'|]. rewrite added_cons, app_assoc. apply Permutation_app_tail.
      eapply change_total; eassumption. }
  intros ops F. destruct (G ops new_doc wf_new) as (W & At & P); [|exact F|].
  - intros i Hi. cbn in Hi. assert (i = root) by (unfold root; lia). subst i. constructor.
  - destruct (text_total _ W At) as (t & T1 & T2). exists t. split; [exact T1|]. eapply Permutation_trans; [exact T2|]. exact P.
Qed.
Definition misplaced : list op :=
  [Enter Div []; Enter Bold []; AddText (L "a"); Enter H1 []; AddText (L "b"); Leave [H1]; AddText (L "c")].
Lemma text_refuted : exists ops, Forall (fun o => ~ removes o) ops /\ added new_doc ops = L "abc" /\ document_text (edit new_doc ops) = Ok (L "acb").
Proof. exists misplaced. split; [repeat constructor; intros []|]. split; vm_compute; reflexivity. Qed.

(* ---- and kept in order ---- *)
Inductive linked (ns : list node) : nat -> Prop :=
| linked_root : linked ns root
| linked_more : forall p c n m pre, linked ns p -> nth_error ns p = Some n -> children n = pre ++ [c] -> nth_error ns c = Some m -> parent m = Some p -> linked ns c.
Inductive spine (ns : list node) : nat -> nat -> Prop :=
| sp_self : forall i, spine ns i i
| sp_step : forall i n pre k c, nth_error ns i = Some n -> children n = pre ++ [k] -> spine ns k c -> spine ns i c.
Lemma spine_snoc : forall ns i p, spine ns i p -> forall n pre c, nth_error ns p = Some n -> children n = pre ++ [c] -> spine ns i c.
Proof. intros ns i p H. induction H as [i|i n pre k c H1 H2 H3 IH]; intros n' pre' c' E1 E2; [eapply sp_step; eauto; constructor|eapply sp_step; eauto]. Qed.
Lemma linked_spine : forall ns c, linked ns c -> spine ns root c.
Proof. intros ns c H. induction H as [|p c n m pre H IH H1 H2 H3 H4]; [constructor|]. eapply spine_snoc; eassumption. Qed.
Lemma spine_below : forall ns i c, spine ns i c -> below ns i c.
Proof.
  intros ns i c H. induction H as [i|i n pre k c H1 H2 H3 IH]; [constructor|]. eapply below_trans; [|exact IH]. eapply below_child; [constructor|].
  exists n. split; [exact H1|]. rewrite H2. apply in_or_app. right. left. reflexivity.
Qed.
Lemma order_frame : forall ns ns' i l, in_order ns i l ->
  (forall x, In x l -> forall n, nth_error ns x = Some n -> exists n', nth_error ns' x = Some n' /\ children n' = children n) -> in_order ns' i l.
Proof.
  intros ns ns'. apply (in_order_rect ns (fun i l => (forall x, In x l -> forall n, nth_error ns x = Some n -> exists n', nth_error ns' x = Some n' /\ children n' = children n) -> in_order ns' i l)).
  intros i n ls Hn _ H F. destruct (F i (or_introl eq_refl) n Hn) as (n' & H1 & H2). apply (order_node ns' i n' ls H1). rewrite H2.
  assert (F' : forall x, In x (List.concat ls) -> forall n, nth_error ns x = Some n -> exists n', nth_error ns' x = Some n' /\ children n' = children n) by (intros x Hx; apply F; right; exact Hx).
  clear - H F'. induction H as [|c l cs ls H1 H2 IH]; [constructor|]. cbn [List.concat] in F'. constructor.
  - apply H1. intros x Hx. apply F'. apply in_or_app. left. exact Hx.
  - apply IH. intros x Hx. apply F'. apply in_or_app. right. exact Hx.
Qed.
Lemma order_in : forall ns i l, in_order ns i l -> forall x, In x l -> exists n, nth_error ns x = Some n.
Proof.
  intros ns. apply (in_order_rect ns (fun i l => forall x, In x l -> exists n, nth_error ns x = Some n)). intros i n ls Hn _ H x [<-|Hx]; [eauto|].
  apply in_concat in Hx. destruct Hx as (l & Hl & Hx). clear - H Hl Hx. induction H as [|c l' cs ls H1 H2 IH]; [contradiction|]. destruct Hl as [<-|Hl]; [apply H1; exact Hx|apply IH; exact Hl].
Qed.
Lemma order_extend : forall d, wf d -> forall i c, spine (nodes d) i c -> forall n new l, nth_error (nodes d) c = Some n -> children new = [] -> in_order (nodes d) i l ->
  in_order (attach (nodes d) c n new) i (l ++ [List.length (nodes d)]).
Proof.
  intros d W i c Sp.
  assert (Frame : forall n new j l, nth_error (nodes d) c = Some n -> in_order (nodes d) j l -> ~ In c l -> in_order (attach (nodes d) c n new) j l).
  { intros n new j l Hn O Nc. apply (order_frame _ _ _ _ O). intros x Hx m Hm. destruct (attach_old _ c n new x m Hn Hm) as (m' & E & _ & _ & _ & _ & E').
    exists m'. split; [exact E|]. rewrite E'. destruct (Nat.eqb_spec x c) as [->|]; [contradiction|]. apply app_nil_r. }
  induction Sp as [c|i m pre k c Hm Hch Sp IH]; intros n new l Hn Hnew O.
  - inversion O as [i' n' ls Hn' Hf]; subst. assert (n' = n) by congruence. subst n'. cbn [app].
    destruct (attach_old _ c n new c n Hn Hn) as (m' & E & _ & _ & _ & _ & E'). rewrite Nat.eqb_refl in E'.
    replace (List.concat ls ++ [List.length (nodes d)]) with (List.concat (ls ++ [[List.length (nodes d)]])) by (rewrite concat_app; cbn; reflexivity).
    apply (order_node _ c m' _ E). rewrite E'. apply Forall2_app.
    + assert (K : forall x, In x (children n) -> c < x) by (intros x Hx; apply (wf_children d W _ _ _ Hn Hx)).
      clear - Hf Frame Hn K W. induction Hf as [|y ly cs ls H1 H2 IH]; [constructor|]. constructor; [|apply IH; intros x Hx; apply K; right; exact Hx].
      apply Frame; auto. intro F. apply (order_below _ _ _ H1) in F. pose proof (below_le d W _ _ F). specialize (K y (or_introl eq_refl)). lia.
    + constructor; [|constructor]. apply (order_node _ (List.length (nodes d)) new []).
      * rewrite (attach_nth _ _ _ _ _ Hn), Nat.eqb_refl. reflexivity.
      * rewrite Hnew. constructor.
  - inversion O as [i' n' ls Hn' Hf]; subst. assert (n' = m) by congruence. subst n'. rewrite Hch in Hf.
    apply Forall2_app_inv_l in Hf. destruct Hf as (lp & lk' & F1 & F2 & ->). inversion F2 as [|? lk ? ? Hk Hnil]; subst. inversion Hnil; subst. clear F2 Hnil.
    assert (Hki : In k (children m)) by (rewrite Hch; apply in_or_app; right; left; reflexivity).
    pose proof (wf_children d W _ _ _ Hm Hki) as Lk. pose proof (below_le d W _ _ (spine_below _ _ _ Sp)) as Lc.
    destruct (attach_old _ c n new i m Hn Hm) as (m' & E & _ & _ & _ & _ & E'). destruct (Nat.eqb_spec i c) as [->|_] in E'; [lia|]. rewrite app_nil_r in E'.
    replace ((i :: List.concat (lp ++ [lk])) ++ [List.length (nodes d)]) with (i :: List.concat (lp ++ [lk ++ [List.length (nodes d)]]))
      by (rewrite !concat_app; cbn; rewrite !app_nil_r, <- app_assoc; reflexivity).
    apply (order_node _ i m' _ E). rewrite E', Hch. apply Forall2_app.
    + assert (K : forall x, In x pre -> holds (nodes d) i x /\ x <> k).
      { intros x Hx. split; [exists m; rewrite Hch; split; [exact Hm|apply in_or_app; left; exact Hx]|]. intros ->.
        pose proof (wf_nodup d W _ _ Hm) as N. rewrite Hch in N. apply NoDup_remove_2 in N. apply N. rewrite app_nil_r. exact Hx. }
      assert (Hkh : holds (nodes d) i k) by (exists m; auto).
      clear - F1 Frame Hn K W Sp Hkh. induction F1 as [|y ly cs ls H1 H2 IH]; [constructor|]. constructor; [|apply IH; intros x Hx; apply K; right; exact Hx].
      apply Frame; auto. intro F. apply (order_below _ _ _ H1) in F. destruct (K y (or_introl eq_refl)) as [K1 K2]. apply K2.
      apply (siblings d W i y k c K1 Hkh F). apply spine_below. exact Sp.
    + constructor; [|constructor]. apply IH; assumption.
Qed.
Lemma order_last : forall ns i c, spine ns i c -> forall n l, nth_error ns c = Some n -> children n = [] -> in_order ns i l -> exists l0, l = l0 ++ [c].
Proof.
  intros ns i c H. induction H as [c|i m pre k c Hm Hch Sp IH]; intros n l Hn E O; inversion O as [i' n' ls Hn' Hf]; subst.
  - assert (n' = n) by congruence. subst n'. rewrite E in Hf. inversion Hf. exists []. reflexivity.
  - assert (n' = m) by congruence. subst n'. rewrite Hch in Hf. apply Forall2_app_inv_l in Hf. destruct Hf as (lp & lk' & F1 & F2 & ->).
    inversion F2 as [|? lk ? ? Hk Hnil]; subst. inversion Hnil; subst. destruct (IH n lk Hn E Hk) as [l0 ->].
    exists (i :: List.concat lp ++ l0). rewrite concat_app. cbn. rewrite app_nil_r, app_assoc. reflexivity.
Qed.

Definition childless (ns : list node) : Prop := forall i n, nth_error ns i = Some n -> cls n = Text -> children n = [].
Definition at_end (d : doc) : Prop := forall c, current d = Some c -> linked (nodes d) c /\ forall n, nth_error (nodes d) c = Some n -> cls n <> Text.
Lemma linked_up : forall d, wf d -> childless (nodes d) -> forall i j, up (nodes d) i j -> linked (nodes d) i -> (forall n, nth_error (nodes d) i = Some n -> cls n <> Text) ->
  linked (nodes d) j /\ (forall n, nth_error (nodes d) j = Some n -> cls n <> Text) /\ j <= i.
Proof.
  intros d W Ch i j U. induction U as [i n Hn|i n p j Hn Hp U IH]; intros Li Nt; [split; [exact Li|split; [exact Nt|lia]]|].
  inversion Li as [|p' c n' m pre Lp Hp' Hc Hm Hpm]; subst.
  - destruct (wf_root d W) as (r & Hr & _ & Hr'). congruence.
  - assert (m = n) by congruence. subst m. assert (p' = p) by congruence. subst p'. destruct IH as (I1 & I2 & I3); [exact Lp| |].
    + intros q Hq Et. assert (q = n') by congruence. subst q. rewrite (Ch _ _ Hq Et) in Hc. destruct pre; discriminate.
    + split; [exact I1|]. split; [exact I2|]. pose proof (wf_parent d W _ _ _ Hn Hp). lia.
Qed.
Lemma linked_below : forall d, wf d -> childless (nodes d) -> forall i c, below (nodes d) i c -> linked (nodes d) c -> (forall n, nth_error (nodes d) c = Some n -> cls n <> Text) ->
  linked (nodes d) i /\ (forall n, nth_error (nodes d) i = Some n -> cls n <> Text).
Proof.
  intros d W Ch i c B. induction B as [|h c B IH Hh]; intros Lc Nt; [auto|].
  inversion Lc as [|p c' n m pre Lp Hp Hc Hm Hpm]; subst.
  - pose proof (holds_lt d W _ _ Hh). unfold root in *. lia.
  - assert (Hh' : holds (nodes d) p c) by (exists n; split; [exact Hp|]; rewrite Hc; apply in_or_app; right; left; reflexivity).
    rewrite (wf_once d W _ _ _ Hh Hh') in *. apply IH; [exact Lp|]. intros q Hq Et. assert (q = n) by congruence. subst q. rewrite (Ch _ _ Hq Et) in Hc. destruct pre; discriminate.
Qed.
Lemma linked_attach : forall d c n new, wf d -> nth_error (nodes d) c = Some n -> forall y, linked (nodes d) y -> y <= c -> linked (attach (nodes d) c n new) y.
Proof.
  intros d c n new W Hn y Ly. induction Ly as [|p y m q pre Lp IH Hp Hc Hq Hqp]; intro Le; [constructor|].
  pose proof (wf_parent d W _ _ _ Hq Hqp). destruct (attach_old _ c n new p m Hn Hp) as (m' & E1 & _ & _ & _ & _ & E2). destruct (Nat.eqb_spec p c) as [->|_] in E2; [lia|].
  destruct (attach_old _ c n new y q Hn Hq) as (q' & E3 & _ & E4 & _). rewrite app_nil_r in E2.
  apply (linked_more _ p y m' q' pre); [apply IH; lia|exact E1|congruence|exact E3|congruence].
Qed.
Lemma linked_set : forall ns i n n', nth_error ns i = Some n -> parent n' = parent n -> children n' = children n -> forall y, linked ns y -> linked (set_node ns i n') y.
Proof.
  intros ns i n n' Hn E1 E2 y Ly. induction Ly as [|p y m q pre Lp IH Hp Hc Hq Hqp]; [constructor|].
  assert (Gp : exists m', nth_error (set_node ns i n') p = Some m' /\ children m' = children m).
  { rewrite (set_nth _ _ _ _ _ Hn). destruct (Nat.eqb_spec p i) as [->|]; [exists n'; split; [reflexivity|congruence]|exists m; auto]. }
  assert (Gq : exists q', nth_error (set_node ns i n') y = Some q' /\ parent q' = parent q).
  { rewrite (set_nth _ _ _ _ _ Hn). destruct (Nat.eqb_spec y i) as [->|]; [exists n'; split; [reflexivity|congruence]|exists q; auto]. }
  destruct Gp as (m' & P1 & P2). destruct Gq as (q' & Q1 & Q2). apply (linked_more _ p y m' q' pre); congruence.
Qed.
Record good (d : doc) : Prop := { g_wf : wf d; g_childless : childless (nodes d); g_end : at_end d }.
Lemma childless_attach : forall ns c n new, childless ns -> nth_error ns c = Some n -> cls n <> Text -> children new = [] -> childless (attach ns c n new).
Proof.
  intros ns c n new Ch Hn Nt Hnew i m Hm Et. destruct (attach_inv _ _ _ _ _ _ Hn Hm) as [[-> ->]|(m0 & M1 & M2 & _ & _ & _ & M3)]; [exact Hnew|].
  rewrite M2 in Et. rewrite M3, (Ch _ _ M1 Et). destruct (Nat.eqb_spec i c) as [->|]; [|reflexivity]. exfalso. apply Nt. replace n with m0 by congruence. exact Et.
Qed.
Lemma childless_set : forall ns i n n', childless ns -> nth_error ns i = Some n -> cls n' = cls n -> children n' = children n -> childless (set_node ns i n').
Proof.
  intros ns i n n' Ch Hn E1 E2 j m Hm Et. rewrite (set_nth _ _ _ _ _ Hn) in Hm. destruct (Nat.eqb_spec j i) as [->|]; [|apply (Ch _ _ Hm Et)].
  injection Hm as <-. rewrite E2. apply (Ch _ _ Hn). congruence.
Qed.
Lemma cls_attach : forall ns c n new i m', nth_error ns c = Some n -> i < List.length ns -> nth_error (attach ns c n new) i = Some m' -> exists m, nth_error ns i = Some m /\ cls m' = cls m.
Proof. intros ns c n new i m' Hn Hi H. destruct (attach_inv _ _ _ _ _ _ Hn H) as [[-> _]|(m & M1 & M2 & _)]; [lia|eauto]. Qed.
Lemma good_set : forall d i n n', good d -> nth_error (nodes d) i = Some n -> cls n' = cls n -> parent n' = parent n -> children n' = children n ->
  good (mkdoc (set_node (nodes d) i n') (current d)).
Proof.
  intros d i n n' [W Ch E] Hn E1 E2 E3. split.
  - eapply wf_touch; eauto; [rewrite E3; auto|rewrite E3; apply (wf_nodup d W _ _ Hn)|apply (wf_current d W)].
  - eapply childless_set; eauto.
  - intros c Hc. cbn [nodes current] in *. destruct (E c Hc) as [H1 H2]. split; [eapply linked_set; eauto|].
    intros m Hm. rewrite (set_nth _ _ _ _ _ Hn) in Hm. destruct (Nat.eqb_spec c i) as [->|]; [injection Hm as <-; rewrite E1; apply H2; exact Hn|apply H2; exact Hm].
Qed.
(* what one orderly operation does to the text *)
Definition step_ok (d : doc) (o : op) : Prop :=
  match o with
  | Enter k _ => k <> Text /\ forall c n, current d = Some c -> nth_error (nodes d) c = Some n -> is_acceptable (cls n) k = true
  | GoTo i => around d i
  | Remove _ => False
  | _ => True
  end.
Definition says (d : doc) (t : str) : Prop := exists l, in_order (nodes d) root l /\ flat_map (text_of (nodes d)) l = t.
Lemma text_of_attach : forall ns c n new i, nth_error ns c = Some n -> i < List.length ns -> text_of (attach ns c n new) i = text_of ns i.
Proof.
  intros ns c n new i Hn Hi. destruct (nth_some _ _ _ Hi) as [m Hm]. destruct (attach_old _ c n new i m Hn Hm) as (m' & E & E1 & _ & E2 & _).
  unfold text_of. rewrite E, Hm, E1, E2. reflexivity.
Qed.
Lemma flat_map_same : forall (A B : Type) (f g : A -> list B) l, (forall x, In x l -> f x = g x) -> flat_map f l = flat_map g l.
Proof. intros A B f g. induction l as [|x l IH]; intro H; [reflexivity|]. cbn. rewrite (H x (or_introl eq_refl)), IH; [reflexivity|]. intros y Hy. apply H. right. exact Hy. Qed.
Lemma says_attach : forall d c n new cur t, wf d -> nth_error (nodes d) c = Some n -> children new = [] -> linked (nodes d) c -> says d t ->
  says (mkdoc (attach (nodes d) c n new) cur) (t ++ own new).
Proof.
  intros d c n new cur t W Hn Hnew Lc (l & O & <-). exists (l ++ [List.length (nodes d)]). split; [apply order_extend; auto; apply linked_spine; exact Lc|].
  cbn [nodes]. rewrite flat_map_app. f_equal.
  - apply flat_map_same. intros x Hx. apply text_of_attach; [exact Hn|]. destruct (order_in _ _ _ O x Hx) as [m Hm]. apply (nth_lt _ _ _ _ Hm).
  - cbn. rewrite app_nil_r. unfold text_of. rewrite (attach_nth _ _ _ _ _ Hn), Nat.eqb_refl. reflexivity.
Qed.
Lemma says_set : forall d i n n' cur t, nth_error (nodes d) i = Some n -> children n' = children n -> own n' = own n -> says d t -> says (mkdoc (set_node (nodes d) i n') cur) t.
Proof.
  intros d i n n' cur t Hn E1 E2 (l & O & <-). exists l. cbn [nodes]. split.
  - apply (order_frame _ _ _ _ O). intros x _ m Hm. rewrite (set_nth _ _ _ _ _ Hn). destruct (Nat.eqb_spec x i) as [->|]; [exists n'; split; [reflexivity|congruence]|exists m; auto].
  - apply flat_map_same. intros x _. unfold text_of. rewrite (set_nth _ _ _ _ _ Hn). destruct (Nat.eqb_spec x i) as [->|]; [|reflexivity]. rewrite Hn. exact E2.
Qed.
Lemma change_order : forall d o d' r t, good d -> step_ok d o -> d' = fst (exec d o) -> r = snd (exec d o) -> change d o d' r -> says d t -> good d' /\ says d' (t ++ gave o r).
Proof.
  intros d o d' r t G St Ed Er H T. pose proof G as [W Ch E].
  destruct H as [cur r Hcur Hr|k a x c n e r He Hx Hl Hn Ha Hk|s c n Ho Hc Hn|s c n i m Ho Hc Hn Hl Hi Hm Ht|i c n r Ho Hn|i k v n r Ho Hn|i s n r Ho Hn Hw|i p n r Ho Hn Hw].
  - assert (Eg : gave o r = []) by (destruct o; try reflexivity; destruct (Hr s eq_refl) as [e ->]; reflexivity). rewrite Eg, app_nil_r. split; [|exact T].
    split; [apply wf_goto; assumption|exact Ch|].
    (* the current node is at the end *)
    assert (Cur : cur = current (fst (exec d o))) by (rewrite <- Ed; reflexivity). intros y Hy. cbn [nodes current] in *. subst cur.
    assert (Stay : nodes (fst (exec d o)) = nodes d) by (rewrite <- Ed; reflexivity).
    destruct o as [k a|k a|ks|s|i| |i|i k v|i s|i p]; cbn [exec fst snd] in Hy, Stay.
    + unfold enter in Hy, Stay. destruct (append d k a) as [d1 r1] eqn:Ea. destruct (append_cases _ _ _ _ _ W Ea) as [(-> & [(-> & ->)|(_ & ->)])|H]; cbn [fst snd] in Hy; try (apply E; exact Hy).
      destruct H as (x & c & n & _ & _ & Hn & _ & _ & _ & -> & ->). cbn in Stay. apply (f_equal (@List.length _)) in Stay. rewrite (attach_length _ _ _ _ Hn) in Stay. lia.
    + destruct (append d k a) as [d1 r1] eqn:Ea. destruct (append_cases _ _ _ _ _ W Ea) as [(-> & [(-> & ->)|(_ & ->)])|H]; cbn [fst snd] in Hy; try (apply E; exact Hy).
      destruct H as (x & c & n & _ & _ & Hn & _ & _ & _ & -> & ->). cbn in Stay. apply (f_equal (@List.length _)) in Stay. rewrite (attach_length _ _ _ _ Hn) in Stay. lia.
    + unfold leave in Hy. destruct (look_ok d (fun n => is_any (cls n) ks) W) as [[c|] Hlk]; rewrite Hlk in Hy; cbn [fst snd goto current] in Hy; [|apply E; exact Hy].
      destruct (look_some _ _ _ Hlk) as (x & n & Hx & U & Hn & _). rewrite Hn in Hy. destruct (E x Hx) as [E1 E2].
      destruct (linked_up d W Ch x c U E1 E2) as (L1 & L2 & _).
      assert (U2 : up (nodes d) c y). { eapply up_more; [exact Hn|exact Hy|]. pose proof (wf_parent d W _ _ _ Hn Hy). pose proof (nth_lt _ _ _ _ Hn). destruct (nth_some _ (nodes d) y) as [q Hq]; [lia|]. apply (up_self _ _ q Hq). }
      destruct (linked_up d W Ch c y U2 L1 L2) as (L3 & L4 & _). auto.
    + unfold append_text in Hy. destruct (current d) as [c|] eqn:Ec; [|cbn in Hy; congruence]. destruct (nth_error (nodes d) c) as [n|]; [|apply E; cbn in Hy; congruence].
      assert (Hy' : Some c = Some y). { destruct (rev (children n)) as [|i l]; [exact Hy|]. destruct (nth_error (nodes d) i) as [m|] eqn:Em; [|cbn in Hy; congruence].
        destruct (cls m); try exact Hy. unfold update in Hy. rewrite Em in Hy. cbn in Hy. congruence. }
      apply E. congruence.
    + contradiction.
    + cbn in Hy. injection Hy as <-. split; [constructor|]. intros n Hn F. destruct (wf_root d W) as (q & Hq & Hq' & _). congruence.
    + destruct (Nat.ltb i (List.length (nodes d))); cbn [fst snd goto current] in Hy; [|apply E; exact Hy]. injection Hy as <-.
      destruct St as (c & Hc & B). destruct (E c Hc) as [E1 E2]. apply (linked_below d W Ch i c B E1 E2).
    + unfold set_attr, update in Hy. destruct (nth_error (nodes d) i); cbn in Hy; apply E; exact Hy.
    + destruct (nth_error (nodes d) i) as [n|] eqn:En; [|apply E; exact Hy]. destruct (cls n); cbn in Hy; try (apply E; exact Hy). unfold add_line, update in Hy. rewrite En in Hy. apply E. exact Hy.
    + destruct (nth_error (nodes d) i) as [n|] eqn:En; [|apply E; exact Hy]. destruct (cls n); cbn in Hy; try (apply E; exact Hy). unfold set_processor, update in Hy. rewrite En in Hy. apply E. exact Hy.
  - rewrite (gave_other o r) by (intros s ->; destruct He as [[F _]|[F _]]; discriminate).
    assert (Own : own (created k a (current d)) = []) by (destruct k; reflexivity).
    destruct (look_some _ _ _ Hl) as (x' & n' & Hx' & U & Hn' & _). assert (x' = x) by congruence. subst x'. destruct (E x Hx) as [E1 E2].
    destruct (linked_up d W Ch x c U E1 E2) as (L1 & L2 & Lx). specialize (L2 n Hn).
    split; [|rewrite <- Own; apply says_attach; auto].
    pose proof (nth_lt _ _ _ _ Hn) as Lc. assert (Lxl : x < List.length (nodes d)) by (apply (wf_current d W x Hx)).
    split.
    + apply wf_attach; auto; [exists x; split; [exact Hx|exact Lxl]|]. intros y Hy. injection Hy as <-. destruct He as [[_ ->]|[_ ->]]; lia.
    + apply childless_attach; auto.
    + intros y Hy. cbn [nodes current] in *. injection Hy as <-.
      destruct He as [[-> ->]|[-> ->]].
      * destruct St as [Kt Acc]. destruct (nth_some _ (nodes d) x Lxl) as [nx Hnx].
        assert (c = x). { unfold look in Hl. rewrite Hx in Hl. cbn [climb] in Hl. rewrite Hnx, (Acc x nx Hx Hnx) in Hl. congruence. } subst c.
        destruct (attach_old _ x n (created k a (current d)) x n Hn Hn) as (m' & A1 & _ & _ & _ & _ & A2). rewrite Nat.eqb_refl in A2.
        split.
        -- apply (linked_more _ x (List.length (nodes d)) m' (created k a (current d)) (children n)); [apply linked_attach; auto|exact A1|exact A2| |exact Hx]. rewrite (attach_nth _ _ _ _ _ Hn), Nat.eqb_refl. reflexivity.
        -- intros q Hq. rewrite (attach_nth _ _ _ _ _ Hn), Nat.eqb_refl in Hq. injection Hq as <-. exact Kt.
      * split; [apply linked_attach; auto|]. intros q Hq. destruct (cls_attach _ _ _ _ _ _ Hn Lc Hq) as (q0 & Q1 & Q2). rewrite Q2. replace q0 with n by congruence. exact L2.
  - subst o. destruct (E c Hc) as [E1 E2]. specialize (E2 n Hn). pose proof (nth_lt _ _ _ _ Hn) as Lc. split; [|apply (says_attach d c n (mknode Text [] s None (Some c) [])); auto].
    split.
    + apply wf_attach; auto; [discriminate|exists c; auto|]. intros y Hy. pose proof (wf_current d W y Hy). lia.
    + apply childless_attach; auto.
    + intros y Hy. cbn [nodes current] in *. assert (y = c) by congruence. subst y. split; [apply linked_attach; auto|].
      intros q Hq. destruct (cls_attach _ _ _ _ _ _ Hn Lc Hq) as (q0 & Q1 & Q2). rewrite Q2. replace q0 with n by congruence. exact E2.
  - subst o. split; [apply (good_set d i m); auto|]. destruct (E c Hc) as [E1 E2].
    destruct T as (l & O & <-).
    assert (Sp : spine (nodes d) root i).
    { destruct (exists_last (l := children n)) as (pre & z & Ez); [intro F; rewrite F in Hi; exact Hi|]. rewrite Ez, last_last in Hl. subst z.
      eapply spine_snoc; [apply linked_spine; exact E1|exact Hn|exact Ez]. }
    destruct (order_last _ _ _ Sp m l Hm (Ch _ _ Hm Ht) O) as [l0 ->]. exists (l0 ++ [i]). cbn [nodes]. split.
    + apply (order_frame _ _ _ _ O). intros x _ q Hq. rewrite (set_nth _ _ _ _ _ Hm). destruct (Nat.eqb_spec x i) as [->|]; [exists (with_text m (text m ++ s)); split; [reflexivity|]; cbn; congruence|exists q; auto].
    + rewrite !flat_map_app, <- app_assoc. f_equal.
      * apply flat_map_same. intros x Hx. unfold text_of. rewrite (set_nth _ _ _ _ _ Hm). destruct (Nat.eqb_spec x i) as [->|]; [|reflexivity].
        exfalso. pose proof (order_nodup d W _ _ O) as N. apply NoDup_remove_2 in N. apply N. rewrite app_nil_r. exact Hx.
      * cbn [flat_map]. rewrite !app_nil_r. unfold text_of. rewrite (set_nth _ _ _ _ _ Hm), Nat.eqb_refl, Hm. cbn. rewrite Ht. reflexivity.
  - subst o. contradiction.
  - subst o. cbn [gave]. rewrite app_nil_r. split; [apply (good_set d i n); auto|apply (says_set d i n); auto].
  - subst o. cbn [gave]. rewrite app_nil_r. split; [apply (good_set d i n); auto|apply (says_set d i n); auto]. unfold own. cbn. rewrite Hw. reflexivity.
  - subst o. cbn [gave]. rewrite app_nil_r. split; [apply (good_set d i n); auto|apply (says_set d i n); auto].
Qed.
Lemma orderly_cons : forall d o ops, orderly d (o :: ops) -> step_ok d o /\ orderly (fst (exec d o)) ops.
Proof. intros d o ops H. exact H. Qed.
Lemma text_order : forall ops, orderly new_doc ops -> document_text (edit new_doc ops) = Ok (added new_doc ops).
Proof.
  assert (G : forall ops d t, good d -> says d t -> orderly d ops -> good (edit d ops) /\ says (edit d ops) (t ++ added d ops)).
  { induction ops as [|o ops IH]; intros d t Gd T Or; [cbn; rewrite app_nil_r; auto|]. destruct (orderly_cons _ _ _ Or) as [O1 O2].
    destruct (change_order d o _ _ t Gd O1 eq_refl eq_refl (exec_change d o (g_wf d Gd)) T) as [G1 T1].
    cbn [edit fold_left]. rewrite added_cons, app_assoc. apply IH; assumption. }
  intros ops Or. destruct (G ops new_doc []) as [Gd (l & O & E)]; [| |exact Or|].
  - split; [apply wf_new| |].
    + intros [|[|i]] n H; cbn in H; inversion H; subst; discriminate.
    + intros c Hc. cbn in Hc. injection Hc as <-. split; [constructor|]. intros n Hn. cbn in Hn. injection Hn as <-. discriminate.
  - exists [root]. split; [|reflexivity]. apply (order_node _ root (mknode BgRoot [] [] None None []) []); [reflexivity|constructor].
  - unfold document_text. destruct (visit_ok _ (g_wf _ Gd)) as (v & Hv & O' & _). rewrite Hv. rewrite (order_det _ _ _ O' _ O). rewrite E. reflexivity.
Qed.
