(* Writing in the order of editing; tables of contents *)
From Coq Require Import Permutation.
From Verif Require Import Py PyFacts HtmlModel HtmlSpec HtmlProofs TreeModel TreeSpec TreeProofs TreeVisit TreeText TreeHtml TreeStream TocModel TocSpec WikiSpec.
Open Scope string_scope.
Open Scope list_scope.
Open Scope nat_scope.

(* ---- in the order of editing ---- *)
Lemma by_hand_ok : forall order rst ops d st s pend t, at_back order rst d st s pend -> by_hand order rst st pend ops = Some t -> render order rst (edit d ops) = Ok (s ++ t).
Proof.
  intros order rst. induction ops as [|o ops IH]; intros d st s pend t B H.
  - cbn [by_hand edit fold_left] in *. destruct (mapM _ st) as [l|] eqn:E; [|discriminate]. injection H as <-. fold (pended pend). exact (back_whole order rst d st s pend l B E).
  - change (edit d (o :: ops)) with (edit (fst (exec d o)) ops). destruct o as [k a|k a|ks|u| | | | | |]; cbn [by_hand] in H; try discriminate; fold (pended pend) in H.
    + destruct (_ && _) eqn:E; [|discriminate]. apply andb_true_iff in E. destruct E as [E1 E2].
      destruct (opening order k a) as [op|] eqn:Eo; [|discriminate]. destruct (by_hand order rst ((k, a) :: st) None ops) as [r|] eqn:Er; [|discriminate]. injection H as <-.
      destruct (back_enter order rst d st s pend k a op B) as (d' & Hd & B').
      * destruct st as [|[h b] st]; [reflexivity|exact E2].
      * intros ->; discriminate.
      * intros ->; discriminate.
      * destruct k; try discriminate E1; exact Eo.
      * rewrite Hd. cbn [fst]. replace (match k with Wrapping => [] | _ => a end) with a in B' by (destruct k; try reflexivity; discriminate E1).
        rewrite (IH _ _ _ _ _ B' Er). rewrite <- !app_assoc. reflexivity.
    + destruct (_ && _) eqn:E; [|discriminate]. apply andb_true_iff in E. destruct E as [E1 E2].
      destruct (opening order k a) as [op|] eqn:Eo; [|discriminate]. destruct (closing order rst k a) as [cl|] eqn:Ec; [|discriminate].
      destruct (by_hand order rst st None ops) as [r|] eqn:Er; [|discriminate]. injection H as <-.
      destruct (back_append order rst d st s pend k a op cl B) as (d' & Hd & B').
      * destruct st as [|[h b] st]; [reflexivity|exact E2].
      * intros ->; discriminate.
      * intros ->; discriminate.
      * destruct k; try discriminate E1; exact Eo.
      * destruct k; try discriminate E1; exact Ec.
      * rewrite Hd. cbn [fst]. rewrite (IH _ _ _ _ _ B' Er). rewrite <- !app_assoc. reflexivity.
    + destruct st as [|[k a] st]; [discriminate|]. destruct (is_any k ks) eqn:Ek; [|discriminate]. destruct (closing order rst k a) as [cl|] eqn:Ec; [|discriminate].
      destruct (by_hand order rst st None ops) as [r|] eqn:Er; [|discriminate]. injection H as <-.
      destruct (back_leave order rst d k a st s pend ks cl B Ek Ec) as (d' & Hd & B'). rewrite Hd. cbn [fst]. rewrite (IH _ _ _ _ _ B' Er). rewrite <- !app_assoc. reflexivity.
    + destruct (back_text order rst d st s pend u B) as (d' & Hd & B'). rewrite Hd. cbn [fst]. apply (IH _ _ _ _ _ B' H).
Qed.
Lemma in_editing_order : forall order rst ops s, by_hand order rst [] None ops = Some s -> render order rst (edit new_doc ops) = Ok s.
Proof. intros order rst ops s H. apply (by_hand_ok order rst ops new_doc [] [] None s (back_new order rst) H). Qed.

(* ---- the list of the contents ---- *)
Lemma get_numbered : forall k, In k design_names -> exists v, get numbered k = Some v /\ (truthy v = true <-> k = "ordered_numeric").
Proof.
  intros k H. cbn in H. destruct H as [<-|[<-|[<-|[<-|[<-|[]]]]]]; eexists; (split; [reflexivity|]); (split; intro H; [reflexivity || discriminate H|reflexivity || discriminate H]).
Qed.
Lemma numbered_name : forall order, incl order design_names -> In "ordered_numeric" order -> design_name order numbered = Ok "ordered_numeric".
Proof.
  induction order as [|k order IH]; intros I H; [destruct H|]. cbn [design_name]. destruct (get_numbered k (I k (or_introl eq_refl))) as (v & -> & Hv).
  destruct (truthy v) eqn:E; [f_equal; apply Hv; reflexivity|]. apply IH; [intros x Hx; apply I; right; exact Hx|]. destruct H as [->|H]; [|exact H]. destruct Hv as [_ Hv]. discriminate Hv. reflexivity.
Qed.
Lemma numbered_ok : forall order, Permutation order design_names -> design_name order numbered = Ok "ordered_numeric".
Proof.
  intros order P. apply numbered_name; [intros x Hx; apply (Permutation_in _ P Hx)|]. apply (Permutation_in _ (Permutation_sym P)). cbn. auto.
Qed.
Lemma escape_safe : forall s, (forall c, In c s -> ~ special c) -> escape s = s.
Proof.
  induction s as [|c s IH]; intros H; [reflexivity|]. change (escape (c :: s)) with (escape_char c ++ escape s). rewrite IH by (intros x Hx; apply H; right; exact Hx).
  pose proof (H c (or_introl eq_refl)) as N. destruct (escape_char_cases c) as [[-> _]|[[-> _]|[[-> _]|[_ ->]]]]; try (exfalso; apply N; unfold special; auto; fail). reflexivity.
Qed.
Lemma digits : forall u c, In c (chars_of_uint u) -> key_char c = true.
Proof. induction u; cbn [chars_of_uint]; intros c H; [destruct H|..]; (destruct H as [<-|H]; [reflexivity|apply IHu; exact H]). Qed.
Lemma mark_chars : forall k c, In c (mark k) -> key_char c = true.
Proof.
  intros k c H. unfold mark in H. apply in_app_or in H. destruct H as [H|H].
  - cbn in H. repeat (destruct H as [<-|H]; [reflexivity|]). destruct H.
  - unfold py_str_int in H. destruct (Z.to_int (Z.of_nat k)) as [u|u]; [apply (digits _ _ H)|]. destruct H as [<-|H]; [reflexivity|apply (digits _ _ H)].
Qed.
Lemma key_char_safe : forall c, key_char c = true -> ~ special c /\ c <> quote.
Proof. intros c H. split; [intros [E|[E|E]]|intros E]; subst c; discriminate H. Qed.
Lemma escape_mark : forall k, escape (L "#" ++ mark k) = L "#" ++ mark k.
Proof.
  intros k. apply escape_safe. intros c H. apply in_app_or in H. destruct H as [[<-|[]]|H]; [intros [E|[E|E]]; discriminate E|]. apply key_char_safe. apply (mark_chars _ _ H).
Qed.

(* ---- nodes that differ in their attributes only ---- *)
Definition alike (ns ns' : list node) : Prop :=
  List.length ns' = List.length ns /\ forall i n, nth_error ns i = Some n -> exists a, nth_error ns' i = Some (with_attrs n a).
Lemma alike_refl : forall ns, alike ns ns.
Proof. intros ns. split; [reflexivity|]. intros i n H. exists (attrs n). rewrite H. destruct n. reflexivity. Qed.
Lemma alike_trans : forall a b c, alike a b -> alike b c -> alike a c.
Proof.
  intros a b c [L1 H1] [L2 H2]. split; [congruence|]. intros i n H. destruct (H1 i n H) as [x Hx]. destruct (H2 i _ Hx) as [y Hy]. exists y. exact Hy.
Qed.
Lemma alike_none : forall a b i, alike a b -> nth_error a i = None -> nth_error b i = None.
Proof. intros a b i [E _] H. apply nth_error_None. apply nth_error_None in H. lia. Qed.
Lemma alike_titled : forall a b i, alike a b -> titled b i = titled a i.
Proof.
  intros a b i H. unfold titled. destruct (nth_error a i) as [n|] eqn:E.
  - destruct H as [_ H]. destruct (H i n E) as [x ->]. reflexivity.
  - rewrite (alike_none a b i H E). reflexivity.
Qed.
Lemma alike_titles : forall a b l, alike a b -> titles b l = titles a l.
Proof. intros a b l H. apply filter_ext. intros i. apply alike_titled. exact H. Qed.
Lemma Forall2_impl : forall (A B : Type) (P Q : A -> B -> Prop), (forall x y, P x y -> Q x y) -> forall l r, Forall2 P l r -> Forall2 Q l r.
Proof. intros A B P Q H l r F. induction F; constructor; auto. Qed.
Lemma alike_own : forall a b i s, alike a b -> own_text a i s -> own_text b i s.
Proof. intros a b i s [_ H] (n & Hn & Hs). destruct (H i n Hn) as [x Hx]. exists (with_attrs n x). split; [exact Hx|exact Hs]. Qed.
Lemma alike_label : forall a b i s, alike a b -> label a i s -> label b i s.
Proof.
  intros a b i s H (n & Hn & Hs). destruct (proj2 H i n Hn) as [x Hx]. exists (with_attrs n x). split; [exact Hx|]. destruct Hs as [Hs|(K & ss & F & E)]; [left; exact Hs|right].
  split; [exact K|]. exists ss. split; [|exact E]. cbn. eapply Forall2_impl; [|exact F]. intros c u Hc. eapply alike_own; eassumption.
Qed.
Lemma alike_entry : forall a b i e, alike a b -> entry a i e -> entry b i e.
Proof.
  intros a b i e H (n & Hn & Hd & F). destruct (proj2 H i n Hn) as [x Hx]. exists (with_attrs n x). split; [exact Hx|]. split; [exact Hd|].
  cbn. eapply Forall2_impl; [|exact F]. intros c u Hc. eapply alike_label; eassumption.
Qed.
Lemma alike_entries : forall a b l es, alike a b -> Forall2 (entry a) (titles a l) es -> Forall2 (entry b) (titles b l) es.
Proof. intros a b l es H F. rewrite (alike_titles a b l H). eapply Forall2_impl; [|exact F]. intros i e. apply alike_entry. exact H. Qed.
Lemma alike_order : forall a b i l, alike a b -> in_order a i l -> in_order b i l.
Proof.
  intros a b i l H O. revert i l O. apply (in_order_rect a (fun i l => in_order b i l)). intros i n ls Hn _ F. destruct (proj2 H i n Hn) as [x Hx]. econstructor; [exact Hx|exact F].
Qed.
Lemma set_id_nth : forall ns i s j, nth_error (set_id ns i s) j = if Nat.eqb j i then option_map (fun n => with_attrs n (set_key (attrs n) "id" (VStr s))) (nth_error ns j) else nth_error ns j.
Proof.
  intros ns i s j. unfold set_id. destruct (nth_error ns i) as [n|] eqn:E.
  - rewrite (set_nth _ _ _ _ _ E). destruct (Nat.eqb_spec j i) as [->|]; [rewrite E; reflexivity|reflexivity].
  - destruct (Nat.eqb_spec j i) as [->|]; [rewrite E; reflexivity|reflexivity].
Qed.
Lemma set_id_length : forall ns i s, List.length (set_id ns i s) = List.length ns.
Proof. intros ns i s. unfold set_id. destruct (nth_error ns i) as [n|] eqn:E; [|reflexivity]. apply (set_length _ _ _ _ E). Qed.
Lemma set_id_alike : forall ns i s, alike ns (set_id ns i s).
Proof.
  intros ns i s. split; [apply set_id_length|]. intros j n H. rewrite set_id_nth, H. destruct (Nat.eqb j i); [eexists; reflexivity|]. exists (attrs n). destruct n. reflexivity.
Qed.
Lemma set_id_wf : forall d i s, wf d -> wf (mkdoc (set_id (nodes d) i s) (current d)).
Proof.
  intros d i s W. pose proof (exec_wf d (SetAttr i "id" (VStr s)) W) as W'. cbn [exec fst] in W'. unfold set_attr, update in W'. unfold set_id. destruct (nth_error (nodes d) i); [exact W'|]. destruct d. exact W.
Qed.
Fixpoint mark_all (k : nat) (hs : list nat) (ns : list node) : list node :=
  match hs with [] => ns | i :: hs => mark_all (S k) hs (set_id ns i (mark k)) end.
Lemma mark_all_alike : forall hs k ns, alike ns (mark_all k hs ns).
Proof. induction hs as [|i hs IH]; intros k ns; [apply alike_refl|]. cbn [mark_all]. eapply alike_trans; [apply (set_id_alike ns i (mark k))|apply IH]. Qed.
Lemma mark_all_wf : forall hs k d, wf d -> wf (mkdoc (mark_all k hs (nodes d)) (current d)).
Proof.
  induction hs as [|i hs IH]; intros k d W; [destruct d; exact W|]. cbn [mark_all]. apply (IH (S k) (mkdoc (set_id (nodes d) i (mark k)) (current d))). apply set_id_wf. exact W.
Qed.
Lemma mark_all_other : forall hs k ns i, ~ In i hs -> nth_error (mark_all k hs ns) i = nth_error ns i.
Proof.
  induction hs as [|h hs IH]; intros k ns i H; [reflexivity|]. cbn [mark_all]. rewrite IH by (intro F; apply H; right; exact F). rewrite set_id_nth.
  destruct (Nat.eqb_spec i h) as [->|]; [exfalso; apply H; left; reflexivity|reflexivity].
Qed.
Lemma mark_all_nth : forall hs k ns, NoDup hs -> forall j i n, nth_error hs j = Some i -> nth_error ns i = Some n -> nth_error (mark_all k hs ns) i = Some (marked n (k + j)).
Proof.
  induction hs as [|h hs IH]; intros k ns N j i n Hj Hn; [destruct j; discriminate|]. inversion N as [|h' hs' Nh Nd]; subst. cbn [mark_all]. destruct j as [|j]; cbn in Hj.
  - injection Hj as ->. rewrite (mark_all_other _ _ _ _ Nh), set_id_nth, Nat.eqb_refl, Hn, Nat.add_0_r. reflexivity.
  - rewrite (IH (S k) (set_id ns h (mark k)) Nd j i n Hj); [f_equal; f_equal; lia|]. rewrite set_id_nth. destruct (Nat.eqb_spec i h) as [->|]; [exfalso; apply Nh; apply (nth_error_In _ _ Hj)|exact Hn].
Qed.
Lemma mark_all_only : forall hs ns, NoDup hs -> only_marked ns hs (mark_all 0 hs ns).
Proof.
  intros hs ns N. split; [apply mark_all_alike|]. split; [intros k i n; apply (mark_all_nth hs 0 ns N)|]. intros i H. apply mark_all_other. exact H.
Qed.
Lemma set_key_twice : forall a k v, set_key (set_key a k v) k v = set_key a k v.
Proof.
  induction a as [|[x y] a IH]; intros k v; cbn [set_key]; [rewrite String.eqb_refl; reflexivity|]. destruct (String.eqb x k) eqn:E; cbn [set_key]; [rewrite String.eqb_refl; reflexivity|rewrite E, IH; reflexivity].
Qed.
Lemma nth_same : forall (A : Type) (a b : list A), (forall i, nth_error a i = nth_error b i) -> a = b.
Proof.
  intros A. induction a as [|x a IH]; intros [|y b] H; [reflexivity|specialize (H 0); discriminate|specialize (H 0); discriminate|].
  pose proof (H 0) as E. injection E as ->. f_equal. apply IH. intros i. apply (H (S i)).
Qed.
Lemma mark_all_twice : forall hs ns, NoDup hs -> mark_all 0 hs (mark_all 0 hs ns) = mark_all 0 hs ns.
Proof.
  intros hs ns N. apply nth_same. intros i. destruct (in_dec Nat.eq_dec i hs) as [I|I]; [|apply mark_all_other; exact I].
  destruct (nth_error ns i) as [n|] eqn:E.
  - apply In_nth_error in I. destruct I as [k Hk]. pose proof (mark_all_nth hs 0 ns N k i n Hk E) as E1. rewrite (mark_all_nth hs 0 _ N k i _ Hk E1), E1.
    unfold marked. cbn [attrs with_attrs]. rewrite set_key_twice. reflexivity.
  - assert (H : forall x, alike ns x -> nth_error x i = None) by (intros x Hx; apply (alike_none _ _ _ Hx E)).
    rewrite !H; [reflexivity|apply mark_all_alike|]. eapply alike_trans; apply mark_all_alike.
Qed.

Section Order.
Variables (order : list string) (rst : str -> res str).
Hypothesis HP : Permutation order design_names.
Notation at_back := (at_back order rst).

Lemma list_tag_numbered : forall p, list_tag order (mknode ListEl numbered [] None p []) = Ok ("ol", None).
Proof. intros p. unfold list_tag. cbn [attrs]. rewrite (numbered_ok order HP). reflexivity. Qed.
Lemma open_list : open order (mknode ListEl numbered [] None None []) = Ok (L "<ol>" ++ [newline]).
Proof. unfold open. cbn [cls]. rewrite list_tag_numbered. reflexivity. Qed.
Lemma close_list : close order rst (mknode ListEl numbered [] None None []) = Ok (L "</ol>" ++ [newline]).
Proof. unfold close. cbn [cls]. rewrite list_tag_numbered. reflexivity. Qed.
Lemma open_link : forall k, open order (mknode Anchor [("href", VStr (L "#" ++ mark k))] [] None None []) = Ok (L "<a href=" ++ [quote] ++ L "#" ++ mark k ++ [quote] ++ L ">" ++ [newline]).
Proof.
  intros k. unfold open. cbn [cls]. unfold generic_open. cbn [cls attrs html_element mapM bind attr_string fst snd]. rewrite escape_mark. cbn [join_attrs is_single].
  f_equal. unfold quote. cbn. rewrite <- !app_assoc. reflexivity.
Qed.
Lemma go_in_enter : forall d k a d', exec d (Enter k a) = (d', Ok tt) -> go_in d k a = Ok d'.
Proof. intros d k a d' H. unfold exec in H. unfold go_in. destruct (enter d k a) as [x [y|e]]; cbn in H; [injection H as ->; reflexivity|discriminate]. Qed.
Lemma go_out_leave : forall d k d', exec d (Leave [k]) = (d', Ok tt) -> go_out d k = Ok d'.
Proof. intros d k d' H. unfold exec in H. unfold go_out. rewrite H. reflexivity. Qed.
Definition nest (n : nat) : list (klass * list (string * value)) := repeat (ListEl, numbered) n.
Lemma deeper : forall n m d s, at_back d (nest m) s None -> exists d', times n (fun d => go_in d ListEl numbered) d = Ok d' /\ at_back d' (nest (n + m)) (s ++ lines n "<ol>") None.
Proof.
  induction n as [|n IH]; intros m d s B; cbn [times lines]; [exists d; rewrite app_nil_r; auto|].
  destruct (back_enter order rst d (nest m) s None ListEl numbered (L "<ol>" ++ [newline]) B) as (d1 & E1 & B1); [destruct m; reflexivity|discriminate|discriminate|exact open_list|].
  rewrite (go_in_enter _ _ _ _ E1). cbn [bind]. cbn [pended app] in B1. change ((ListEl, numbered) :: nest m) with (nest (S m)) in B1.
  destruct (IH (S m) d1 _ B1) as (d2 & E2 & B2). exists d2. split; [exact E2|]. replace (S n + m) with (n + S m) by lia. rewrite <- app_assoc in B2. exact B2.
Qed.
Lemma higher : forall n m d s, at_back d (nest (n + m)) s None -> exists d', times n (fun d => go_out d ListEl) d = Ok d' /\ at_back d' (nest m) (s ++ lines n "</ol>") None.
Proof.
  induction n as [|n IH]; intros m d s B; cbn [times lines]; [exists d; rewrite app_nil_r; auto|].
  destruct (back_leave order rst d ListEl numbered (nest (n + m)) s None [ListEl] (L "</ol>" ++ [newline]) B) as (d1 & E1 & B1); [reflexivity|exact close_list|].
  rewrite (go_out_leave _ _ _ E1). cbn [bind]. cbn [pended app] in B1.
  destruct (IH m d1 _ B1) as (d2 & E2 & B2). exists d2. split; [exact E2|]. rewrite <- app_assoc in B2. exact B2.
Qed.
Lemma style_none : forall d m s p, at_back d (nest (S m)) s p -> current_style order d = Ok VNone.
Proof.
  intros d m s p B. destruct (settle order rst _ _ _ _ B) as (c & n & Hc & Hn & Hp & _). unfold current_style. rewrite Hc, Hn.
  inversion Hp as [|p' q n' st Hn' Hpar Hl K1 K2 K3 K4 Hq E1 E2]; subst. replace n' with n in * by congruence. rewrite E2. unfold get_style. rewrite H, (numbered_ok order HP). reflexivity.
Qed.
Definition keep (l : list (option str)) : list str := flat_map (fun o => match o with Some s => [s] | None => [] end) l.
Definition gap (l : list (option str)) : bool := existsb (fun o => match o with Some _ => false | None => true end) l.
Definition shown (ns : list node) (i : nat) (o : option str) : Prop := match o with Some s => label ns i s | None => no_label ns i end.
Definition entry_of (ns : list node) (i : nat) (e : nat * list (option str)) : Prop :=
  exists n, nth_error ns i = Some n /\ depth (cls n) = Some (fst e) /\ Forall2 (shown ns) (children n) (snd e).
Definition kept (es : list (nat * list (option str))) : list (nat * list str) := map (fun e => (fst e, keep (snd e))) es.
Lemma adopted : forall l d st s pend, at_back d st s pend -> exists d' pend' s', adopt d l = Ok (d', gap l) /\ at_back d' st s' pend'
  /\ s' ++ pended pend' = s ++ pended pend ++ List.concat (map (fun t => t ++ [newline]) (keep l)).
Proof.
  induction l as [|[t|] l IH]; intros d st s pend B; cbn [map adopt List.concat keep flat_map app gap existsb orb].
  - exists d, pend, s. rewrite app_nil_r. auto.
  - destruct (back_leaf order rst d st s pend t B) as (c & n & Hc & Hn & B1). unfold adopt1. rewrite Hc. unfold update. rewrite Hn. cbn [nodes].
    cbn [bind]. destruct (IH _ _ _ _ B1) as (d' & pend' & s' & E & B' & Es). exists d', pend', s'. split; [exact E|]. split; [exact B'|].
    rewrite Es. cbn [pended map List.concat]. rewrite <- !app_assoc. reflexivity.
  - destruct (IH _ _ _ _ B) as (d' & pend' & s' & E & B' & Es). exists d', pend', s'. rewrite E. cbn [bind fst]. split; [reflexivity|]. split; [exact B'|exact Es].
Qed.
Lemma de_anchor_ok : forall ns i s, label ns i s -> de_anchor ns i = Ok (Some s).
Proof.
  intros ns i s (n & Hn & [(K & C & ->)|(K & ss & F & ->)]); unfold de_anchor; rewrite Hn, K; [rewrite C; reflexivity|].
  f_equal. f_equal. f_equal. clear - F. induction F as [|i s l ss H F IH]; [reflexivity|]. cbn [map]. f_equal; [|exact IH].
  destruct H as (m & Hm & H). unfold text_of_child. rewrite Hm. destruct H as [[-> ->]|[K ->]]; [reflexivity|]. destruct (cls m); try reflexivity. contradiction.
Qed.
Lemma de_anchor_shown : forall ns i o, shown ns i o -> de_anchor ns i = Ok o.
Proof.
  intros ns i [s|] H; [apply de_anchor_ok; exact H|]. destruct H as (n & Hn & K1 & K2). unfold de_anchor. rewrite Hn. destruct (cls n); try reflexivity; contradiction.
Qed.
Lemma level_depth : forall k l, depth k = Some l -> level k = Ok l /\ is_a k Heading = true.
Proof. intros k l H. destruct k; try discriminate H; injection H as <-; split; reflexivity. Qed.
(* one heading *)
Lemma heading_ok : forall ns t n l labels s, at_back (sheet t) (nest (S (nesting t))) s None -> depth (cls n) = Some l -> Forall2 (shown ns) (children n) labels ->
  exists d, toc_heading order ns t n = Ok (mktoc d l (fragments t) (lost t || gap labels))
    /\ at_back d (nest (S l)) (s ++ lines (l - nesting t) "<ol>" ++ lines (nesting t - l) "</ol>"
      ++ L "<li><a href=" ++ [quote] ++ L "#" ++ mark (fragments t) ++ [quote] ++ L ">" ++ [newline]
      ++ List.concat (map (fun s => s ++ [newline]) (keep labels)) ++ L "</a>" ++ [newline] ++ L "</li>" ++ [newline]) None.
Proof.
  intros ns t n l labels s B Hd HF. unfold toc_heading, match_nesting. destruct (level_depth _ _ Hd) as [-> _]. cbn [bind].
  destruct (deeper (l - nesting t) _ _ _ B) as (d1 & E1 & B1). rewrite E1. cbn [bind].
  replace (l - nesting t + S (nesting t)) with ((nesting t - l) + S l) in B1 by lia.
  destruct (higher (nesting t - l) _ _ _ B1) as (d2 & E2 & B2). rewrite E2. cbn [bind sheet fragments nesting lost].
  rewrite (style_none _ _ _ _ B2). cbn [bind].
  destruct (back_enter order rst d2 (nest (S l)) _ None Itemize [("style", VNone)] (L "<li>") B2) as (d3 & E3 & B3); [reflexivity|discriminate|discriminate|reflexivity|].
  rewrite (go_in_enter _ _ _ _ E3). cbn [bind]. cbn [pended app] in B3.
  destruct (back_enter order rst d3 _ _ None Anchor [("href", VStr (L "#" ++ mark (fragments t)))] (L "<a href=" ++ [quote] ++ L "#" ++ mark (fragments t) ++ [quote] ++ L ">" ++ [newline]) B3) as (d4 & E4 & B4); [reflexivity|discriminate|discriminate|exact (open_link (fragments t))|].
  change (fragment (fragments t)) with (mark (fragments t)). rewrite (go_in_enter _ _ _ _ E4). cbn [bind]. cbn [pended app] in B4.
  assert (El : mapM (de_anchor ns) (children n) = Ok labels).
  { apply mapM_forall2. clear - HF. induction HF as [|i s l ss H F IH]; constructor; [apply de_anchor_shown; exact H|exact IH]. }
  rewrite El. cbn [bind]. destruct (adopted labels _ _ _ _ B4) as (d5 & pend & s5 & E5 & B5 & Es). rewrite E5. cbn [bind fst snd].
  destruct (back_leave order rst d5 Anchor _ _ _ _ [Anchor] (L "</a>" ++ [newline]) B5) as (d6 & E6 & B6); [reflexivity|reflexivity|].
  rewrite (go_out_leave _ _ _ E6). cbn [bind].
  destruct (back_leave order rst d6 Itemize _ _ _ _ [Itemize] (L "</li>" ++ [newline]) B6) as (d7 & E7 & B7); [reflexivity|reflexivity|].
  rewrite (go_out_leave _ _ _ E7). cbn [bind]. exists d7. split; [reflexivity|].
  match type of B7 with TreeStream.at_back _ _ _ _ ?y _ => match goal with |- TreeStream.at_back _ _ _ _ ?x _ => replace x with y; [exact B7|] end end.
  cbn [pended app] in Es |- *. rewrite (app_assoc s5), Es. rewrite <- !app_assoc. repeat (f_equal; []). cbn. repeat (rewrite <- !app_assoc; cbn). reflexivity.
Qed.
(* all headings *)
Lemma titled_node : forall ns i n, nth_error ns i = Some n -> titled ns i = is_a (cls n) Heading.
Proof. intros ns i n H. unfold titled. rewrite H. destruct (cls n); reflexivity. Qed.
Lemma alike_entries_of : forall a b l es, alike a b -> Forall2 (entry_of a) (titles a l) es -> Forall2 (entry_of b) (titles b l) es.
Proof.
  intros a b l es H F. rewrite (alike_titles a b l H). eapply Forall2_impl; [|exact F]. intros i e (n & Hn & Hd & F'). destruct (proj2 H i n Hn) as [x Hx]. exists (with_attrs n x).
  split; [exact Hx|]. split; [exact Hd|]. cbn. eapply Forall2_impl; [|exact F']. intros c [u|] Hc; [eapply alike_label; eassumption|]. destruct Hc as (m & Hm & K).
  destruct (proj2 H c m Hm) as [y Hy]. exists (with_attrs m y). split; [exact Hy|exact K].
Qed.
Lemma visit_contents : forall vs ns t s es, at_back (sheet t) (nest (S (nesting t))) s None -> (forall i, In i (entered vs) -> i < List.length ns) ->
  Forall2 (entry_of ns) (titles ns (entered vs)) es ->
  exists d m s', toc_visit order vs ns t = (mark_all (fragments t) (titles ns (entered vs)) ns, Ok (mktoc d m (fragments t + List.length es) (lost t || existsb (fun e => gap (snd e)) es)))
    /\ at_back d (nest (S m)) s' None /\ s' ++ lines (S m) "</ol>" = s ++ contents (nesting t) (fragments t) (kept es).
Proof.
  induction vs as [|v vs IH]; intros ns t s es B I F.
  - cbn in F. inversion F; subst. exists (sheet t), (nesting t), s. cbn [toc_visit entered flat_map titles filter mark_all]. split; [|split; [exact B|reflexivity]].
    destruct t. cbn. rewrite Nat.add_0_r, orb_false_r. reflexivity.
  - destruct v as [i|i]; [|exact (IH ns t s es B I F)]. change (entered (VEnter i :: vs)) with (i :: entered vs) in *. cbn [toc_visit].
    destruct (nth_some _ ns i (I i (or_introl eq_refl))) as [n Hn]. rewrite Hn. unfold titles in *. cbn [filter] in *. rewrite (titled_node _ _ _ Hn) in *.
    destruct (is_a (cls n) Heading) eqn:Eh; [|apply IH; [exact B|intros j Hj; apply I; right; exact Hj|exact F]].
    inversion F as [|i' [l labels] is' es' E F' E1 E2]; subst. destruct E as (n' & Hn' & Hd & HF). replace n' with n in * by congruence. cbn [fst snd] in Hd, HF.
    destruct (heading_ok ns t n l labels s B Hd HF) as (d & -> & B1). cbn [fragments sheet nesting lost].
    change (fragment (fragments t)) with (mark (fragments t)). pose proof (set_id_alike ns i (mark (fragments t))) as Al.
    destruct (IH (set_id ns i (mark (fragments t))) (mktoc d l (S (fragments t)) (lost t || gap labels)) _ es' B1) as (d' & m & s' & E' & B' & Es).
    + intros j Hj. rewrite set_id_length. apply I. right. exact Hj.
    + apply (alike_entries_of _ _ _ _ Al F').
    + exists d', m, s'. rewrite E'. cbn [fragments lost nesting] in *. cbn [mark_all]. fold (titles (set_id ns i (mark (fragments t))) (entered vs)). rewrite (alike_titles _ _ _ Al).
      split; [cbn [List.length]; rewrite Nat.add_succ_r; cbn [existsb snd]; rewrite orb_assoc; reflexivity|]. split; [exact B'|]. rewrite Es. cbn [kept map contents fst snd]. rewrite <- !app_assoc. repeat (f_equal; []). cbn. repeat (rewrite <- !app_assoc; cbn). reflexivity.
Qed.
Lemma close_nest : forall m, mapM (fun ka => close order rst (mknode (fst ka) (snd ka) [] None None [])) (nest m) = Ok (repeat (L "</ol>" ++ [newline]) m).
Proof. induction m as [|m IH]; [reflexivity|]. cbn [nest repeat mapM fst snd] in *. rewrite close_list. cbn [bind]. unfold nest in IH. rewrite IH. reflexivity. Qed.
Lemma concat_nest : forall m, List.concat (repeat (L "</ol>" ++ [newline]) m) = lines m "</ol>".
Proof. induction m as [|m IH]; [reflexivity|]. cbn [repeat List.concat lines]. rewrite IH, <- app_assoc. reflexivity. Qed.
Lemma contents_any : forall d l es, wf d -> in_order (nodes d) root l -> Forall2 (entry_of (nodes d)) (titles (nodes d) l) es ->
  toc_open order rst (nodes d) = (mark_all 0 (titles (nodes d) l) (nodes d), if existsb (fun e => gap (snd e)) es then Exc AttributeError else Ok (contents_html (kept es))).
Proof.
  intros d l es W O F. unfold toc_open.
  destruct (back_enter order rst new_doc [] [] None ListEl numbered (L "<ol>" ++ [newline]) (back_new order rst)) as (d1 & E1 & B1); [reflexivity|discriminate|discriminate|exact open_list|].
  rewrite (go_in_enter _ _ _ _ E1). cbn [pended app] in B1.
  destruct (visit_ok d W) as (vs & Hv & Ho & N & Hb). unfold fuel in Hv. rewrite Hv. pose proof (order_det _ _ _ O _ Ho). subst l.
  destruct (visit_contents vs (nodes d) (mktoc d1 0 0 false) (L "<ol>" ++ [newline]) es) as (d2 & m & s & E2 & B2 & Es); [exact B1| |exact F|].
  { intros i Hi. apply Hb in Hi. clear - W Hi. destruct Hi as [|h j _ (n & Hn & Hj)]; [destruct (wf_root d W) as (n & Hn & _); apply (nth_lt _ _ _ _ Hn)|]. apply (wf_children d W _ _ _ Hn Hj). }
  rewrite E2. cbn [fragments sheet lost nesting] in *.
  destruct (back_leave order rst d2 ListEl numbered (nest m) s None [ListEl] (L "</ol>" ++ [newline]) B2) as (d3 & E3 & B3); [reflexivity|exact close_list|].
  rewrite (go_out_leave _ _ _ E3). cbn [orb]. f_equal. destruct (existsb _ es); [reflexivity|]. change (render order rst (done d3)) with (render order rst d3). rewrite (back_whole order rst d3 _ _ _ _ B3 (close_nest m)).
  f_equal. rewrite concat_nest. cbn [pended app]. unfold contents_html. rewrite <- app_assoc. cbn [lines] in Es. rewrite <- app_assoc in Es |- *. rewrite <- Es. reflexivity.
Qed.
Lemma entries_some : forall ns l es, Forall2 (entry ns) l es -> Forall2 (entry_of ns) l (map (fun e => (fst e, map Some (snd e))) es).
Proof.
  intros ns l es F. induction F as [|i e l es (n & Hn & Hd & HF) F IH]; [constructor|]. constructor; [|exact IH]. exists n. split; [exact Hn|]. split; [exact Hd|].
  cbn [fst snd]. clear - HF. induction HF; constructor; assumption.
Qed.
Lemma keep_some : forall l, keep (map Some l) = l.
Proof. induction l as [|x l IH]; [reflexivity|]. cbn. f_equal. exact IH. Qed.
Lemma gap_some : forall l, gap (map Some l) = false.
Proof. induction l as [|x l IH]; [reflexivity|]. cbn. exact IH. Qed.
Lemma contents_ok : forall d l es, wf d -> in_order (nodes d) root l -> Forall2 (entry (nodes d)) (titles (nodes d) l) es ->
  toc_open order rst (nodes d) = (mark_all 0 (titles (nodes d) l) (nodes d), Ok (contents_html es)).
Proof.
  intros d l es W O F. rewrite (contents_any d l _ W O (entries_some _ _ _ F)). f_equal.
  replace (existsb _ _) with false; [f_equal; f_equal|].
  - unfold kept. rewrite map_map. rewrite <- (map_id es) at 2. apply map_ext. intros [a b]. cbn [fst snd]. rewrite keep_some. reflexivity.
  - symmetry. clear F. induction es as [|e es IH]; [reflexivity|]. cbn [map existsb fst snd]. rewrite gap_some. exact IH.
Qed.
Lemma entries_exist : forall ns hs, Forall (listed ns) hs -> exists es, Forall2 (entry_of ns) hs es.
Proof.
  intros ns hs F. induction F as [|i hs (n & Hn & Hd & Hc) F [es IH]]; [exists []; constructor|]. destruct (depth (cls n)) as [l|] eqn:E; [|contradiction].
  assert (G : exists labels, Forall2 (shown ns) (children n) labels).
  { clear - Hc. induction (children n) as [|c cs IH]; [exists []; constructor|]. destruct IH as [ls IH]; [intros x Hx; apply Hc; right; exact Hx|].
    destruct (Hc c (or_introl eq_refl)) as [H|[s H]]; [exists (None :: ls)|exists (Some s :: ls)]; (constructor; [exact H|exact IH]). }
  destruct G as [labels G]. exists ((l, labels) :: es). constructor; [|exact IH]. exists n. split; [exact Hn|]. split; [exact E|exact G].
Qed.
Lemma contents_bad : forall d l, wf d -> in_order (nodes d) root l -> Forall (listed (nodes d)) (titles (nodes d) l) ->
  forall i n c, In i (titles (nodes d) l) -> nth_error (nodes d) i = Some n -> In c (children n) -> no_label (nodes d) c ->
  toc_open order rst (nodes d) = (mark_all 0 (titles (nodes d) l) (nodes d), Exc AttributeError).
Proof.
  intros d l W O F i n c Hi Hn Hc Hl. destruct (entries_exist _ _ F) as [es He]. rewrite (contents_any d l es W O He). f_equal. replace (existsb _ es) with true; [reflexivity|]. symmetry.
  clear F. revert Hi. induction He as [|j e hs es (m & Hm & Hd & HF) He IH]; intros Hi; [destruct Hi|]. cbn [existsb]. apply orb_true_iff. destruct Hi as [->|Hi]; [left|right; apply IH; exact Hi].
  replace m with n in * by congruence. clear - HF Hc Hl. induction HF as [|x o cs ls H F IH]; [destruct Hc|]. cbn [gap existsb]. apply orb_true_iff. destruct Hc as [->|Hc]; [left|right; apply IH; exact Hc].
  destruct o as [s|]; [|reflexivity]. destruct Hl as (y & Hy & K1 & K2). destruct H as (z & Hz & [[K _]|[K _]]); congruence.
Qed.

(* ---- the whole document ---- *)
Lemma write_app : forall u v ns, write_all order rst (u ++ v) ns =
  match write_all order rst u ns with
  | (ns1, Exc e) => (ns1, Exc e)
  | (ns1, Ok s) => match write_all order rst v ns1 with (ns2, Ok t) => (ns2, Ok (s ++ t)) | (ns2, Exc e) => (ns2, Exc e) end
  end.
Proof.
  induction u as [|x u IH]; intros v ns; cbn [app write_all]; [destruct (write_all order rst v ns) as [ns2 [t|e]]; reflexivity|].
  destruct (match x with VEnter i => _ | VLeave i => _ end) as [ns1 [s|e]]; [|reflexivity]. rewrite IH. destruct (write_all order rst u ns1) as [ns2 [t|e]]; [|reflexivity].
  destruct (write_all order rst v ns2) as [ns3 [w|e]]; [rewrite app_assoc; reflexivity|reflexivity].
Qed.
Lemma entered_split : forall vs a m b, entered vs = a ++ m :: b -> exists va vb, vs = va ++ VEnter m :: vb /\ entered va = a /\ entered vb = b.
Proof.
  induction vs as [|[i|i] vs IH]; intros a m b H.
  - destruct a; discriminate H.
  - change (entered (VEnter i :: vs)) with (i :: entered vs) in H. destruct a as [|x a]; cbn [app] in H.
    + injection H as E1 E2. subst i b. exists [], vs. auto.
    + injection H as -> H. destruct (IH a m b H) as (va & vb & -> & Ea & Eb). exists (VEnter x :: va), vb. split; [reflexivity|]. split; [|exact Eb]. change (x :: entered va = x :: a). congruence.
  - change (entered (VLeave i :: vs)) with (entered vs) in H. destruct (IH a m b H) as (va & vb & -> & Ea & Eb). exists (VLeave i :: va), vb. auto.
Qed.
(* the nodes do not change any more once a table has been written *)
Lemma write_fixed : forall ns h, toc_open order rst ns = (ns, Ok h) -> forall vs, fst (write_all order rst vs ns) = ns.
Proof.
  intros ns h T. induction vs as [|v vs IH]; [reflexivity|]. cbn [write_all].
  assert (G : forall r, fst (match r with Exc e => (ns, Exc e) | Ok s => match write_all order rst vs ns with (ns', Ok s') => (ns', Ok (s ++ s')) | (ns', Exc e) => (ns', Exc e) end end) = ns).
  { intros [s|e]; [|reflexivity]. destruct (write_all order rst vs ns) as [ns' [t|e]]; exact IH. }
  destruct v as [i|i]; [|apply G]. destruct (nth_error ns i) as [n|]; [|reflexivity]. destruct (cls n); try apply G. rewrite T. apply (G (Ok h)).
Qed.
Variables (d : doc) (l : list nat) (es : list (nat * list str)).
Hypothesis W : wf d.
Hypothesis Ho : in_order (nodes d) root l.
Hypothesis He : Forall2 (entry (nodes d)) (titles (nodes d) l) es.
Let hs := titles (nodes d) l.
Let ns1 := mark_all 0 hs (nodes d).
Lemma hs_nodup : NoDup hs.
Proof. apply NoDup_filter. apply (order_nodup d W _ _ Ho). Qed.
Lemma first_time : toc_open order rst (nodes d) = (ns1, Ok (contents_html es)).
Proof. apply contents_ok; assumption. Qed.
Lemma ns1_alike : alike (nodes d) ns1.
Proof. apply mark_all_alike. Qed.
Lemma ns1_wf : wf (mkdoc ns1 (current d)).
Proof. apply mark_all_wf. exact W. Qed.
Lemma next_time : toc_open order rst ns1 = (ns1, Ok (contents_html es)).
Proof.
  pose proof (contents_ok (mkdoc ns1 (current d)) l es ns1_wf (alike_order _ _ _ _ ns1_alike Ho) (alike_entries _ _ _ _ ns1_alike He)) as H. cbn [nodes] in H. rewrite H.
  rewrite (alike_titles _ _ _ ns1_alike). fold hs. f_equal. apply mark_all_twice. apply hs_nodup.
Qed.
Lemma visits : exists vs, accept (S (fuel d)) (nodes d) root = Ok vs /\ entered vs = l.
Proof. destruct (visit_ok d W) as (vs & Hv & O & _). exists vs. split; [exact Hv|]. apply (order_det _ _ _ O _ Ho). Qed.
Lemma mapM_same : forall (A B : Type) (f g : A -> res B) l, (forall x, f x = g x) -> mapM f l = mapM g l.
Proof. intros A B f g l0 H. induction l0 as [|x l0 IH]; [reflexivity|]. cbn [mapM]. rewrite H, IH. reflexivity. Qed.
Lemma accept_alike : forall f a b i, alike a b -> accept f b i = accept f a i.
Proof.
  induction f as [|f IH]; intros a b i H; [reflexivity|]. cbn [accept]. destruct (nth_error a i) as [n|] eqn:E.
  - destruct (proj2 H i n E) as [x ->]. cbn [with_attrs children]. rewrite (mapM_same _ _ (accept f b) (accept f a)); [reflexivity|]. intros c. apply IH. exact H.
  - rewrite (alike_none a b i H E). reflexivity.
Qed.
(* what is written of a node with and without its mark *)
Lemma leave_same : forall i, match nth_error ns1 i with Some n => close order rst n | None => Exc OutOfFuel end = match nth_error (nodes d) i with Some n => close order rst n | None => Exc OutOfFuel end.
Proof.
  intros i. destruct (in_dec Nat.eq_dec i hs) as [I|I]; [|unfold ns1; rewrite mark_all_other by exact I; reflexivity].
  destruct (nth_error (nodes d) i) as [n|] eqn:E; [|rewrite (alike_none _ _ _ ns1_alike E); reflexivity]. destruct (proj2 ns1_alike i n E) as [x ->].
  unfold hs, titles in I. apply filter_In in I. destruct I as [_ I]. unfold titled in I. rewrite E in I. unfold close, generic_close. cbn [cls with_attrs]. destruct (cls n); try discriminate I; reflexivity.
Qed.
Lemma write_before : forall va, titles (nodes d) (entered va) = [] -> incl (entered va) l -> forall st s, write_all order rst va (nodes d) = (st, Ok s) ->
  (st = nodes d \/ st = ns1) /\ write_all order rst va ns1 = (ns1, Ok s).
Proof.
  induction va as [|v va IH]; intros T I st s H; cbn [write_all] in *; [injection H as <- <-; auto|]. destruct v as [i|i].
  - change (entered (VEnter i :: va)) with (i :: entered va) in *. unfold titles in T. cbn [filter] in T. destruct (titled (nodes d) i) eqn:Ti; [discriminate T|]. fold (titles (nodes d) (entered va)) in T.
    assert (Same : nth_error ns1 i = nth_error (nodes d) i). { apply mark_all_other. unfold hs, titles. intro F. apply filter_In in F. destruct F as [_ F]. congruence. }
    rewrite Same. destruct (nth_error (nodes d) i) as [n|] eqn:En; [|discriminate H].
    assert (I' : incl (entered va) l) by (intros x Hx; apply I; right; exact Hx).
    assert (Step : forall r, match r with Exc e => (nodes d, Exc e) | Ok s => match write_all order rst va (nodes d) with (ns', Ok s') => (ns', Ok (s ++ s')) | (ns', Exc e) => (ns', Exc e) end end = (st, Ok s) ->
      (st = nodes d \/ st = ns1) /\ match r with Exc e => (ns1, Exc e) | Ok s => match write_all order rst va ns1 with (ns', Ok s') => (ns', Ok (s ++ s')) | (ns', Exc e) => (ns', Exc e) end end = (ns1, Ok s)).
    { intros [u|e] Hr; [|discriminate Hr]. destruct (write_all order rst va (nodes d)) as [st' [t|e]] eqn:Ew; [|discriminate Hr]. injection Hr as <- <-.
      destruct (IH T I' st' t eq_refl) as [Q1 Q2]. rewrite Q2. auto. }
    destruct (cls n); try (apply Step; exact H). rewrite first_time in H. rewrite next_time. clear Step IH. destruct (write_all order rst va ns1) as [st' [t|e]] eqn:Ew; [|discriminate H].
    pose proof (write_fixed ns1 _ next_time va) as Fx. rewrite Ew in Fx. cbn [fst] in Fx. subst st'. injection H as <- <-. auto.
  - change (entered (VLeave i :: va)) with (entered va) in *. rewrite leave_same. destruct (match nth_error (nodes d) i with Some n => close order rst n | None => Exc OutOfFuel end) as [u|e]; [|discriminate H].
    destruct (write_all order rst va (nodes d)) as [st' [t|e]] eqn:Ew; [|discriminate H]. injection H as <- <-. destruct (IH T I st' t eq_refl) as [Q1 Q2]. rewrite Q2. auto.
Qed.
Lemma write_from : forall v vs ns s, write_all order rst (v :: vs) ns = (ns1, Ok s) -> (ns = nodes d \/ ns = ns1) -> (exists m, v = VEnter m /\ is_contents (nodes d) m) ->
  exists t, s = contents_html es ++ t /\ write_all order rst vs ns1 = (ns1, Ok t).
Proof.
  intros v vs ns s H Hns (m & -> & n & Hn & K). cbn [write_all] in H.
  assert (Hm : nth_error ns m = Some n).
  { destruct Hns as [->| ->]; [exact Hn|]. unfold ns1. rewrite mark_all_other; [exact Hn|]. unfold hs, titles. intro F. apply filter_In in F. destruct F as [_ F]. unfold titled in F. rewrite Hn, K in F. discriminate F. }
  rewrite Hm, K in H. assert (T : toc_open order rst ns = (ns1, Ok (contents_html es))) by (destruct Hns as [->| ->]; [apply first_time|apply next_time]). rewrite T in H.
  destruct (write_all order rst vs ns1) as [x [t|e]]; [|discriminate H]. injection H as -> <-. exists t. auto.
Qed.
End Order.

Lemma contents_listed : forall order rst ops d l es, Permutation order design_names -> d = edit new_doc ops -> in_order (nodes d) root l ->
  Forall2 (entry (nodes d)) (titles (nodes d) l) es ->
  exists ns', toc_open order rst (nodes d) = (ns', Ok (contents_html es)) /\ only_marked (nodes d) (titles (nodes d) l) ns'.
Proof.
  intros order rst ops d l es HP -> O F. pose proof (edit_wf ops new_doc wf_new) as W. exists (mark_all 0 (titles (nodes (edit new_doc ops)) l) (nodes (edit new_doc ops))).
  split; [apply contents_ok; assumption|]. apply mark_all_only. apply NoDup_filter. apply (order_nodup _ W _ _ O).
Qed.
Lemma contents_fails : forall order rst ops d l i n c, Permutation order design_names -> d = edit new_doc ops -> in_order (nodes d) root l ->
  Forall (listed (nodes d)) (titles (nodes d) l) -> In i (titles (nodes d) l) -> nth_error (nodes d) i = Some n -> In c (children n) -> no_label (nodes d) c ->
  exists ns', toc_open order rst (nodes d) = (ns', Exc AttributeError) /\ only_marked (nodes d) (titles (nodes d) l) ns'.
Proof.
  intros order rst ops d l i n c HP -> O F Hi Hn Hc Hl. pose proof (edit_wf ops new_doc wf_new) as W. exists (mark_all 0 (titles (nodes (edit new_doc ops)) l) (nodes (edit new_doc ops))).
  split; [eapply contents_bad; eassumption|]. apply mark_all_only. apply NoDup_filter. apply (order_nodup _ W _ _ O).
Qed.
Lemma set_strings : forall m a, exists a', set_key (strings a) "id" (VStr m) = strings a' /\ In ("id", m) a' /\ forall k s, In (k, s) a' -> In (k, s) a \/ (k = "id" /\ s = m).
Proof.
  intros m. induction a as [|[k s] a (a' & E & I & H)].
  - exists [("id", m)]. split; [reflexivity|]. split; [left; reflexivity|]. intros k s [E|[]]. injection E as <- <-. auto.
  - change (strings ((k, s) :: a)) with ((k, VStr s) :: strings a). cbn [set_key]. destruct (String.eqb k "id") eqn:Ek.
    + exists (("id", m) :: a). split; [reflexivity|]. split; [left; reflexivity|]. intros x y [Q|Q]; [injection Q as <- <-; auto|left; right; exact Q].
    + exists ((k, s) :: a'). rewrite E. split; [reflexivity|]. split; [right; exact I|]. intros x y [Q|Q]; [left; left; exact Q|]. destruct (H x y Q) as [J|J]; [left; right; exact J|right; exact J].
Qed.
Lemma mark_attribute : forall order n k o l a, depth (cls n) = Some l -> attrs n = strings a -> (forall x s, In (x, s) a -> good_key x /\ ~ In quote s) -> open order (marked n k) = Ok o ->
  exists al, attributes o = Some al /\ In (L "id", mark k) al.
Proof.
  intros order n k o l a Hd Ha Hg Ho. destruct (set_strings (mark k) a) as (a' & E & I & Q).
  assert (Hh : exists e, html_element (cls (marked n k)) = Some e /\ writes_attributes (cls (marked n k))).
  { cbn [marked with_attrs cls]. destruct (cls n); try discriminate Hd; eexists; (split; [reflexivity|]); intro F; cbn in F; repeat (destruct F as [F|F]; [discriminate F|]); destruct F. }
  destruct Hh as (e & Hh & Hw). destruct (attributes_partial order (marked n k) e a' Hw Hh) as (o' & Ho' & _ & Hat).
  - cbn [marked with_attrs attrs]. rewrite Ha. exact E.
  - intros x s Hx. destruct (Q x s Hx) as [J|[-> _]]; [apply (Hg x s J)|]. split; [discriminate|]. intros c Hc. cbn in Hc. destruct Hc as [<-|[<-|[]]]; reflexivity.
  - replace o' with o in * by congruence. exists (map (fun kv => (L (fst kv), snd kv)) a'). split.
    + apply Hat. intros x s Hx. destruct (Q x s Hx) as [J|[_ ->]]; [apply (Hg x s J)|]. intro F. apply mark_chars in F. discriminate F.
    + apply in_map_iff. exists ("id", mark k). split; [reflexivity|exact I].
Qed.
Lemma links_lead : forall order rst ops d a m b es d' html, Permutation order design_names -> d = edit new_doc ops -> in_order (nodes d) root (a ++ m :: b) ->
  is_contents (nodes d) m -> titles (nodes d) a = [] -> Forall2 (entry (nodes d)) (titles (nodes d) b) es -> render_contents order rst d = (d', Ok html) ->
  exists x y, html = x ++ contents_html es ++ y
    /\ forall k i n, nth_error (titles (nodes d) b) k = Some i -> nth_error (nodes d) i = Some n -> exists u o v, y = u ++ o ++ v /\ open order (marked n k) = Ok o
      /\ forall s, attrs n = strings s -> (forall x t, In (x, t) s -> good_key x /\ ~ In quote t) -> exists al, attributes o = Some al /\ In (L "id", mark k) al.
Proof.
  intros order rst ops d a m b es d' html HP Ed O Hm Ta F H. assert (W : wf d) by (subst d; apply edit_wf; apply wf_new).
  assert (Tl : titles (nodes d) (a ++ m :: b) = titles (nodes d) b).
  { unfold titles in *. rewrite filter_app, Ta. cbn [app filter]. destruct Hm as (n & Hn & K). unfold titled at 1. rewrite Hn, K. reflexivity. }
  assert (He : Forall2 (entry (nodes d)) (titles (nodes d) (a ++ m :: b)) es) by (rewrite Tl; exact F).
  unfold render_contents in H. destruct (visits d (a ++ m :: b) W O) as (vs & Hv & Ev). rewrite Hv in H.
  destruct (write_all order rst vs (nodes d)) as [st r] eqn:Ew. injection H as <- ->.
  destruct (entered_split _ _ _ _ Ev) as (va & vb & -> & Ea & Eb). rewrite write_app in Ew.
  destruct (write_all order rst va (nodes d)) as [st1 [x|e]] eqn:Ex; [|discriminate Ew].
  destruct (write_before order rst HP d _ es W O He va) with (st := st1) (s := x) as [Hst _]; [rewrite Ea; exact Ta|rewrite Ea; intros z Hz; apply in_or_app; left; exact Hz|exact Ex|].
  destruct (write_all order rst (VEnter m :: vb) st1) as [st2 [y|e]] eqn:Ey; [|discriminate Ew]. injection Ew as <- <-.
  pose proof (next_time order rst HP d _ es W O He) as Nt. set (ns1 := mark_all 0 (titles (nodes d) (a ++ m :: b)) (nodes d)) in *.
  assert (E2 : st2 = ns1).
  { cbn [write_all] in Ey. destruct Hm as (n & Hn & K). assert (Hn1 : nth_error st1 m = Some n).
    { destruct Hst as [->| ->]; [exact Hn|]. unfold ns1. rewrite mark_all_other; [exact Hn|]. unfold titles. intro Q. apply filter_In in Q. destruct Q as [_ Q]. unfold titled in Q. rewrite Hn, K in Q. discriminate Q. }
    rewrite Hn1, K in Ey. assert (T : toc_open order rst st1 = (ns1, Ok (contents_html es))).
    { destruct Hst as [->| ->]; [apply (first_time order rst HP d _ es W O He)|exact Nt]. }
    rewrite T in Ey. pose proof (write_fixed order rst ns1 _ Nt vb) as Fx. destruct (write_all order rst vb ns1) as [q [t|e]]; cbn [fst] in Fx; [|discriminate Ey]. injection Ey as -> _. exact Fx. }
  subst st2. destruct (write_from order rst HP d _ es W O He _ _ _ _ Ey Hst) as (t & -> & Et); [exists m; auto|]. fold ns1 in Et.
  exists x, t. split; [reflexivity|]. intros k i n Hk Hn. pose proof (nth_error_In _ _ Hk) as Hi. unfold titles in Hi. apply filter_In in Hi. destruct Hi as [Hi Ti].
  rewrite <- Eb in Hi. apply in_split in Hi. destruct Hi as (e1 & e2 & Ee). destruct (entered_split _ _ _ _ Ee) as (v1 & v2 & Evb & _ & _). rewrite Evb in Et. rewrite write_app in Et.
  pose proof (write_fixed order rst ns1 _ Nt v1) as F1. destruct (write_all order rst v1 ns1) as [q [u|e]]; cbn [fst] in F1; [subst q|discriminate Et].
  destruct (write_all order rst (VEnter i :: v2) ns1) as [q [w|e]] eqn:Er; [|discriminate Et]. injection Et as -> <-. cbn [write_all] in Er.
  assert (N : NoDup (titles (nodes d) (a ++ m :: b))) by (apply NoDup_filter; apply (order_nodup d W _ _ O)).
  assert (Hi1 : nth_error ns1 i = Some (marked n k)). { apply (mark_all_nth _ 0 (nodes d) N k i n); [rewrite Tl; exact Hk|exact Hn]. }
  rewrite Hi1 in Er. unfold titled in Ti. rewrite Hn in Ti.
  assert (Er' : exists o v, open order (marked n k) = Ok o /\ w = o ++ v).
  { change (cls (marked n k)) with (cls n) in Er. destruct (cls n); try discriminate Ti; (destruct (open order (marked n k)) as [o|e]; [|discriminate Er]);
      (destruct (write_all order rst v2 ns1) as [q' [z|e]]; [|discriminate Er]); injection Er as _ <-; exists o, z; auto. }
  destruct Er' as (o & v & Eo & ->). exists u, o, v. split; [reflexivity|]. split; [exact Eo|]. intros s Es Hg.
  assert (Hd : exists lv, depth (cls n) = Some lv).
  { clear - F Hk Hn. revert k Hk. induction F as [|j e js es (n' & Hn' & Hd & _) F IH]; intros [|k] Hk; cbn in Hk; try discriminate; [injection Hk as ->; replace n' with n in * by congruence; eauto|apply (IH k Hk)]. }
  destruct Hd as [lv Hd]. apply (mark_attribute order n k o lv s Hd Es Hg Eo).
Qed.
Lemma again : forall order rst ops d a m b es d' html, Permutation order design_names -> d = edit new_doc ops -> in_order (nodes d) root (a ++ m :: b) ->
  is_contents (nodes d) m -> titles (nodes d) a = [] -> Forall2 (entry (nodes d)) (titles (nodes d) b) es -> render_contents order rst d = (d', Ok html) ->
  only_marked (nodes d) (titles (nodes d) b) (nodes d') /\ current d' = current d /\ render_contents order rst d' = (d', Ok html).
Proof.
  intros order rst ops d a m b es d' html HP Ed O Hm Ta F H. assert (W : wf d) by (subst d; apply edit_wf; apply wf_new).
  assert (Tl : titles (nodes d) (a ++ m :: b) = titles (nodes d) b).
  { unfold titles in *. rewrite filter_app, Ta. cbn [app filter]. destruct Hm as (n & Hn & K). unfold titled at 1. rewrite Hn, K. reflexivity. }
  assert (He : Forall2 (entry (nodes d)) (titles (nodes d) (a ++ m :: b)) es) by (rewrite Tl; exact F).
  unfold render_contents in H. destruct (visits d (a ++ m :: b) W O) as (vs & Hv & Ev). rewrite Hv in H.
  destruct (write_all order rst vs (nodes d)) as [st r] eqn:Ew. injection H as <- ->.
  destruct (entered_split _ _ _ _ Ev) as (va & vb & -> & Ea & Eb). rewrite write_app in Ew.
  destruct (write_all order rst va (nodes d)) as [st1 [x|e]] eqn:Ex; [|discriminate Ew].
  destruct (write_before order rst HP d _ es W O He va) with (st := st1) (s := x) as [Hst Hva]; [rewrite Ea; exact Ta|rewrite Ea; intros z Hz; apply in_or_app; left; exact Hz|exact Ex|].
  destruct (write_all order rst (VEnter m :: vb) st1) as [st2 [y|e]] eqn:Ey; [|discriminate Ew]. injection Ew as <- <-.
  pose proof (next_time order rst HP d _ es W O He) as Nt. set (ns1 := mark_all 0 (titles (nodes d) (a ++ m :: b)) (nodes d)) in *.
  assert (Hn1 : forall z, z = nodes d \/ z = ns1 -> write_all order rst (VEnter m :: vb) z = write_all order rst (VEnter m :: vb) ns1).
  { intros z Hz. cbn [write_all]. destruct Hm as (n & Hn & K). assert (G : forall w, w = nodes d \/ w = ns1 -> nth_error w m = Some n /\ toc_open order rst w = (ns1, Ok (contents_html es))).
    { intros w [->| ->]; [split; [exact Hn|apply (first_time order rst HP d _ es W O He)]|split; [|exact Nt]]. unfold ns1. rewrite mark_all_other; [exact Hn|].
      unfold titles. intro Q. apply filter_In in Q. destruct Q as [_ Q]. unfold titled in Q. rewrite Hn, K in Q. discriminate Q. }
    destruct (G z Hz) as [G1 G2]. destruct (G ns1 (or_intror eq_refl)) as [G3 G4]. rewrite G1, G3, K, G2, G4. reflexivity. }
  rewrite (Hn1 st1 Hst) in Ey. pose proof (write_fixed order rst ns1 _ Nt (VEnter m :: vb)) as Fx. rewrite Ey in Fx. cbn [fst] in Fx. subst st2. cbn [nodes current]. split; [|split; [reflexivity|]].
  - unfold ns1. rewrite Tl. apply mark_all_only. rewrite <- Tl. apply NoDup_filter. apply (order_nodup d W _ _ O).
  - unfold render_contents, fuel. cbn [nodes current]. pose proof (mark_all_alike (titles (nodes d) (a ++ m :: b)) 0 (nodes d)) as Al. fold ns1 in Al.
    rewrite (accept_alike _ (nodes d) ns1 root Al), (proj1 Al). unfold fuel in Hv. rewrite Hv, write_app, Hva, Ey. reflexivity.
Qed.
Lemma write_plain : forall order rst ns vs, (forall i, In i (entered vs) -> ~ is_contents ns i) -> write_all order rst vs ns =
  (ns, match mapM (write1 order rst ns) vs with Exc e => Exc e | Ok ss => Ok (List.concat ss) end).
Proof.
  intros order rst ns. induction vs as [|v vs IH]; intros H; [reflexivity|]. cbn [write_all mapM].
  assert (E : (match v with
        | VEnter i => match nth_error ns i with Some n => match cls n with MacroNode => toc_open order rst ns | _ => (ns, open order n) end | None => (ns, Exc OutOfFuel) end
        | VLeave i => (ns, match nth_error ns i with Some n => close order rst n | None => Exc OutOfFuel end) end) = (ns, write1 order rst ns v)).
  { destruct v as [i|i]; cbn [write1]; [|reflexivity]. destruct (nth_error ns i) as [n|] eqn:En; [|reflexivity]. pose proof (H i (or_introl eq_refl)) as N.
    destruct (cls n) eqn:K; try reflexivity. exfalso. apply N. exists n. auto. }
  rewrite E. destruct (write1 order rst ns v) as [s|e]; [|reflexivity]. cbn [bind]. rewrite IH.
  - destruct (mapM (write1 order rst ns) vs) as [ss|e]; reflexivity.
  - intros i Hi. apply H. destruct v; [right; exact Hi|exact Hi].
Qed.
Lemma no_contents : forall order rst ops d l, d = edit new_doc ops -> in_order (nodes d) root l -> (forall i, In i l -> ~ is_contents (nodes d) i) ->
  render_contents order rst d = (d, render order rst d).
Proof.
  intros order rst ops d l Ed O H. assert (W : wf d) by (subst d; apply edit_wf; apply wf_new). destruct (visits d l W O) as (vs & Hv & Ev). unfold render_contents, render. rewrite Hv, write_plain; [destruct d; reflexivity|].
  rewrite Ev. exact H.
Qed.

(* ---- what is not so ---- *)
Definition bold_heading : list op := [Enter H1 []; AddText (L "The "); Enter Bold []; AddText (L "bold"); Leave [Bold]; Leave [H1]].
Lemma contents_refuted : exists s, render design_names (fun s => Ok s) (edit new_doc bold_heading) = Ok s
  /\ snd (render_contents design_names (fun s => Ok s) (edit new_doc (table_of_contents :: bold_heading))) = Exc AttributeError.
Proof. eexists. split; vm_compute; reflexivity. Qed.
Definition late_contents : list op := [Enter H1 []; AddText (L "Opening"); Leave [H1]; table_of_contents].
Lemma links_refuted : exists d s, render_contents design_names (fun s => Ok s) (edit new_doc late_contents) = (d, Ok s)
  /\ found (L "href=" ++ [quote] ++ L "#fragment0" ++ [quote]) s = true /\ found (L "id=") s = false.
Proof. eexists. eexists. split; [vm_compute; reflexivity|]. split; vm_compute; reflexivity. Qed.
Lemma again_refuted : exists d s s', render_contents design_names (fun s => Ok s) (edit new_doc late_contents) = (d, Ok s)
  /\ snd (render_contents design_names (fun s => Ok s) d) = Ok s' /\ s' <> s.
Proof. eexists. eexists. eexists. split; [vm_compute; reflexivity|]. split; [vm_compute; reflexivity|]. vm_compute. discriminate. Qed.
