(* Wiki pages are documents made with the editor; pages that begin with a table of contents *)
From Verif Require Import Py PyFacts Re Rx RxFacts HtmlModel HtmlSpec HtmlProofs TreeModel TreeSpec TreeProofs TreeVisit TreeHtml TreeText TocModel TocSpec TocProofs WikiModel WikiSpec WikiInv WikiMatch WikiWalk WikiText WikiFrame WikiShift WikiToc WikiProofs WikiPara.
From Coq Require Import Permutation.
Open Scope string_scope.
Open Scope list_scope.
Open Scope nat_scope.

Definition edited (d e : doc) : Prop := d = e /\ exists ops, d = edit new_doc ops.
Lemma edited_op : forall o d, (exists ops, d = edit new_doc ops) -> exists ops, fst (exec d o) = edit new_doc ops.
Proof. intros o d [ops ->]. exists (ops ++ [o]). unfold edit. rewrite fold_left_app. reflexivity. Qed.
Lemma e_op : forall o, rel edited eq (run_op o) (run_op o).
Proof.
  intros o d e [<- H]. unfold run_op. split; [split; [reflexivity|apply edited_op; exact H]|]. destruct (snd (exec d o)); cbn [lift]; reflexivity.
Qed.
Lemma e_enter : forall k a, rel edited eq (m_enter k a) (m_enter k a).
Proof.
  intros k a d e [<- H]. unfold m_enter. pose proof (edited_op (Enter k a) d H) as H'. cbn [exec] in H'. destruct (enter d k a) as [d' r]. cbn [fst snd] in *.
  split; [split; [reflexivity|exact H']|]. destruct r; reflexivity.
Qed.
Lemma e_pure : forall (X : Type) (f : doc -> res X), rel edited eq (fun d => (d, f d)) (fun d => (d, f d)).
Proof. intros X f d e [<- H]. cbn [fst snd]. split; [split; auto|]. destruct (f d); reflexivity. Qed.
Lemma wiki_edited : forall design_order wikipath now urlencode analysis wiki, exists ops, fst (parse design_order wikipath now urlencode analysis wiki new_doc) = edit new_doc ops.
Proof.
  intros design_order wikipath now urlencode analysis wiki. unfold parse.
  assert (Ha : forall ks, rel edited (opt eq) (m_ancestor ks) (m_ancestor ks)).
  { intros ks d0 e0 [<- I0]. unfold m_ancestor. cbn [fst snd]. split; [split; auto|]. destruct (ancestor d0 ks); cbn [lift]; [apply opt_refl|reflexivity]. }
  apply (r_lines edited eq eq (fun k a _ _ _ => e_enter k a) (r_div edited eq eq (fun k a _ _ => e_enter k a) Ha)) with (d := new_doc) (e := new_doc); try (split; [reflexivity|exists []; reflexivity]); try exact Ha.
  - intros ks. apply e_op.
  - intros s. apply e_op.
  - intros ks. apply (e_pure nat (fun d => count_nesting d ks)).
  - intros i j s <-. apply e_op.
  - intros i j <-. apply e_op.
  - apply e_op.
  - intros d0 e0 [<- I0]. unfold m_current. cbn [fst snd]. split; [split; auto|]. destruct (current d0); [|reflexivity]. destruct (nth_error (nodes d0) n); [split; reflexivity|reflexivity].
  - intros i j s <-. apply e_op.
  - intros i j s <-. apply e_op.
  - apply e_op.
  - intros d0 e0 [<- _]. apply opt_refl.
  - intros d0 e0 i j [<- _] <-. destruct (nth_error (nodes d0) i); [split; reflexivity|exact Logic.I].
Qed.

Definition first_top : node := mknode BgRoot [] [] None None [1; 2].
Definition first_nodes : list node := [first_top; mknode Div [] [] None (Some 0) []; mknode MacroNode [("editor", VOther)] [] None (Some 1) []].
Lemma first_line : forall design_order wikipath now urlencode analysis, parse_line design_order wikipath now urlencode analysis (L "[[TableOfContent]]") new_doc = (mkdoc first_nodes (Some 0), Ok tt).
Proof. intros. vm_compute. reflexivity. Qed.
Lemma no_gap : forall ns hs es, Forall2 (entry_of ns) hs es -> existsb (fun e => gap (snd e)) es = false -> Forall2 (entry ns) hs (TocProofs.kept es).
Proof.
  intros ns hs es G. induction G as [|i e hs es (n & Hn & D & H) _ IH]; intro X; [constructor|]. cbn [existsb] in X. apply orb_false_iff in X. destruct X as [X1 X2].
  cbn [TocProofs.kept map]. constructor; [|apply IH; exact X2]. exists n. split; [exact Hn|]. split; [exact D|]. cbn [snd]. clear - H X1.
  induction H as [|c o cs os H _ IH]; [constructor|]. unfold gap in X1. cbn [existsb] in X1. destruct o as [s|]; [|discriminate]. cbn [keep flat_map app]. constructor; [exact H|apply IH; exact X1].
Qed.
Lemma contents_page : forall design_order wikipath now urlencode analysis rst,
  Permutation design_order design_names -> plain now -> (forall p ts t, analysis p = Ok ts -> In t ts -> table_ok t) ->
  forall rest out, (forall line, In line rest -> one_line line) ->
  html design_order wikipath now urlencode analysis rst (lines_text (L "[[TableOfContent]]" :: rest)) = Ok out ->
  exists d l es x y, parse design_order wikipath now urlencode analysis (lines_text (L "[[TableOfContent]]" :: rest)) new_doc = (d, Ok tt)
    /\ in_order (nodes d) root l /\ Forall2 (entry (nodes d)) (titles (nodes d) l) es /\ out = x ++ contents_html es ++ y
    /\ forall k i, nth_error (titles (nodes d) l) k = Some i -> exists n u o v al, nth_error (nodes d) i = Some n /\ y = u ++ o ++ v
       /\ open design_order (marked n k) = Ok o /\ attributes o = Some al /\ In (L "id", mark k) al.
Proof.
  intros design_order wikipath now urlencode analysis rst H1 H2 H3 rest out O H. unfold html in H. set (wiki := lines_text (L "[[TableOfContent]]" :: rest)) in *.
  assert (P := parsed_any design_order wikipath now urlencode analysis H1 H2 H3 true AnyItems wiki (fun _ => eq_refl) (fun h => ltac:(discriminate h)) (fun h => ltac:(discriminate h))).
  assert (Ed := wiki_edited design_order wikipath now urlencode analysis wiki).
  assert (Bh : exists d0, behind first_nodes first_top d0 (fst (parse design_order wikipath now urlencode analysis wiki new_doc))).
  { unfold parse, wiki. rewrite splitlines_text; [|intros l [<-|I]; [intros c Ic; cbn in Ic; repeat (destruct Ic as [<-|Ic]; [split; discriminate|]); destruct Ic|apply O; exact I]].
    cbn [m_each]. unfold andthen. rewrite first_line. eexists.
    assert (Hin : forall i, In i (children first_top) -> root < i < List.length first_nodes) by (intros i [<-|[<-|[]]]; cbn; unfold root; lia).
    assert (Hlast : forall i n, In i (children first_top) -> nth_error first_nodes i = Some n -> cls n <> Text) by (intros i n [<-|[<-|[]]] Hn; injection Hn as <-; discriminate).
    exact (proj1 (behind_lines first_nodes first_top eq_refl Hin Hlast design_order wikipath now urlencode analysis rest new_doc (mkdoc first_nodes (Some 0)) (behind_new first_nodes first_top eq_refl Hin Hlast eq_refl eq_refl eq_refl eq_refl eq_refl))). }
  destruct (parse design_order wikipath now urlencode analysis wiki new_doc) as [d [[]|e]] eqn:Ep; [|discriminate]. cbn [fst] in *.
  destruct Bh as [d0 B]. destruct Ed as [ops Ed]. pose proof (i_wf _ _ _ _ _ _ P) as W.
  destruct (html_pieces design_order rst _ _ _ _ _ d H1 Logic.I P) as (l & es & vs & Ol & He & A & V & _ & M). rewrite H in M. destruct M as (ss & -> & M).
  destruct (wf_root d0 (b_wf _ _ _ _ B)) as (r0 & Hr0 & _). pose proof (b_new _ _ _ _ B root r0 Hr0) as Hr. change (sh first_nodes root) with root in Hr.
  assert (N1 : nth_error (nodes d) 1 = Some (mknode Div [] [] None (Some 0) [])) by (rewrite (b_old _ _ _ _ B 1); [reflexivity|cbn; unfold root; lia]).
  assert (N2 : nth_error (nodes d) 2 = Some (mknode MacroNode [("editor", VOther)] [] None (Some 1) [])) by (rewrite (b_old _ _ _ _ B 2); [reflexivity|cbn; unfold root; lia]).
  assert (Lb : exists b, l = [0; 1] ++ 2 :: b).
  { unfold order_of in Ol. inversion Ol as [i n ls Hn F]; subst. rewrite Hr in Hn. injection Hn as <-. cbn [place children] in F. change (Nat.eqb root root) with true in F. cbn [first_top children app] in F.
    inversion F as [|? l1 ? ls1 F1 F2]; subst. inversion F2 as [|? l2 ? ls2 F3 F4]; subst.
    inversion F1 as [? n1 ls3 Hn1 G1]; subst. rewrite N1 in Hn1. injection Hn1 as <-. inversion G1; subst.
    inversion F3 as [? n2 ls4 Hn2 G2]; subst. rewrite N2 in Hn2. injection Hn2 as <-. inversion G2; subst.
    cbn [List.concat app]. eexists. reflexivity. }
  destruct Lb as [b Eb].
  assert (Ic : is_contents (nodes d) 2) by (eexists; split; [exact N2|reflexivity]).
  assert (T01 : titles (nodes d) [0; 1] = []).
  { unfold titles. cbn [filter]. unfold titled. rewrite N1. change (nth_error (nodes d) 0) with (nth_error (nodes d) root). rewrite Hr. cbn [place cls].
    destruct (wf_root d0 (b_wf _ _ _ _ B)) as (r1 & Hr1 & K & _). rewrite Hr0 in Hr1. injection Hr1 as <-. rewrite K. reflexivity. }
  assert (Tl : titles (nodes d) l = titles (nodes d) b).
  { rewrite Eb. change ([0; 1] ++ 2 :: b) with ([0; 1] ++ [2] ++ b). unfold titles in *. rewrite !filter_app, T01. cbn [filter app]. unfold titled at 1. rewrite N2. reflexivity. }
  assert (Gp : existsb (fun e => gap (snd e)) es = false).
  { assert (I2 : In (VEnter 2) vs).
    { assert (Iv : In 2 (entered vs)) by (destruct (visit_ok d W) as (vs' & A' & O' & _); rewrite A in A'; injection A' as <-; rewrite <- (order_det _ _ _ Ol _ O'), Eb; cbn; auto).
      apply entered_in. exact Iv. }
    assert (G : exists s, piece design_order rst d es (VEnter 2) (Ok s)).
    { clear - M I2. induction M as [|v s vs ss Hv _ IH]; [destruct I2|]. destruct I2 as [->|I2]; [exists s; exact Hv|apply IH; exact I2]. }
    destruct G as (s & n & Hn & [[_ E]|[K _]]); [|rewrite N2 in Hn; injection Hn as <-; elim K; reflexivity].
    unfold table_text in E. destruct (existsb _ es); [discriminate|reflexivity]. }
  pose proof (no_gap _ _ _ He Gp) as He2.
  assert (Rc : exists d', render_contents design_order rst d = (d', Ok (List.concat ss))).
  { rewrite make_html_contents in H. destruct (render_contents design_order rst d) as [d' r']. exists d'. cbn [snd] in H. rewrite H. reflexivity. }
  destruct Rc as [d' Rc]. assert (Ol2 : in_order (nodes d) root ([0; 1] ++ 2 :: b)) by (rewrite <- Eb; exact Ol).
  assert (He3 : Forall2 (entry (nodes d)) (titles (nodes d) b) (TocProofs.kept es)) by (rewrite <- Tl; exact He2).
  destruct (links_lead design_order rst ops d [0; 1] 2 b (TocProofs.kept es) d' _ H1 Ed Ol2 Ic T01 He3 Rc) as (x & y & Ey & Ks).
  exists d, l, (TocProofs.kept es), x, y. split; [reflexivity|]. split; [exact Ol|]. split; [exact He2|]. split; [exact Ey|].
  intros k i Hk. rewrite Tl in Hk. assert (Ti : titled (nodes d) i = true) by (apply nth_error_In in Hk; unfold titles in Hk; apply filter_In in Hk; apply Hk).
  destruct (titled_listed _ _ _ _ _ d P i Ti) as (n & Hn & D & _). destruct (Ks k i n Hk Hn) as (u & o & v & Eu & Eo & At).
  destruct (i_fine _ _ _ _ _ _ P i n Hn) as (_ & _ & Sn).
  assert (Mk : forall a w, In (a, w) (attrs n) -> exists j, (a, w) = ("id", VStr (mark j))) by (unfold style_ok in Sn; destruct (cls n); try (elim D; reflexivity); apply Sn).
  assert (Str : exists s, attrs n = strings s /\ forall a t, In (a, t) s -> good_key a /\ ~ In quote t).
  { clear - Mk. induction (attrs n) as [|[a w] q IH]; [exists []; split; [reflexivity|intros a t []]|]. destruct IH as (s & -> & Hs); [intros a' w' I; apply Mk; right; exact I|].
    destruct (Mk a w (or_introl eq_refl)) as [j E]. injection E as -> ->. exists (("id", mark j) :: s). split; [reflexivity|]. intros a t [E|I]; [injection E as <- <-|apply Hs; exact I].
    split; [apply good_key_of; [discriminate|reflexivity]|]. intro I. apply mark_chars in I. discriminate I. }
  destruct Str as (s & Es & Hs). destruct (At s Es Hs) as (al & A1 & A2). exists n, u, o, v, al. auto 10.
Qed.
