(* Proofs about wiki texts and their HTML *)
From Verif Require Import Py PyFacts Re Rx RxFacts HtmlModel HtmlSpec HtmlProofs TreeModel TreeSpec TreeProofs TreeVisit TreeHtml TreeText TocModel TocSpec TocProofs WikiModel WikiSpec WikiInv WikiMatch WikiWalk WikiText WikiToc.
From Coq Require Import Permutation.
Open Scope string_scope.
Open Scope list_scope.
Open Scope nat_scope.

(* ---- the whole text ---- *)
Lemma m_each_app : forall X (f : X -> M unit) a b d, m_each f (a ++ b) d = (m_each f a ;; m_each f b) d.
Proof.
  intros X f. induction a as [|x a IH]; intros b d; [reflexivity|]. cbn [app m_each]. unfold andthen in *. destruct (f x d) as [d' [[]|e]]; [|reflexivity].
  rewrite IH. reflexivity.
Qed.
Lemma t_app : forall X (f : X -> M unit) a b (E : exn -> Prop) P Q R, triple E P (m_each f a) (fun _ => Q) -> triple E Q (m_each f b) R -> triple E P (m_each f (a ++ b)) R.
Proof.
  intros X f a b E P Q R H1 H2 d Hd. rewrite m_each_app. exact (t_bind E unit unit P (m_each f a) (fun _ => Q) (fun _ => m_each f b) R H1 (fun _ => H2) d Hd).
Qed.
Lemma leave_nodes : forall d ks, nodes (fst (leave d ks)) = nodes d.
Proof. intros d ks. unfold leave. destruct (look d (fun n => is_any (cls n) ks)) as [[i|]|e]; reflexivity. Qed.
Lemma make_html_contents : forall order rst d, make_html order rst d = snd (render_contents order rst d).
Proof.
  intros order rst d. unfold make_html. pose proof (leave_nodes d [BgRoot]) as E. change (nodes (fst (leave d [BgRoot]))) with (nodes (done (fst (leave d [BgRoot])))) in E.
  unfold render_contents, fuel. rewrite E. destruct (accept _ (nodes d) root) as [vs|e]; [|reflexivity].
  destruct (write_all order rst vs (nodes d)). reflexivity.
Qed.
Section Parsed.
Variables (design_order : list string) (wikipath now : str) (urlencode : list (string * str) -> str) (analysis : str -> res (list table)).
Hypothesis Hdesign : Permutation design_order design_names.
Hypothesis Hnow : plain now.
Lemma order_names : incl design_order design_names.
Proof. intros x I. eapply Permutation_in; eassumption. Qed.
Notation parse := (parse design_order wikipath now urlencode analysis).
Lemma parsed : forall tc md nq (ks : string -> Prop) (E : exn -> Prop), (forall k, In k wiki_keys -> ks k) ->
  (quiets nq = true -> quiet wikipath) -> (forall p, quiets nq = true -> quiet (urlencode p)) ->
  (forall p ts t, analysis p = Ok ts -> In t ts -> table_ok t /\ (quiets nq = true -> table_quiet t) /\ (forall r c k v, In r (rows t) -> In c (snd r) -> In (k, v) (cattrs c) -> ks k)) ->
  (wholes nq = true -> references now) -> (forall p ts t r c, analysis p = Ok ts -> In t ts -> In r (rows t) -> In c (snd r) -> wholes nq = true -> references (ctext c)) ->
  forall wiki, (forall l, line_of wiki l -> line_fits tc md nq E analysis l) ->
  match snd (parse wiki new_doc) with Ok _ => inv tc md nq ks [] (fst (parse wiki new_doc)) | Exc e => E e end.
Proof.
  intros tc md nq ks E Hks Hw Hu Ha Hnw Haw wiki H. unfold WikiModel.parse.
  pose proof (texts tc md nq ks Hks E design_order wikipath now urlencode analysis order_names Hw Hnow Hnw Hu Ha Haw [] (splitlines wiki) false) as T.
  assert (T' := T (fun l I => H l (splitlines_line _ _ I)) new_doc (here_new tc md nq ks)). cbv beta in T'.
  destruct (snd (m_each (parse_line design_order wikipath now urlencode analysis) (splitlines wiki) new_doc)) as [u|e]; [|exact T']. eapply here_inv. exact T'.
Qed.
(* why parsing fails *)
Definition parse_fails (wiki : str) (e : exn) : Prop :=
  (e = TypeError /\ (part (L "[[Position]]") wiki \/ part (L "[[Analysis]]") wiki))
  \/ (part (L "[[Analysis(") wiki /\ exists p, analysis p = Exc e).
Lemma fits_any : forall wiki tc md, (part (L "[[TableOfContent") wiki -> tc = true) -> (md = Signed -> forall l, line_of wiki l -> ~ unsigned_item l) -> (md = Unsigned -> forall l, line_of wiki l -> ~ signed_item l) ->
  forall nq, (quiets nq = true -> ~ quoted_label wiki) -> (wholes nq = true -> ~ amp_url wiki) -> forall l, line_of wiki l -> line_fits tc md nq (parse_fails wiki) analysis l.
Proof.
  intros wiki tc md Ht H1 H2 nq Q Am l Hl. pose proof (line_of_part _ _ Hl) as P. unfold line_fits. split; [apply Hl|]. split; [intros N (sc & u & d & I1 & I2 & I3 & I4 & I5 & I6); apply (Q N); exists sc, u, d; repeat (split; [assumption|]); eapply part_trans; eassumption|].
  split; [intros E; apply (H1 E l Hl)|]. split; [intros E; apply (H2 E l Hl)|]. unfold parse_fails. split; [|split; [|split]].
  - intros [I|I]; left; (split; [reflexivity|]); [left|right]; eapply part_trans; eassumption.
  - intro I. apply Ht. eapply part_trans; eassumption.
  - intros I p e A. right. split; [eapply part_trans; eassumption|]. exists p. exact A.
  - intros N (sc & u & I1 & I2 & I3 & I4). apply (Am N). exists sc, u. repeat (split; [assumption|]). eapply part_trans; eassumption.
Qed.
End Parsed.
Notation careless := (only_quiets false).
Lemma no_care : forall P : Prop, false = true -> P.
Proof. discriminate. Qed.
Definition any_tables (analysis : str -> res (list table)) : Prop := forall p ts t, analysis p = Ok ts -> In t ts -> table_ok t.
Lemma any_table : forall analysis, any_tables analysis -> forall p ts t, analysis p = Ok ts -> In t ts ->
  table_ok t /\ (false = true -> table_quiet t) /\ (forall r c k v, In r (rows t) -> In c (snd r) -> In (k, v) (cattrs c) -> (fun _ : string => True) k).
Proof. intros analysis H p ts t A I. split; [exact (H p ts t A I)|]. split; [discriminate|]. intros. exact Logic.I. Qed.
Lemma parsed_any : forall design_order wikipath now urlencode analysis, Permutation design_order design_names -> plain now -> any_tables analysis ->
  forall tc md wiki, (part (L "[[TableOfContent") wiki -> tc = true) -> (md = Signed -> forall l, line_of wiki l -> ~ unsigned_item l) -> (md = Unsigned -> forall l, line_of wiki l -> ~ signed_item l) ->
  match parse design_order wikipath now urlencode analysis wiki new_doc with
  | (d, Ok _) => inv tc md careless (fun _ => True) [] d
  | (_, Exc e) => parse_fails analysis wiki e
  end.
Proof.
  intros design_order wikipath now urlencode analysis H1 H2 H3 tc md wiki St S1 S2.
  pose proof (parsed design_order wikipath now urlencode analysis H1 H2 tc md careless (fun _ => True) (parse_fails analysis wiki) (fun _ _ => Logic.I)
    (fun h => False_rect _ (Bool.diff_false_true h)) (fun _ h => False_rect _ (Bool.diff_false_true h)) (any_table analysis H3) (no_care _) (fun _ _ _ _ _ _ _ _ _ => no_care _) wiki
    (fits_any analysis wiki tc md St S1 S2 careless (fun h => False_rect _ (Bool.diff_false_true h)) (fun h => False_rect _ (Bool.diff_false_true h)))) as P.
  destruct (parse design_order wikipath now urlencode analysis wiki new_doc) as [d [[]|e]]; exact P.
Qed.

(* ---- what is written ---- *)
Lemma accept_visits : forall ns f i l, accept f ns i = Ok l -> forall v, In v l -> exists j n, (v = VEnter j \/ v = VLeave j) /\ nth_error ns j = Some n.
Proof.
  intros ns. induction f as [|f IH]; intros i l H v I; [discriminate|]. apply accept_inv in H. destruct H as (n & ls & f' & E & Hn & H & ->). injection E as <-.
  destruct I as [<-|I]; [exists i, n; auto|]. apply in_app_or in I. destruct I as [I|[<-|[]]]; [|exists i, n; auto].
  apply in_concat in I. destruct I as (x & Ix & Iv). revert x Ix Iv. induction H as [|c l0 cs ls Hc _ IH2]; intros x Ix Iv; [destruct Ix|].
  destruct Ix as [<-|Ix]; [exact (IH _ _ Hc v Iv)|exact (IH2 x Ix Iv)].
Qed.
Lemma accept_leaves : forall ns f i l, accept f ns i = Ok l -> forall j, In (VEnter j) l -> In (VLeave j) l.
Proof.
  intros ns. induction f as [|f IH]; intros i l H j I; [discriminate|]. apply accept_inv in H. destruct H as (n & ls & f' & E & Hn & H & ->). injection E as <-.
  destruct I as [I|I]; [injection I as ->; right; apply in_or_app; right; left; reflexivity|]. right. apply in_app_or in I. destruct I as [I|[I|[]]]; [|discriminate].
  apply in_or_app. left. apply in_concat in I. destruct I as (x & Ix & Iv). apply in_concat. exists x. split; [exact Ix|].
  revert x Ix Iv. induction H as [|c l0 cs ls Hc _ IH2]; intros x Ix Iv; [destruct Ix|]. destruct Ix as [<-|Ix]; [exact (IH _ _ Hc j Iv)|exact (IH2 x Ix Iv)].
Qed.
Lemma entered_in : forall l j, In j (entered l) -> In (VEnter j) l.
Proof. intros l j H. unfold entered in H. apply in_flat_map in H. destruct H as (v & I & J). destruct v as [i|i]; [destruct J as [<-|[]]; exact I|destruct J]. Qed.
Lemma found_part : forall p s, found p s = true <-> part p s.
Proof.
  assert (St : forall p s, starts p s = true <-> exists b, s = p ++ b).
  { induction p as [|x p IH]; intros s; cbn [starts]; [split; [intros _; exists s; reflexivity|reflexivity]|]. destruct s as [|y s]; [split; [discriminate|intros [b E]; discriminate]|].
    rewrite andb_true_iff, Ascii.eqb_eq, IH. split; [intros [-> [b ->]]; exists b; reflexivity|intros [b E]; injection E as -> ->; split; [reflexivity|exists b; reflexivity]]. }
  intros p. induction s as [|c s IH]; cbn [found]; rewrite orb_true_iff, St.
  - split; [intros [[b E]|F]; [exists [], b; exact E|discriminate]|]. intros (a & b & E). left. destruct a; [exists b; exact E|discriminate].
  - rewrite IH. split; [intros [[b E]|(a & b & E)]; [exists [], b; exact E|exists (c :: a), b; rewrite E; reflexivity]|].
    intros ([|x a] & b & E); [left; exists b; exact E|right]. injection E as _ E. exists a, b. exact E.
Qed.
Lemma html_pieces : forall order rst tc md nq (ks : string -> Prop) F d, Permutation order design_names -> ks "id" -> inv tc md nq ks F d ->
  exists l es vs, order_of d l /\ Forall2 (entry_of (nodes d)) (titles (nodes d) l) es /\ accept (S (fuel d)) (nodes d) root = Ok vs
  /\ (forall v, In v vs -> valid d v) /\ (forall j, j < List.length (nodes d) -> In (VLeave j) vs)
  /\ match make_html order rst d with
     | Ok s => exists ss, s = List.concat ss /\ Forall2 (fun v s => piece order rst d es v (Ok s)) vs ss
     | Exc e => exists v, In v vs /\ piece order rst d es v (Exc e)
     end.
Proof.
  intros order rst tc md nq ks F d HP Hid J. pose proof (i_wf _ _ _ _ _ _ J) as W. destruct (visit_ok d W) as (vs & A & O & N & B).
  destruct (entries _ _ _ _ _ d J (entered vs)) as [es He]. assert (V : forall v, In v vs -> valid d v) by (intros v I; exact (accept_visits _ _ _ _ A v I)).
  exists (entered vs), es, vs. split; [exact O|]. split; [exact He|]. split; [exact A|]. split; [exact V|]. split.
  - intros j Hj. eapply accept_leaves; [exact A|]. apply entered_in. apply B. apply (i_att _ _ _ _ _ _ J). exact Hj.
  - rewrite make_html_contents. unfold render_contents. rewrite A.
    pose proof (pieces order rst HP tc md nq ks F d J (entered vs) es O He vs (nodes d) (or_introl eq_refl) V) as P. destruct (write_all order rst vs (nodes d)) as [q r]. exact P.
Qed.

(* ---- C91: well-formed ---- *)
Lemma wiki_balanced : forall design_order wikipath now urlencode analysis rst,
  Permutation design_order design_names -> plain now -> (forall p ts t, analysis p = Ok ts -> In t ts -> table_ok t) -> (forall s o, rst s = Ok o -> balanced o = true) ->
  forall wiki out, html design_order wikipath now urlencode analysis rst wiki = Ok out -> balanced out = true.
Proof.
  intros design_order wikipath now urlencode analysis rst H1 H2 H3 H4 wiki out H. unfold html in H.
  assert (P := parsed_any design_order wikipath now urlencode analysis H1 H2 H3 true AnyItems wiki (fun _ => eq_refl) (fun h => ltac:(discriminate h)) (fun h => ltac:(discriminate h))).
  destruct (parse design_order wikipath now urlencode analysis wiki new_doc) as [d [[]|e]]; [|discriminate].
  destruct (html_pieces design_order rst _ _ _ _ _ d H1 Logic.I P) as (l & es & vs & O & He & A & _ & _ & M). rewrite H in M. destruct M as (ss & -> & M).
  destruct (pieces_tags design_order rst true AnyItems careless (fun _ => True) [] d Logic.I P l es He H4 _ _ _ _ A M) as (ts & T1 & T2). apply (inert_balanced _ ts T1 T2).
Qed.

(* ---- C92: parsing ---- *)
Lemma parse_partial : forall design_order wikipath now urlencode analysis,
  Permutation design_order design_names -> plain now -> (forall p ts t, analysis p = Ok ts -> In t ts -> table_ok t) ->
  forall wiki e, snd (parse design_order wikipath now urlencode analysis wiki new_doc) = Exc e ->
  (e = TypeError /\ (within (L "[[Position]]") wiki \/ within (L "[[Analysis]]") wiki))
  \/ (within (L "[[Analysis(") wiki /\ exists p, analysis p = Exc e).
Proof.
  intros design_order wikipath now urlencode analysis H1 H2 H3 wiki e H.
  assert (P := parsed_any design_order wikipath now urlencode analysis H1 H2 H3 true AnyItems wiki (fun _ => eq_refl) (fun h => ltac:(discriminate h)) (fun h => ltac:(discriminate h))).
  destruct (parse design_order wikipath now urlencode analysis wiki new_doc) as [d [[]|x]]; cbn [snd] in H; [discriminate|]. injection H as ->. exact P.
Qed.
Lemma parse_refuted : exists design_order wikipath now urlencode analysis wiki, Permutation design_order design_names
  /\ plain now /\ (forall p ts t, analysis p = Ok ts -> In t ts -> table_ok t) /\ (forall p, exists ts, analysis p = Ok ts)
  /\ snd (parse design_order wikipath now urlencode analysis wiki new_doc) = Exc TypeError.
Proof.
  exists design_names, [], [], (fun _ => []), (fun _ => Ok []), (L "See [[Position]] here"). split; [apply Permutation_refl|]. split; [intros c []|].
  split; [intros p ts t E I; injection E as <-; destruct I|]. split; [intro p; exists []; reflexivity|]. vm_compute. reflexivity.
Qed.

(* ---- C93: rendering ---- *)
Lemma attrs_ok : forall nq ks a, Forall (value_ok nq ks) a -> exists l, mapM attr_string a = Ok l.
Proof. intros nq ks a H. apply mapM_all. intros [k v] I. rewrite Forall_forall in H. destruct (H _ I) as (_ & _ & s & E & _). cbn [snd] in E. subst v. eexists. reflexivity. Qed.
Lemma generic_ok : forall nq ks n, Forall (value_ok nq ks) (attrs n) -> exists o, generic_open n = Ok o.
Proof. intros nq ks n H. unfold generic_open. destruct (html_element (cls n)); [|eauto]. destruct (attrs_ok _ _ _ H) as [l ->]. eauto. Qed.
Lemma design_ok : forall order a, (forall k, In k order -> exists v, get a k = Some v) -> exists k, design_name order a = Ok k /\ (In k order \/ k = "star").
Proof.
  induction order as [|k order IH]; intros a H; cbn [design_name]; [eauto|]. destruct (H k (or_introl eq_refl)) as [v ->].
  destruct (truthy v); [exists k; split; [reflexivity|left; left; reflexivity]|]. destruct (IH a) as (k' & E & I); [intros x Hx; apply H; right; exact Hx|].
  exists k'. split; [exact E|]. destruct I as [I|I]; [left; right; exact I|right; exact I].
Qed.
Lemma tag_ok : forall order n, incl order design_names -> (forall k, In k design_names -> exists v, get (attrs n) k = Some v) -> exists t, list_tag order n = Ok t.
Proof.
  intros order n Ho H. unfold list_tag. destruct (design_ok order (attrs n)) as (k & -> & I); [intros k I; apply H; apply Ho; exact I|].
  assert (Ik : In k design_names) by (destruct I as [I| ->]; [apply Ho; exact I|cbn; auto]).
  cbn in Ik. repeat (destruct Ik as [<-|Ik]; [eexists; reflexivity|]). destruct Ik.
Qed.
Lemma open_ok : forall tc md nq ks order n, md <> AnyItems -> incl order design_names -> fine tc md nq ks n -> exists o, open order n = Ok o.
Proof.
  intros tc md nq ks order n Hm Ho (_ & _ & S). unfold style_ok in S. unfold open. destruct (cls n) eqn:K; try (eexists; reflexivity); try (unfold generic_open; rewrite K; eexists; reflexivity); try (destruct S; fail); try (eapply generic_ok; first [exact S|exact (proj1 S)]).
  - destruct S as [[E|[E Nu]] Sg]; rewrite E; [eauto|]. destruct md; [congruence| |congruence]. destruct (Sg eq_refl) as [c ->]. eauto.
  - destruct S as [S _]. destruct (tag_ok order n Ho S) as [[t [c|]] ->]; eauto.
Qed.
Lemma close_ok : forall tc md nq ks order rst n, incl order design_names -> fine tc md nq ks n -> (exists o, close order rst n = Ok o) \/ exists s e, rst s = Exc e /\ close order rst n = Exc e.
Proof.
  intros tc md nq ks order rst n Ho (_ & _ & S). unfold style_ok in S. unfold close. destruct (cls n) eqn:K; try (left; eexists; reflexivity).
  - left. destruct S as [S _]. destruct (tag_ok order n Ho S) as [[t c] ->]. eauto.
  - assert (G : (exists o, rst (text n) = Ok o) \/ exists s e, rst s = Exc e /\ rst (text n) = Exc e) by (destruct (rst (text n)) as [o|e] eqn:R; [left; eauto|right; eauto]).
    assert (G2 : forall o : str, (exists o' : str, Ok o = Ok o') \/ exists s e, rst s = Exc e /\ Ok o = Exc e) by (intro o; left; eauto).
    destruct (processor n) as [p|]; [|apply G2]. repeat match goal with |- context [match ?x with _ => _ end] => is_var x; destruct x; try apply G2 end. exact G.
Qed.
Lemma render_partial : forall design_order wikipath now urlencode analysis rst,
  Permutation design_order design_names -> plain now -> (forall p ts t, analysis p = Ok ts -> In t ts -> table_ok t) ->
  forall wiki e, (forall line, line_of wiki line -> ~ signed_item line) \/ (forall line, line_of wiki line -> ~ unsigned_item line) ->
  html design_order wikipath now urlencode analysis rst wiki = Exc e ->
  snd (parse design_order wikipath now urlencode analysis wiki new_doc) = Exc e \/ (exists s, rst s = Exc e) \/ (e = AttributeError /\ within (L "[[TableOfContent") wiki).
Proof.
  intros design_order wikipath now urlencode analysis rst H1 H2 H3 wiki e S H.
  assert (exists md, md <> AnyItems /\ (md = Signed -> forall l, line_of wiki l -> ~ unsigned_item l) /\ (md = Unsigned -> forall l, line_of wiki l -> ~ signed_item l)) as (md & N & S1 & S2).
  { destruct S as [S|S]; [exists Unsigned|exists Signed]; (split; [discriminate|]); (split; intro Z; [try discriminate Z|try discriminate Z]); exact S. }
  assert (P := parsed_any design_order wikipath now urlencode analysis H1 H2 H3 (found (L "[[TableOfContent") wiki) md wiki (proj2 (found_part _ _)) S1 S2). unfold html in H.
  destruct (parse design_order wikipath now urlencode analysis wiki new_doc) as [d [[]|x]]; [|injection H as ->; left; reflexivity]. right.
  destruct (html_pieces design_order rst _ _ _ _ _ d H1 Logic.I P) as (l & es & vs & O & He & A & V & _ & M). rewrite H in M. destruct M as (v & Iv & Hv).
  destruct (V v Iv) as (j & n & [-> | ->] & Hn); cbn [piece] in Hv; destruct Hv as (n0 & Hn0 & Hv); rewrite Hn in Hn0; injection Hn0 as <-; pose proof (i_fine _ _ _ _ _ _ P j n Hn) as Fn.
  - destruct Hv as [[K E]|(K & n' & Mk & E)].
    + right. destruct Fn as (_ & _ & Sn). unfold style_ok in Sn. rewrite K in Sn. split; [|apply found_part; exact Sn]. unfold table_text in E. destruct (existsb _ es); [congruence|discriminate].
    + destruct (open_ok _ _ _ _ design_order n' N (order_names _ H1) (maybe_fine _ _ _ _ Logic.I n n' Fn Mk)) as [o Eo]. congruence.
  - left. destruct (close_ok _ _ _ _ design_order rst n (order_names _ H1) Fn) as [[o E]|(s & x & R & E)]; [congruence|]. exists s. congruence.
Qed.
Lemma render_refuted : exists design_order wikipath now urlencode analysis rst wiki, Permutation design_order design_names
  /\ plain now /\ (forall p ts t, analysis p = Ok ts -> In t ts -> table_ok t) /\ (forall s, exists o, rst s = Ok o)
  /\ snd (parse design_order wikipath now urlencode analysis wiki new_doc) = Ok tt
  /\ html design_order wikipath now urlencode analysis rst wiki = Exc KeyError.
Proof.
  exists design_names, [], [], (fun _ => []), (fun _ => Ok []), (fun s => Ok []), (lines_text [L " + a"; L " * b"]). split; [apply Permutation_refl|]. split; [intros c []|].
  split; [intros p ts t E I; injection E as <-; destruct I|]. split; [intro s; exists []; reflexivity|]. split; vm_compute; reflexivity.
Qed.

(* ---- C64: preformatted blocks ---- *)
Lemma concat_part : forall (x : str) ss, In x ss -> part x (List.concat ss).
Proof. intros x ss I. apply in_split in I. destruct I as (a & b & ->). rewrite concat_app. cbn [List.concat]. exists (List.concat a), (List.concat b). reflexivity. Qed.
Lemma written : forall order rst tc md nq (ks : string -> Prop) F d out i n c, Permutation order design_names -> ks "id" -> inv tc md nq ks F d -> make_html order rst d = Ok out ->
  nth_error (nodes d) i = Some n -> close order rst n = Ok c -> part c out.
Proof.
  intros order rst tc md nq ks F d out i n c HP Hid J H Hn Hc. destruct (html_pieces order rst _ _ _ _ _ d HP Hid J) as (l & es & vs & O & He & A & V & B & M). rewrite H in M. destruct M as (ss & -> & M).
  assert (I : In (VLeave i) vs) by (apply B; apply nth_error_Some; congruence).
  assert (G : exists y, In y ss /\ piece order rst d es (VLeave i) (Ok y)).
  { clear - M I. induction M as [|x y l ss H _ IH]; [destruct I|]. destruct I as [->|I]; [exists y; split; [left; reflexivity|exact H]|].
    destruct (IH I) as (z & Z1 & Z2). exists z. split; [right; exact Z1|exact Z2]. }
  destruct G as (y & Iy & n0 & Hn0 & Hy). rewrite Hn in Hn0. injection Hn0 as <-. rewrite Hc in Hy. injection Hy as ->. apply concat_part. exact Iy.
Qed.
Section Block.
Variables (design_order : list string) (wikipath now : str) (urlencode : list (string * str) -> str) (analysis : str -> res (list table)).
Hypothesis Hdesign : Permutation design_order design_names.
Hypothesis Hnow : plain now.
Hypothesis Hana : any_tables analysis.
Notation parse_line := (parse_line design_order wikipath now urlencode analysis).
Notation T := (fun _ : string => True).
Notation E := (fun _ : exn => True).
Let Hw : false = true -> quiet wikipath := fun h => False_rect _ (Bool.diff_false_true h).
Let Hu : forall p, false = true -> quiet (urlencode p) := fun _ h => False_rect _ (Bool.diff_false_true h).
Lemma fits_all : forall l, one_line l -> line_fits true AnyItems careless E analysis l.
Proof. intros l O. unfold line_fits. split; [exact O|]. split; [discriminate|]. split; [discriminate|]. split; [discriminate|]. split; [auto|]. split; [auto|]. split; [auto|discriminate]. Qed.
Lemma each_ok : forall P Q ls, triple E P (m_each parse_line ls) (fun _ => Q) -> forall d, P d -> snd (m_each parse_line ls d) = Ok tt -> Q (fst (m_each parse_line ls d)).
Proof. intros P Q ls Ht d Hd Ho. specialize (Ht d Hd). rewrite Ho in Ht. exact Ht. Qed.
Lemma block_lines : forall block F c t p, (forall l, In l block -> one_line l) -> (forall l, In l block -> l <> L "}}}" /\ ~ directive l) ->
  triple E (in_block true AnyItems careless T F c t p) (m_each parse_line block) (fun _ => in_block true AnyItems careless T F c (t ++ lines_text block) p).
Proof.
  induction block as [|l block IH]; intros F c t p O D; cbn [m_each].
  - unfold lines_text. cbn [flat_map]. rewrite app_nil_r. apply t_ret. auto.
  - eapply t_bind with (Q := fun _ => in_block true AnyItems careless T F c (t ++ l ++ nl) p).
    + intros d B. rewrite (inside_wrapping true AnyItems careless T design_order wikipath now urlencode analysis F c t p d B).
      apply (wrap_line true AnyItems careless T E F c t p l); [apply O; left; reflexivity|apply (D l); left; reflexivity|apply (D l); left; reflexivity|exact B].
    + intro u_. unfold lines_text. cbn [flat_map]. change (flat_map (fun l => l ++ [ascii_of_nat 10]) block) with (lines_text block).
      replace (t ++ (l ++ [ascii_of_nat 10]) ++ lines_text block) with ((t ++ l ++ nl) ++ lines_text block) by (rewrite <- !app_assoc; reflexivity).
      apply IH; intros x Hx; [apply O|apply D]; right; exact Hx.
Qed.
Lemma block_node : forall before block after d, (forall l, In l (before ++ block ++ after) -> one_line l) -> block_open false before = false ->
  (forall l, In l block -> l <> L "}}}" /\ ~ directive l) ->
  m_each parse_line (before ++ [L "{{{"] ++ block ++ [L "}}}"] ++ after) new_doc = (d, Ok tt) ->
  exists c n, inv true AnyItems careless T [] d /\ nth_error (nodes d) c = Some n /\ cls n = Wrapping /\ text n = lines_text block /\ processor n = None.
Proof.
  intros before block after d O Bo D H.
  assert (O1 : forall l, In l before -> one_line l) by (intros l I; apply O; apply in_or_app; left; exact I).
  assert (O2 : forall l, In l block -> one_line l) by (intros l I; apply O; apply in_or_app; right; apply in_or_app; left; exact I).
  assert (O3 : forall l, In l after -> one_line l) by (intros l I; apply O; apply in_or_app; right; apply in_or_app; right; exact I).
  assert (T0 : triple E (here true AnyItems careless T [] false) (m_each parse_line (before ++ [L "{{{"] ++ block ++ [L "}}}"] ++ after))
    (fun _ d => exists c, inv true AnyItems careless T [(c, (lines_text block, None))] d)).
  { eapply t_app; [apply (texts true AnyItems careless T (fun _ _ => Logic.I) E design_order wikipath now urlencode analysis (order_names _ Hdesign) Hw Hnow (no_care _) Hu (any_table analysis Hana) (fun _ _ _ _ _ _ _ _ _ => no_care _)); intros l I; apply fits_all; apply O1; exact I|].
    rewrite Bo. cbn [app m_each].
    eapply t_bind with (Q := fun _ d => exists c, in_block true AnyItems careless T [] c [] None d).
    { intros d0 H0. rewrite (outside_not_wrapping true AnyItems careless T design_order wikipath now urlencode analysis [] d0 H0).
      apply (p_open true AnyItems careless T [] E design_order wikipath now urlencode analysis Hw (no_care _) Hu (any_table analysis Hana) (fun _ _ _ _ _ _ _ _ _ => no_care _)). exact H0. }
    intros u2_ d0 [c B]. revert d0 B. change (triple E (in_block true AnyItems careless T [] c [] None) (m_each parse_line (block ++ L "}}}" :: after))
      (fun _ d => exists c, inv true AnyItems careless T [(c, (lines_text block, None))] d)).
    eapply t_app; [apply (block_lines block [] c [] None O2 D)|]. cbn [app m_each].
    eapply t_bind with (Q := fun _ => at_ true AnyItems careless T [(c, (lines_text block, None))] (stands true)).
    { intros d0 B. rewrite (inside_wrapping true AnyItems careless T design_order wikipath now urlencode analysis [] c _ None d0 B).
      destruct (wrap_end true AnyItems careless T wikipath now urlencode analysis Hw (no_care _) Hu (any_table analysis Hana) (fun _ _ _ _ _ _ _ _ _ => no_care _) [] c _ None d0 B) as [W1 W2]. rewrite W1. exact W2. }
    intro u4_. eapply t_pre with (P' := here true AnyItems careless T [(c, (lines_text block, None))] false).
    { intros d0 A. eapply at_outside; [|exact A]. intros k Hk. unfold outside. rewrite Hk. reflexivity. }
    eapply t_post; [|apply (texts true AnyItems careless T (fun _ _ => Logic.I) E design_order wikipath now urlencode analysis (order_names _ Hdesign) Hw Hnow (no_care _) Hu (any_table analysis Hana) (fun _ _ _ _ _ _ _ _ _ => no_care _)); intros l I; apply fits_all; apply O3; exact I].
    intros u5_ d0 A. exists c. eapply here_inv. exact A. }
  specialize (T0 new_doc (here_new true AnyItems careless T)). rewrite H in T0. cbn [snd fst] in T0. destruct T0 as [c J].
  destruct (i_done _ _ _ _ _ _ J c (lines_text block) None (or_introl eq_refl)) as (n & Hn & Kn & Tn & Pn). exists c, n.
  split; [|auto]. destruct J as [W A K V G Dn]. split; auto. intros i t p [].
Qed.
End Block.
Lemma block_partial : forall design_order wikipath now urlencode analysis rst,
  Permutation design_order design_names -> plain now -> (forall p ts t, analysis p = Ok ts -> In t ts -> table_ok t) ->
  forall before block after out, (forall line, In line (before ++ block ++ after) -> one_line line) -> block_open false before = false ->
  (forall line, In line block -> line <> L "}}}" /\ ~ directive line) ->
  html design_order wikipath now urlencode analysis rst (lines_text (before ++ [L "{{{"] ++ block ++ [L "}}}"] ++ after)) = Ok out ->
  within (pre_html block) out.
Proof.
  intros design_order wikipath now urlencode analysis rst H1 H2 H3 before block after out O Bo D H. unfold html, parse in H. rewrite splitlines_text in H.
  - destruct (m_each (parse_line design_order wikipath now urlencode analysis) (before ++ [L "{{{"] ++ block ++ [L "}}}"] ++ after) new_doc) as [d [[]|e]] eqn:P; [|discriminate].
    destruct (block_node design_order wikipath now urlencode analysis H1 H2 H3 before block after d O Bo D P) as (c & n & J & Hn & Kn & Tn & Pn).
    apply (written design_order rst _ _ _ _ _ d out c n (pre_html block) H1 Logic.I J H Hn).
    unfold close. rewrite Kn, Pn, Tn. reflexivity.
  - intros l I. cbn [app] in I. apply in_app_or in I. destruct I as [I|[<-|I]]; [apply O; apply in_or_app; left; exact I| |].
    + intros c Ic. cbn in Ic. repeat (destruct Ic as [<-|Ic]; [split; discriminate|]). destruct Ic.
    + apply in_app_or in I. destruct I as [I|[<-|I]]; [apply O; apply in_or_app; right; apply in_or_app; left; exact I| |apply O; apply in_or_app; right; apply in_or_app; right; exact I].
      intros c Ic. cbn in Ic. repeat (destruct Ic as [<-|Ic]; [split; discriminate|]). destruct Ic.
Qed.
Lemma block_refuted : exists design_order wikipath now urlencode analysis rst block out, Permutation design_order design_names
  /\ plain now /\ (forall p ts t, analysis p = Ok ts -> In t ts -> table_ok t) /\ (forall line, In line block -> one_line line /\ line <> L "}}}")
  /\ html design_order wikipath now urlencode analysis rst (lines_text ([L "{{{"] ++ block ++ [L "}}}"])) = Ok out /\ ~ within (pre_html block) out
  /\ out = L "<div>" ++ nl ++ L "</div>" ++ nl ++ pre_html [L "echo a"].
Proof.
  exists design_names, [], [], (fun _ => []), (fun _ => Ok []), (fun s => Ok []), [L "#!sh"; L "echo a"], (L "<div>" ++ nl ++ L "</div>" ++ nl ++ pre_html [L "echo a"]).
  split; [apply Permutation_refl|]. split; [intros c []|]. split; [intros p ts t E I; injection E as <-; destruct I|].
  split; [intros l [<-|[<-|[]]]; (split; [intros c Ic; cbn in Ic; repeat (destruct Ic as [<-|Ic]; [split; discriminate|]); destruct Ic|discriminate])|].
  split; [vm_compute; reflexivity|]. split; [|reflexivity]. intro P. apply (part_in _ _ "#"%char) in P; [|cbn; tauto].
  vm_compute in P. repeat (destruct P as [P|P]; [discriminate P|]). destruct P.
Qed.
