(* Proofs about the attributes in the HTML of a wiki text *)
From Verif Require Import Py PyFacts Re Rx RxFacts HtmlModel HtmlSpec HtmlProofs TreeModel TreeSpec TreeProofs TreeVisit TreeHtml TreeText TocModel TocSpec TocProofs WikiModel WikiSpec WikiInv WikiMatch WikiWalk WikiText WikiToc WikiProofs.
From Coq Require Import Permutation.
Open Scope string_scope.
Open Scope list_scope.
Open Scope nat_scope.

(* texts without quotation marks in labels *)
Fixpoint until (s : str) : str := match s with c :: s => if Ascii.eqb c "]" then [] else c :: until s | [] => [] end.
Fixpoint labels_quiet (s : str) : bool := match s with c :: t => (negb (prefixed "[http" s) || negb (existsb (Ascii.eqb quote) (until s))) && labels_quiet t | [] => true end.
Lemma until_in : forall u v c, ~ In "]"%char u -> In c u -> In c (until (u ++ v)).
Proof.
  induction u as [|x u IH]; intros v c N I; [destruct I|]. cbn. destruct (Ascii.eqb_spec x "]") as [->|_]; [exfalso; apply N; left; reflexivity|].
  destruct I as [->|I]; [left; reflexivity|right; apply IH; [intro J; apply N; right; exact J|exact I]].
Qed.
Lemma labels_unquoted : forall s, labels_quiet s = true -> ~ quoted_label s.
Proof.
  intros s H (sc & u & d & I1 & I2 & I3 & _ & I5 & a & b & ->). revert H. induction a as [|x a IH]; intro H; [|apply IH; cbn [app labels_quiet] in H; apply andb_true_iff in H; apply H].
  assert (P : exists v, sc = L "http" ++ v) by (cbn in I1; destruct I1 as [<-|[<-|[]]]; eexists; reflexivity). destruct P as [v P].
  assert (N : ~ In "]"%char (L "[" ++ sc ++ u ++ L " " ++ d)).
  { rewrite !in_app_iff. intros [J|[J|[J|[J|J]]]]; [destruct J as [J|[]]; discriminate J| |specialize (I2 _ J); discriminate I2|destruct J as [J|[]]; discriminate J|exact (I3 J)].
    cbn in I1. destruct I1 as [<-|[<-|[]]]; cbn in J; repeat (destruct J as [J|J]; [discriminate J|]); exact J. }
  assert (J : In quote (until ((L "[" ++ sc ++ u ++ L " " ++ d) ++ L "]" ++ b))) by (apply until_in; [exact N|rewrite !in_app_iff; tauto]).
  assert (E : (L "[" ++ sc ++ u ++ L " " ++ d) ++ L "]" ++ b = [] ++ (L "[" ++ sc ++ u ++ L " " ++ d ++ L "]") ++ b) by (cbn [app]; rewrite <- ?app_assoc; reflexivity).
  rewrite E in J. assert (Pf : prefixed "[http" ([] ++ (L "[" ++ sc ++ u ++ L " " ++ d ++ L "]") ++ b) = true) by (rewrite P; reflexivity).
  set (t := [] ++ (L "[" ++ sc ++ u ++ L " " ++ d ++ L "]") ++ b) in *. destruct t as [|c t]; [discriminate Pf|]. cbn [labels_quiet] in H. rewrite Pf in H. apply andb_true_iff in H. destruct H as [H _].
  cbn [negb orb] in H. apply negb_true_iff in H. assert (X : existsb (Ascii.eqb quote) (until (c :: t)) = true) by (apply existsb_exists; exists quote; split; [exact J|reflexivity]). congruence.
Qed.
Lemma read_more : forall s st l r, read st s = Some l -> read st (s ++ r) = Some l.
Proof.
  induction s as [|c s IH]; intros st l r H; [discriminate|]. cbn [read app] in *. destruct st as [| |k|k|k v].
  - destruct (Ascii.eqb c " "); [apply IH; exact H|]. destruct (Ascii.eqb c ">"); [exact H|apply IH; exact H].
  - destruct (Ascii.eqb c ">"); [exact H|]. destruct (Ascii.eqb c " "); [apply IH; exact H|]. destruct (Ascii.eqb c "/"); apply IH; exact H.
  - destruct (Ascii.eqb c "="); apply IH; exact H.
  - destruct (Ascii.eqb c quote); [apply IH; exact H|discriminate].
  - destruct (Ascii.eqb c quote); [|apply IH; exact H]. destruct (read Gap s) as [m|] eqn:E; [|discriminate]. rewrite (IH _ _ r E). exact H.
Qed.
Section Keys.
Variable keys : list string.
Definition known (l : list (str * str)) : Prop := forall k v, In (k, v) l -> exists key, In key keys /\ k = L key.
Notation tidy := (only_attributes keys).
Lemma tidy_tail : forall c p, tidy (c :: p) -> tidy p.
Proof. intros c p H a b E. apply (H (c :: a) b). rewrite E. reflexivity. Qed.
Lemma tidy_app : forall p q, tidy p -> tidy q -> tidy (p ++ q).
Proof.
  induction p as [|c p IH]; intros q Hp Hq; [exact Hq|]. intros a b E. destruct a as [|x a].
  - cbn [app] in E. injection E as -> <-. destruct (Hp [] p eq_refl) as (l & R & K). exists l. split; [|exact K]. exact (read_more ("<"%char :: p) Name l q R).
  - cbn [app] in E. injection E as <- E. exact (IH q (tidy_tail _ _ Hp) Hq a b E).
Qed.
Lemma tidy_none : forall s, ~ In "<"%char s -> tidy s.
Proof. intros s H a b E. exfalso. apply H. rewrite E. apply in_or_app. right. left. reflexivity. Qed.
Lemma tidy_plain : forall s, plain s -> tidy s.
Proof. intros s H. apply tidy_none. intro I. destruct (H _ I). congruence. Qed.
Lemma tidy_tag : forall s l, ~ In "<"%char s -> attributes ("<"%char :: s) = Some l -> known l -> tidy ("<"%char :: s).
Proof.
  intros s l N R K [|x a] b E; cbn [app] in E; injection E; clear E; [intros <-|intros E <-]; [eauto|]. exfalso. apply N. rewrite E. apply in_or_app. right. left. reflexivity.
Qed.
Definition no_less (s : str) : bool := forallb (fun c => negb (Ascii.eqb c "<")) s.
Lemma no_less_in : forall s, no_less s = true -> ~ In "<"%char s.
Proof. intros s H I. unfold no_less in H. rewrite forallb_forall in H. specialize (H _ I). discriminate. Qed.
Lemma tidy_end : forall s, no_less s = true -> attributes ("<"%char :: s) = Some [] -> tidy ("<"%char :: s).
Proof. intros s H R. apply (tidy_tag s []); [apply no_less_in; exact H|exact R|intros k v []]. Qed.
Lemma tidy_class : forall s v, no_less s = true -> attributes ("<"%char :: s) = Some [(L "class", v)] -> In "class" keys -> tidy ("<"%char :: s).
Proof. intros s v H R I. apply (tidy_tag s [(L "class", v)]); [apply no_less_in; exact H|exact R|]. intros k x [E|[]]. injection E as <- <-. exists "class". auto. Qed.
Lemma tidy_concat : forall ss, (forall s, In s ss -> tidy s) -> tidy (List.concat ss).
Proof. induction ss as [|s ss IH]; intro H; cbn [List.concat]; [apply tidy_none; intros []|]. apply tidy_app; [apply H; left; reflexivity|apply IH; intros x I; apply H; right; exact I]. Qed.

Hypothesis Hkeys : incl wiki_keys keys.
Let Hclass : In "class" keys := Hkeys "class" (or_introl eq_refl).
Lemma values_strings : forall (ks : string -> Prop) a, Forall (value_ok (only_quiets true) ks) a -> exists b, a = strings b /\ forall k s, In (k, s) b -> good_key k /\ ks k /\ ~ In quote s.
Proof.
  intros ks. induction a as [|[k v] a IH]; intro H; [exists []; split; [reflexivity|intros k s []]|]. inversion H as [|? ? H1 H2]; subst. destruct (IH H2) as (b & -> & Hb).
  destruct H1 as (G & K & s & E & Q). cbn [fst snd] in *. subst v. exists ((k, s) :: b). split; [reflexivity|]. intros x y [I|I]; [injection I as <- <-; auto|apply (Hb x y I)].
Qed.
Lemma tidy_open : forall tc md order n o, fine tc md (only_quiets true) (fun k => In k keys) n -> cls n <> MacroNode -> open order n = Ok o -> tidy o.
Proof.
  intros tc md order n o (Pa & Pt & St) Nm Ho.
  assert (Gen : writes_attributes (cls n) -> Forall (value_ok (only_quiets true) (fun k => In k keys)) (attrs n) -> tidy o).
  { intros Hw Hv. destruct (html_element (cls n)) as [e|] eqn:He.
    2:{ assert (o = []) as ->; [|apply tidy_none; intros []]. unfold open, generic_open in Ho. rewrite He in Ho. unfold writes_attributes in Hw.
        destruct (cls n); try (injection Ho as <-; reflexivity); exfalso; apply Hw; cbn; auto 10. }
    destruct (values_strings _ _ Hv) as (b & Eb & Hb). destruct (attributes_partial order n e b Hw He Eb (fun k s I => proj1 (Hb k s I))) as (o' & E' & T & R).
    rewrite Ho in E'. injection E' as <-. specialize (R (fun k s I => proj2 (proj2 (Hb k s I)))).
    assert (Sh : exists s, o = "<"%char :: s /\ ~ In "<"%char s).
    { assert (Hg : open order n = generic_open n) by (unfold open; unfold writes_attributes in Hw; destruct (cls n); try reflexivity; exfalso; apply Hw; cbn; auto 10).
      rewrite Hg in Ho. unfold generic_open in Ho. rewrite He in Ho. destruct (mapM attr_string (attrs n)) as [l|] eqn:M; [|discriminate].
      apply (f_equal (fun x => match x with Ok a => a | Exc _ => [] end)) in Ho. cbv beta iota zeta in Ho. pose proof (join_plain _ _ Pa M) as J.
      eexists. split; [rewrite <- Ho; reflexivity|]. intro I. rewrite !in_app_iff in I. destruct I as [I|[I|[I|I]]].
      - revert I. apply no_less_in. destruct (cls n); cbn in He; inversion He; reflexivity.
      - destruct (join_attrs l) as [|c j] eqn:Ej; [destruct I|]. rewrite <- Ej in *. apply in_app_or in I. destruct I as [I|I]; [cbn in I; destruct I as [I|[]]; discriminate|]. destruct (J _ I). congruence.
      - revert I. apply no_less_in. destruct (is_single (cls n)); reflexivity.
      - revert I. apply no_less_in. reflexivity. }
    destruct Sh as (s & -> & N). apply (tidy_tag s _ N R). intros k v I. apply in_map_iff in I. destruct I as ([k' s'] & E & I). cbn [fst snd] in E. injection E as <- <-.
    exists k'. split; [apply (Hb _ _ I)|reflexivity]. }
  assert (W : (forall x, In x [Underline; Monospace; Itemize; BlockQuote; CitationContent; Citation; ListEl; Text; Wrapping] -> x <> cls n) -> writes_attributes (cls n)).
  { intros H I. exact (H _ I eq_refl). }
  unfold open in Ho. unfold style_ok in St. destruct (cls n) eqn:K; try (elim Nm; reflexivity);
    try (solve [apply Gen; [apply W; intros x I; cbn in I; repeat (destruct I as [<-|I]; [discriminate|]); destruct I|first [exact St|exact (proj1 St)]]]);
    clear Gen W; try (destruct St; fail).
  - injection Ho as <-. apply (tidy_class _ (L "underline")); [reflexivity|reflexivity|exact Hclass].
  - injection Ho as <-. apply (tidy_class _ (L "monospace")); [reflexivity|reflexivity|exact Hclass].
  - destruct (get (attrs n) "style") as [[s| | |]|]; try discriminate; [injection Ho as <-; apply tidy_end; reflexivity|].
    destruct (sign_class (sign_of (attrs n))) as [c|] eqn:Sc; [|discriminate]. injection Ho as <-.
    unfold sign_class in Sc. destruct (sign_of (attrs n)) as [[s| | |]|]; try discriminate.
    repeat (match type of Sc with (if ?x then _ else _) = _ => destruct x end; [injection Sc as <-; eapply tidy_class; [reflexivity|reflexivity|exact Hclass]|]). discriminate.
  - apply (f_equal (fun x => match x with Ok a => a | Exc _ => [] end)) in Ho. cbv beta iota zeta in Ho. subst o. apply (tidy_app (L "<blockquote>") (nl ++ L "<p>" ++ nl)).
    + apply tidy_end; reflexivity.
    + apply (tidy_app nl); [apply tidy_none; apply no_less_in; reflexivity|]. apply (tidy_end (L "p>" ++ nl)); reflexivity.
  - injection Ho as <-. apply tidy_end; reflexivity.
  - injection Ho as <-. apply (tidy_class _ (L "citation")); [reflexivity|reflexivity|exact Hclass].
  - destruct (list_tag order n) as [[t c]|] eqn:Lt; [|discriminate]. unfold list_tag in Lt. destruct (design_name order (attrs n)) as [name|]; [|discriminate]. unfold design_tag in Lt.
    repeat (match type of Lt with (if ?x then _ else _) = _ => destruct x end; [injection Lt as <- <-; injection Ho as <-; first [apply tidy_end; reflexivity | eapply tidy_class; [reflexivity|reflexivity|exact Hclass]]|]). discriminate.
  - injection Ho as <-. apply tidy_plain. apply Pt. reflexivity.
  - injection Ho as <-. apply tidy_none. intros [].
Qed.
Lemma tidy_close : forall order rst n o, (forall s x, rst s = Ok x -> tidy x) -> close order rst n = Ok o -> tidy o.
Proof.
  intros order rst n o Hr Ho. unfold close in Ho.
  assert (Gen : Ok (generic_close n) = Ok o -> tidy o).
  { intro G. apply (f_equal (fun x => match x with Ok a => a | Exc _ => [] end)) in G. cbv beta iota in G. subst o. unfold generic_close.
    destruct (cls n); cbn [html_element is_single]; first [solve [apply tidy_none; intros []] | apply tidy_end; reflexivity]. }
  destruct (cls n); try exact (Gen Ho); clear Gen.
  - apply (f_equal (fun x => match x with Ok a => a | Exc _ => [] end)) in Ho. cbv beta iota zeta in Ho. subst o. apply (tidy_app (L "</p>") (nl ++ L "</blockquote>" ++ nl)).
    + apply tidy_end; reflexivity.
    + apply (tidy_app nl); [apply tidy_none; apply no_less_in; reflexivity|]. apply (tidy_end (L "/blockquote>" ++ nl)); reflexivity.
  - injection Ho as <-. apply tidy_end; reflexivity.
  - injection Ho as <-. apply tidy_end; reflexivity.
  - destruct (list_tag order n) as [[t c]|] eqn:Lt; [|discriminate]. unfold list_tag in Lt. destruct (design_name order (attrs n)) as [name|]; [|discriminate]. unfold design_tag in Lt.
    repeat (match type of Lt with (if ?x then _ else _) = _ => destruct x end; [injection Lt as <- <-; injection Ho as <-; apply tidy_end; reflexivity|]). discriminate.
  - injection Ho as <-. apply tidy_none. apply no_less_in. reflexivity.
  - assert (G : tidy (quoted "<pre class=" "wiki" ">" ++ escape (text n) ++ L "</pre>" ++ nl)).
    { apply tidy_app; [apply (tidy_class _ (L "wiki")); [reflexivity|reflexivity|exact Hclass]|]. apply tidy_app; [apply tidy_plain; apply plain_escape|]. apply (tidy_end (L "/pre>" ++ nl)); reflexivity. }
    assert (G2 : Ok (quoted "<pre class=" "wiki" ">" ++ escape (text n) ++ L "</pre>" ++ nl) = Ok o -> tidy o).
    { intro Eo. apply (f_equal (fun x => match x with Ok a => a | Exc _ => [] end)) in Eo. cbv beta iota in Eo. subst o. exact G. }
    destruct (processor n) as [p|]; [|exact (G2 Ho)]. repeat match type of Ho with context [match ?x with _ => _ end] => is_var x; destruct x; try exact (G2 Ho) end. exact (Hr _ _ Ho).
Qed.
Lemma tidy_lines : forall n s, tidy (L s ++ [newline]) -> tidy (lines n s).
Proof. intros n s H. induction n as [|n IH]; cbn [lines]; [apply tidy_none; intros []|]. rewrite app_assoc. apply tidy_app; assumption. Qed.
Lemma tidy_link : forall k, tidy (L "<li><a href=" ++ [quote] ++ L "#" ++ mark k ++ [quote] ++ L ">" ++ [newline]).
Proof.
  intros k. apply (tidy_app (L "<li>") (L "<a href=" ++ [quote] ++ L "#" ++ mark k ++ [quote] ++ L ">" ++ [newline])); [apply tidy_end; reflexivity|].
  destruct (attributes_partial [] (mknode Anchor [("href", VStr (L "#" ++ mark k))] [] None None []) "a" [("href", L "#" ++ mark k)]) as (o & Eo & _ & R).
  - intro I. cbn in I. repeat (destruct I as [I|I]; [discriminate I|]). exact I.
  - reflexivity.
  - reflexivity.
  - intros x s [E|[]]. injection E as <- <-. apply good_key_of; [discriminate|reflexivity].
  - rewrite open_link in Eo. injection Eo as <-.
    assert (Q : ~ In quote (L "#" ++ mark k)) by (intro I; apply in_app_or in I; destruct I as [[I|[]]|I]; [discriminate I|apply mark_chars in I; apply key_char_safe in I; destruct I as [_ I]; apply I; reflexivity]).
    assert (Rd := R (fun x s I => ltac:(destruct I as [E|[]]; injection E as <- <-; exact Q))).
    apply (tidy_tag (L "a href=" ++ [quote] ++ L "#" ++ mark k ++ [quote] ++ L ">" ++ [newline]) _) with (2 := Rd).
    + intro I. rewrite !in_app_iff in I. destruct I as [I|[I|[I|[I|[I|[I|I]]]]]]; try (revert I; apply no_less_in; reflexivity).
      apply mark_chars in I. discriminate I.
    + intros x v [E|[]]. injection E as <- <-. exists "href". split; [apply Hkeys; cbn; auto|reflexivity].
Qed.
Lemma tidy_contents : forall es d k, (forall l labels s, In (l, labels) es -> In s labels -> plain s) -> tidy (contents d k es).
Proof.
  induction es as [|[l labels] es IH]; intros d k H; cbn [contents].
  - apply tidy_lines. apply tidy_end; reflexivity.
  - apply tidy_app; [apply tidy_lines; apply tidy_end; reflexivity|]. apply tidy_app; [apply tidy_lines; apply tidy_end; reflexivity|].
    replace (L "<li><a href=" ++ [quote] ++ L "#" ++ mark k ++ [quote] ++ L ">" ++ [newline] ++ List.concat (map (fun s => s ++ [newline]) labels) ++ L "</a>" ++ [newline] ++ L "</li>" ++ [newline] ++ contents l (S k) es)
      with ((L "<li><a href=" ++ [quote] ++ L "#" ++ mark k ++ [quote] ++ L ">" ++ [newline]) ++ List.concat (map (fun s => s ++ [newline]) labels) ++ (L "</a>" ++ [newline]) ++ (L "</li>" ++ [newline]) ++ contents l (S k) es)
      by (rewrite <- !app_assoc; reflexivity).
    apply tidy_app; [apply tidy_link|]. apply tidy_app.
    { apply tidy_concat. intros s I. apply in_map_iff in I. destruct I as (x & <- & Ix). apply tidy_app; [apply tidy_plain; apply (H l labels x); [left; reflexivity|exact Ix]|apply tidy_none; apply no_less_in; reflexivity]. }
    apply tidy_app; [apply tidy_end; reflexivity|]. apply tidy_app; [apply tidy_end; reflexivity|]. apply IH. intros l' b x I. apply (H l' b x). right. exact I.
Qed.
Lemma tidy_table : forall es, (forall l labels s, In (l, labels) es -> In s labels -> plain s) -> tidy (contents_html es).
Proof. intros es H. unfold contents_html. rewrite app_assoc. apply tidy_app; [apply tidy_end; reflexivity|apply tidy_contents; exact H]. Qed.
End Keys.
Lemma attributes_kept : forall keys design_order wikipath now urlencode analysis rst, incl wiki_keys keys ->
  Permutation design_order design_names -> plain now -> quiet wikipath -> (forall p, quiet (urlencode p)) ->
  (forall p ts t, analysis p = Ok ts -> In t ts -> table_ok t /\ table_quiet t /\ table_keys keys t) -> (forall s o, rst s = Ok o -> only_attributes keys o) ->
  forall wiki out, ~ quoted_label wiki -> html design_order wikipath now urlencode analysis rst wiki = Ok out -> only_attributes keys out.
Proof.
  intros keys design_order wikipath now urlencode analysis rst Hk H1 H2 Hw Hu Ha Hr wiki out Q H. unfold html in H.
  assert (T : forall p ts t, analysis p = Ok ts -> In t ts -> table_ok t /\ (true = true -> table_quiet t) /\ (forall r c k v, In r (rows t) -> In c (snd r) -> In (k, v) (cattrs c) -> (fun k => In k keys) k)).
  { intros p ts t A I. destruct (Ha p ts t A I) as (T1 & T2 & T3). split; [exact T1|]. split; [auto|exact T3]. }
  pose proof (parsed design_order wikipath now urlencode analysis H1 H2 true AnyItems (only_quiets true) (fun k => In k keys) (parse_fails analysis wiki) Hk
    (fun _ => Hw) (fun p _ => Hu p) T (no_care _) (fun _ _ _ _ _ _ _ _ _ => no_care _) wiki (fits_any analysis wiki true AnyItems (fun _ => eq_refl) (fun h => ltac:(discriminate h)) (fun h => ltac:(discriminate h)) (only_quiets true) (fun _ => Q) (no_care _))) as P.
  destruct (parse design_order wikipath now urlencode analysis wiki new_doc) as [d [[]|e]]; [|discriminate]. cbn [fst snd] in P.
  assert (Hid : In "id" keys) by (apply Hk; cbn; auto 10).
  destruct (html_pieces design_order rst _ _ _ _ _ d H1 Hid P) as (l & es & vs & O & He & A & V & _ & M). rewrite H in M. destruct M as (ss & -> & M).
  apply tidy_concat. intros s I.
  assert (G : exists v, In v vs /\ piece design_order rst d es v (Ok s)).
  { clear - M I. induction M as [|x y l ss H _ IH]; [destruct I|]. destruct I as [->|I]; [exists x; split; [left; reflexivity|exact H]|].
    destruct (IH I) as (z & Z1 & Z2). exists z. split; [right; exact Z1|exact Z2]. }
  destruct G as (v & Iv & Hv).
  destruct (V v Iv) as (j & n & [-> | ->] & Hn); cbn [piece] in Hv; destruct Hv as (n0 & Hn0 & Hv); rewrite Hn in Hn0; injection Hn0 as <-.
  - destruct Hv as [[K E]|(K & n' & Mk & E)].
    + unfold table_text in E. destruct (existsb _ es); [discriminate|]. injection E as ->. apply tidy_table; [exact Hk|]. exact (kept_plain _ _ _ _ _ d P _ _ He).
    + eapply tidy_open; [exact Hk|exact (maybe_fine _ _ _ _ Hid n n' (i_fine _ _ _ _ _ _ P j n Hn) Mk)|rewrite (maybe_cls _ _ Mk); exact K|symmetry; exact E].
  - eapply tidy_close; [exact Hk|exact Hr|symmetry; exact Hv].
Qed.
Definition injection_text : str := L "[http://x " ++ [quote] ++ L " onmouseover=" ++ [quote] ++ L "alert(1)]".
Lemma attributes_added_refuted : exists design_order wikipath now urlencode analysis rst out a b v, Permutation design_order design_names
  /\ plain now /\ (forall p, analysis p = Ok []) /\ html design_order wikipath now urlencode analysis rst injection_text = Ok out
  /\ out = a ++ "<"%char :: b /\ exists l, attributes ("<"%char :: b) = Some l /\ In (L "onmouseover", v) l.
Proof.
  exists design_names, [], [], (fun _ => []), (fun _ => Ok []), (fun s => Ok []).
  destruct (html design_names [] [] (fun _ => []) (fun _ => Ok []) (fun s => Ok []) injection_text) as [out|] eqn:E; vm_compute in E; [|discriminate].
  injection E as <-. eexists. exists (L "<div>" ++ nl). eexists. exists (L "alert(1)"). split; [apply Permutation_refl|]. split; [intros c []|]. split; [reflexivity|].
  split; [reflexivity|]. split; [reflexivity|]. eexists. split; [vm_compute; reflexivity|]. cbn. auto.
Qed.
