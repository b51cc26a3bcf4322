(* Proofs about the ampersands in the HTML of a wiki text *)
From Verif Require Import Py PyFacts Re Rx RxFacts HtmlModel HtmlSpec HtmlProofs TreeModel TreeSpec TreeProofs TreeVisit TreeHtml TreeText TocModel TocSpec TocProofs WikiModel WikiSpec WikiInv WikiMatch WikiWalk WikiText WikiToc WikiProofs.
From Coq Require Import Permutation.
Open Scope string_scope.
Open Scope list_scope.
Open Scope nat_scope.

Ltac no_amp := apply references_list; reflexivity.
Lemma references_concat : forall ss, (forall s, In s ss -> references s) -> references (List.concat ss).
Proof. induction ss as [|s ss IH]; intro H; cbn [List.concat]; [no_amp|]. apply references_app; [apply H; left; reflexivity|apply IH; intros x I; apply H; right; exact I]. Qed.
Lemma key_whole : forall s, (forall c, In c s -> key_char c = true) -> references s.
Proof. intros s H. apply references_none. intro I. specialize (H _ I). discriminate H. Qed.
Lemma attr_whole : forall nq ks k v o, value_ok nq ks (k, v) -> attr_string (k, v) = Ok o -> references o.
Proof.
  intros nq ks k v o (G & _ & s & E & _) H. cbn [fst snd] in *. subst v. unfold attr_string in H. cbn [fst snd] in H.
  apply (f_equal (fun x => match x with Ok a => a | Exc _ => [] end)) in H. cbv beta iota in H. subst o.
  apply references_app; [apply key_whole; apply G|]. apply references_app; [no_amp|]. apply references_app; [no_amp|]. apply references_app; [apply references_escape|no_amp].
Qed.
Lemma join_whole : forall nq ks a l, Forall (value_ok nq ks) a -> mapM attr_string a = Ok l -> references (join_attrs l).
Proof.
  intros nq ks. induction a as [|[k v] a IH]; intros l P H; cbn [mapM] in H.
  - injection H as <-. no_amp.
  - inversion P as [|? ? P1 P2]; subst. unfold bind in H. destruct (attr_string (k, v)) as [o|] eqn:E; [|discriminate]. destruct (mapM attr_string a) as [r|] eqn:E'; [|discriminate]. injection H as <-.
    pose proof (attr_whole _ _ _ _ _ P1 E) as Po. pose proof (IH r P2 eq_refl) as Pr.
    destruct r as [|o' r]; [exact Po|]. change (join_attrs (o :: o' :: r)) with (o ++ L " " ++ join_attrs (o' :: r)).
    apply references_app; [exact Po|]. apply references_app; [no_amp|exact Pr].
Qed.
Lemma generic_whole : forall nq ks n o, Forall (value_ok nq ks) (attrs n) -> generic_open n = Ok o -> references o.
Proof.
  intros nq ks n o P H. unfold generic_open in H. destruct (html_element (cls n)) as [e|] eqn:He; [|injection H as <-; no_amp].
  destruct (mapM attr_string (attrs n)) as [l|] eqn:M; [|discriminate]. pose proof (join_whole _ _ _ _ P M) as Jw.
  apply (f_equal (fun x => match x with Ok a => a | Exc _ => [] end)) in H. cbv beta iota zeta in H. subst o.
  apply references_app; [no_amp|]. apply references_app; [destruct (cls n); cbn in He; inversion He; no_amp|]. apply references_app.
  - destruct (join_attrs l) as [|c j] eqn:Ej; [no_amp|]. apply references_app; [no_amp|exact Jw].
  - apply references_app; [destruct (is_single (cls n)); no_amp|no_amp].
Qed.
Lemma open_whole : forall tc md nq ks order n o, wholes nq = true -> fine tc md nq ks n -> cls n <> MacroNode -> open order n = Ok o -> references o.
Proof.
  intros tc md nq ks order n o Wh (_ & _ & St) Nm Ho. unfold open in Ho. unfold style_ok in St.
  destruct (cls n) eqn:K; try (elim Nm; reflexivity); try (destruct St; fail);
    try (solve [eapply generic_whole; [first [exact St|exact (proj1 St)]|exact Ho]]); try (solve [injection Ho as <-; no_amp]).
  - destruct (get (attrs n) "style") as [[s| | |]|]; try discriminate; [injection Ho as <-; no_amp|].
    destruct (sign_class (sign_of (attrs n))) as [c|] eqn:Sc; [|discriminate]. injection Ho as <-.
    unfold sign_class in Sc. destruct (sign_of (attrs n)) as [[s| | |]|]; try discriminate.
    repeat (match type of Sc with (if ?x then _ else _) = _ => destruct x end; [injection Sc as <-; no_amp|]). discriminate.
  - destruct (list_tag order n) as [[t c]|] eqn:Lt; [|discriminate]. unfold list_tag in Lt. destruct (design_name order (attrs n)) as [name|]; [|discriminate]. unfold design_tag in Lt.
    repeat (match type of Lt with (if ?x then _ else _) = _ => destruct x end; [injection Lt as <- <-; injection Ho as <-; no_amp|]). discriminate.
  - injection Ho as <-. exact (St Wh).
Qed.
Lemma close_whole : forall order rst n o, (forall s x, rst s = Ok x -> references x) -> close order rst n = Ok o -> references o.
Proof.
  intros order rst n o Hr Ho. unfold close in Ho.
  assert (Gen : Ok (generic_close n) = Ok o -> references o).
  { intro G. apply (f_equal (fun x => match x with Ok a => a | Exc _ => [] end)) in G. cbv beta iota in G. subst o. unfold generic_close. destruct (cls n); cbn [html_element is_single]; no_amp. }
  destruct (cls n); try exact (Gen Ho); clear Gen; try (solve [injection Ho as <-; no_amp]).
  - destruct (list_tag order n) as [[t c]|] eqn:Lt; [|discriminate]. unfold list_tag in Lt. destruct (design_name order (attrs n)) as [name|]; [|discriminate]. unfold design_tag in Lt.
    repeat (match type of Lt with (if ?x then _ else _) = _ => destruct x end; [injection Lt as <- <-; injection Ho as <-; no_amp|]). discriminate.
  - assert (G2 : Ok (quoted "<pre class=" "wiki" ">" ++ escape (text n) ++ L "</pre>" ++ nl) = Ok o -> references o).
    { intro Eo. apply (f_equal (fun x => match x with Ok a => a | Exc _ => [] end)) in Eo. cbv beta iota in Eo. subst o.
      apply references_app; [no_amp|]. apply references_app; [apply references_escape|no_amp]. }
    destruct (processor n) as [p|]; [|exact (G2 Ho)]. repeat match type of Ho with context [match ?x with _ => _ end] => is_var x; destruct x; try exact (G2 Ho) end. exact (Hr _ _ Ho).
Qed.
Lemma lines_whole : forall n s, references (L s) -> references (lines n s).
Proof. intros n s H. induction n as [|n IH]; cbn [lines]; [no_amp|]. apply references_app; [exact H|]. apply references_app; [no_amp|exact IH]. Qed.
Lemma mark_whole : forall k, references (mark k).
Proof. intro k. apply references_none. intro I. apply mark_chars in I. discriminate I. Qed.
Lemma contents_whole : forall es d k, (forall l labels s, In (l, labels) es -> In s labels -> references s) -> references (contents d k es).
Proof.
  induction es as [|[l labels] es IH]; intros d k H; cbn [contents].
  - apply lines_whole. no_amp.
  - repeat (lazymatch goal with |- references (mark _) => fail | _ => idtac end; apply references_app; [first [apply lines_whole; no_amp|no_amp|apply mark_whole|idtac]|]).
    + apply references_concat. intros s I. apply in_map_iff in I. destruct I as (x & <- & Ix). apply references_app; [apply (H l labels x); [left; reflexivity|exact Ix]|no_amp].
    + apply IH. intros l' b x I. apply (H l' b x). right. exact I.
Qed.
Section Doc.
Variables (tc : bool) (md : mode) (nq : care) (ks : string -> Prop) (F : list (nat * (str * option string))) (d : doc).
Hypothesis Wh : wholes nq = true.
Hypothesis J : inv tc md nq ks F d.
Notation ns := (nodes d).
Lemma text_whole : forall i n, nth_error ns i = Some n -> cls n = Text -> references (text n).
Proof. intros i n Hn K. destruct (i_fine _ _ _ _ _ _ J i n Hn) as (_ & _ & S). unfold style_ok in S. rewrite K in S. exact (S Wh). Qed.
Lemma label_whole : forall i s, label ns i s -> references s.
Proof.
  intros i s (n & Hn & [(K & _ & ->)|(K & ss & G & ->)]); [exact (text_whole _ _ Hn K)|]. apply references_concat.
  clear - G J Wh. induction G as [|i s l ss H _ IH]; [intros x []|]. intros x [<-|I]; [|apply IH; exact I].
  destruct H as (q & Hq & [[Kq ->]|[_ ->]]); [exact (text_whole _ _ Hq Kq)|no_amp].
Qed.
Lemma kept_whole : forall hs es, Forall2 (entry_of ns) hs es -> forall l labels s, In (l, labels) (TocProofs.kept es) -> In s labels -> references s.
Proof.
  intros hs es G l labels s I Is. unfold TocProofs.kept in I. apply in_map_iff in I. destruct I as (e & Ee & I). injection Ee as _ <-.
  revert I. induction G as [|i e0 hs es (n & Hn & _ & H) _ IH]; [intros []|]. intros [<-|I]; [|apply IH; exact I].
  clear - H Is J Wh. induction H as [|c o cs os H _ IH]; [destruct Is|]. unfold keep in Is. cbn [flat_map] in Is. apply in_app_or in Is. destruct Is as [Is|Is]; [|apply IH; exact Is].
  destruct o as [t|]; [|destruct Is]. destruct Is as [<-|[]]. eapply label_whole. exact H.
Qed.
End Doc.
Lemma wiki_references : forall design_order wikipath now urlencode analysis rst,
  Permutation design_order design_names -> plain now -> references now ->
  (forall p ts t, analysis p = Ok ts -> In t ts -> table_ok t /\ forall r c, In r (rows t) -> In c (snd r) -> references (ctext c)) -> (forall s o, rst s = Ok o -> references o) ->
  forall wiki out, ~ amp_url wiki -> html design_order wikipath now urlencode analysis rst wiki = Ok out -> references out.
Proof.
  intros design_order wikipath now urlencode analysis rst H1 H2 Hn Ha Hr wiki out Am H. unfold html in H.
  pose proof (parsed design_order wikipath now urlencode analysis H1 H2 true AnyItems (mkcare false true) (fun _ => True) (parse_fails analysis wiki) (fun _ _ => Logic.I)
    (no_care _) (fun p => no_care _) (any_table analysis (fun p ts t A I => proj1 (Ha p ts t A I))) (fun _ => Hn) (fun p ts t r c A I Ir Ic _ => proj2 (Ha p ts t A I) r c Ir Ic)
    wiki (fits_any analysis wiki true AnyItems (fun _ => eq_refl) (fun h => ltac:(discriminate h)) (fun h => ltac:(discriminate h)) (mkcare false true) (no_care _) (fun _ => Am))) as P.
  destruct (parse design_order wikipath now urlencode analysis wiki new_doc) as [d [[]|e]]; [|discriminate]. cbn [fst snd] in P.
  destruct (html_pieces design_order rst _ _ _ _ _ d H1 Logic.I P) as (l & es & vs & O & He & A & V & _ & M). rewrite H in M. destruct M as (ss & -> & M).
  apply references_concat. intros s I.
  assert (G : exists v, In v vs /\ piece design_order rst d es v (Ok s)).
  { clear - M I. induction M as [|x y l ss H _ IH]; [destruct I|]. destruct I as [->|I]; [exists x; split; [left; reflexivity|exact H]|].
    destruct (IH I) as (z & Z1 & Z2). exists z. split; [right; exact Z1|exact Z2]. }
  destruct G as (v & Iv & Hv).
  destruct (V v Iv) as (j & n & [-> | ->] & Hj); cbn [piece] in Hv; destruct Hv as (n0 & Hn0 & Hv); rewrite Hj in Hn0; injection Hn0 as <-.
  - destruct Hv as [[K E]|(K & n' & Mk & E)].
    + unfold table_text in E. destruct (existsb _ es); [discriminate|]. injection E as ->. unfold contents_html. apply references_app; [no_amp|]. apply references_app; [no_amp|].
      apply contents_whole. exact (kept_whole _ _ (mkcare false true) _ _ d eq_refl P _ _ He).
    + eapply open_whole; [|exact (maybe_fine _ _ _ _ Logic.I n n' (i_fine _ _ _ _ _ _ P j n Hj) Mk)|rewrite (maybe_cls _ _ Mk); exact K|symmetry; exact E]. reflexivity.
  - eapply close_whole; [exact Hr|symmetry; exact Hv].
Qed.
Definition amp_text : str := L "see http://a.b/?c=d&copy=2 there".
Lemma references_refuted : exists design_order wikipath now urlencode analysis rst wiki out, Permutation design_order design_names
  /\ plain now /\ references now /\ (forall p, analysis p = Ok []) /\ (forall s o, rst s = Ok o -> references o)
  /\ html design_order wikipath now urlencode analysis rst wiki = Ok out /\ ~ references out.
Proof.
  exists design_names, [], [], (fun _ => []), (fun _ => Ok []), (fun s => Ok []), amp_text.
  destruct (html design_names [] [] (fun _ => []) (fun _ => Ok []) (fun s => Ok []) amp_text) as [out|] eqn:E; vm_compute in E; [|discriminate].
  injection E as <-. eexists. split; [apply Permutation_refl|]. split; [intros c []|]. split; [no_amp|]. split; [reflexivity|]. split; [intros s o Eo; injection Eo as <-; no_amp|].
  split; [reflexivity|]. intro R. match type of R with references ?o => destruct (R (firstn 119 o) (skipn 120 o) eq_refl) as (t & r & I & E) end.
  cbn in I. repeat (destruct I as [<-|I]; [discriminate E|]). destruct I.
Qed.
