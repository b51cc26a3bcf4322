(* Proofs about the fuzzer *)
From Verif Require Import Py PyFacts Re Rx RxFacts HtmlModel HtmlSpec HtmlProofs TreeModel TreeSpec TreeProofs TreeVisit TreeHtml TreeText TocModel TocSpec TocProofs WikiModel WikiSpec WikiInv WikiMatch WikiWalk WikiText WikiToc WellSpec WikiWell WikiProofs FuzzModel FuzzSpec.
From Verif Require XmlSpec WikiKeep.
From Coq Require Import Permutation Lia.
Open Scope string_scope.
Open Scope list_scope.
Open Scope Z_scope.

Lemma num_words : forall k i, 0 <= i < count k -> exists w, num_to_text k i = Ok w /\ In w (words k).
Proof.
  intros k i H. unfold num_to_text, pyget, pyix. fold (words k). assert (Z : zlen (words k) = count k) by (unfold zlen, words, count, zlen; rewrite app_length, Nat2Z.inj_add; reflexivity).
  rewrite Z. replace ((0 <=? i) && (i <? count k)) with true by lia.
  destruct (nth_error (words k) (Z.to_nat i)) as [w|] eqn:E; [exists w; split; [reflexivity|eapply nth_error_In; exact E]|].
  apply nth_error_None in E. unfold zlen in Z. lia.
Qed.
Lemma texts : forall k l, (forall i, In i l -> 0 <= i < count k) -> exists t, (let! l := mapM (num_to_text k) l in Ok (List.concat l)) = Ok t /\ spelt k (List.length l) t.
Proof.
  intros k. induction l as [|i l IH]; intro H; [exists []; split; [reflexivity|constructor]|].
  destruct (num_words k i (H i (or_introl eq_refl))) as (w & E & I). destruct IH as (t & Et & T); [intros j J; apply H; right; exact J|].
  cbn [mapM]. rewrite E. cbn [bind]. destruct (mapM (num_to_text k) l) as [ws|]; cbn [bind] in *; [|discriminate Et]. injection Et as <-.
  exists (w ++ List.concat ws). split; [reflexivity|constructor; assumption].
Qed.
Lemma gene_text : forall k draw n, draws k draw -> exists g t, new_gene k draw (AInt n) = Ok g /\ gklass g = k /\ ghtml g = None /\ get_text g = Ok t /\ spelt k (Z.to_nat n) t.
Proof.
  intros k draw n D. eexists. destruct (texts k (map draw (seq 0 (Z.to_nat n)))) as (t & E & T).
  - intros i I. apply in_map_iff in I. destruct I as (j & <- & _). apply D.
  - exists t. split; [reflexivity|]. split; [reflexivity|]. split; [reflexivity|]. split; [exact E|]. rewrite map_length, seq_length in T. exact T.
Qed.
Lemma word_num : forall k w, In w (words k) -> exists i, 0 <= i < count k /\ num_to_text k i = Ok w.
Proof.
  intros k w I. apply In_nth_error in I. destruct I as (n & E). exists (Z.of_nat n).
  assert (Hn : (n < List.length (words k))%nat) by (apply nth_error_Some; congruence).
  assert (Z : zlen (words k) = count k) by (unfold zlen, words, count, zlen; rewrite app_length, Nat2Z.inj_add; reflexivity).
  unfold zlen in Z. split; [lia|]. unfold num_to_text, pyget, pyix. fold (words k). unfold zlen. replace ((0 <=? Z.of_nat n) && (Z.of_nat n <? Z.of_nat (List.length (words k)))) with true by lia.
  rewrite Nat2Z.id, E. reflexivity.
Qed.
Lemma codes : forall k n t, spelt k n t -> exists l, List.length l = n /\ (forall i, In i l -> 0 <= i < count k) /\ (let! l := mapM (num_to_text k) l in Ok (List.concat l)) = Ok t.
Proof.
  intros k n t T. induction T as [|w n t I T (l & Hl & B & E)]; [exists []; split; [reflexivity|split; [intros i []|reflexivity]]|].
  destruct (word_num k w I) as (i & Bi & Ei). exists (i :: l). split; [cbn; congruence|]. split; [intros j [<-|J]; [exact Bi|exact (B j J)]|].
  cbn [mapM]. rewrite Ei. cbn [bind]. destruct (mapM (num_to_text k) l) as [ws|]; cbn [bind] in *; [|discriminate E]. injection E as <-. reflexivity.
Qed.
Lemma every_text : forall k n t, spelt k n t -> 0 < count k -> exists draw g, draws k draw /\ new_gene k draw (AInt (Z.of_nat n)) = Ok g /\ get_text g = Ok t.
Proof.
  intros k n t T P. destruct (codes k n t T) as (l & Hl & B & E). exists (fun i => nth i l 0). eexists. split.
  - intro i. destruct (Nat.lt_ge_cases i (List.length l)) as [H|H]; [apply B; apply nth_In; exact H|rewrite nth_overflow by exact H; lia].
  - split; [reflexivity|]. unfold get_text. cbn [gklass code]. rewrite Nat2Z.id. rewrite <- Hl.
    replace (map (fun i => nth i l 0) (seq 0 (List.length l))) with l; [exact E|].
    clear. induction l as [|a l IH]; [reflexivity|]. cbn [List.length seq map nth]. f_equal. rewrite <- seq_shift, map_map. exact IH.
Qed.
Lemma gene_texts : forall k n t, 0 < count k -> 0 <= n ->
  (spelt k (Z.to_nat n) t <-> exists draw g, draws k draw /\ new_gene k draw (AInt n) = Ok g /\ get_text g = Ok t).
Proof.
  intros k n t P Hn. split.
  - intro T. destruct (every_text k _ t T P) as (draw & g & D & E & Et). rewrite Z2Nat.id in E by exact Hn. exists draw, g. auto.
  - intros (draw & g & D & E & Et). destruct (gene_text k draw n D) as (g' & t' & E' & _ & _ & Et' & T). congruence.
Qed.

(* ---- any formatter ---- *)
Lemma format_verdict : forall St (fparse : str -> res St) fmake k draw n g, draws k draw -> new_gene k draw (AInt n) = Ok g ->
  exists t g' v, get_text g = Ok t /\ format fparse fmake g = (g', Ok v)
  /\ gklass g' = gklass g /\ code g' = code g /\ get_text g' = Ok t
  /\ ((v = True_ /\ exists st h, fparse t = Ok st /\ fmake st = Ok h /\ ghtml g' = h)
      \/ (exists e, v = FormatError e /\ ghtml g' = None /\ (fparse t = Exc e \/ exists st, fparse t = Ok st /\ fmake st = Exc e))).
Proof.
  intros St fparse fmake k draw n g D E. destruct (gene_text k draw n D) as (g0 & t & E' & K & H & Et & _). assert (g0 = g) by congruence. subst g0.
  exists t. unfold format. rewrite Et. destruct (fparse t) as [st|e] eqn:P.
  - destruct (fmake st) as [h|e] eqn:M.
    + eexists _, _. split; [reflexivity|]. split; [reflexivity|]. split; [reflexivity|]. split; [reflexivity|]. split; [exact Et|]. left. split; [reflexivity|]. exists st, h. auto.
    + eexists _, _. split; [reflexivity|]. split; [reflexivity|]. split; [reflexivity|]. split; [reflexivity|]. split; [exact Et|]. right. exists e. split; [reflexivity|]. split; [exact H|]. right. exists st. auto.
  - eexists _, _. split; [reflexivity|]. split; [reflexivity|]. split; [reflexivity|]. split; [reflexivity|]. split; [exact Et|]. right. exists e. auto.
Qed.
Lemma verify_verdict : forall validate g, match verify validate g with
  | Ok v => has_html g /\ ((v = True_ /\ exists h, ghtml g = Some h /\ validate h = Ok tt) \/ exists e h, v = ParseError e /\ ghtml g = Some h /\ validate h = Exc e)
  | Exc e => e = AssertionError /\ ~ has_html g end.
Proof.
  intros validate g. unfold verify, has_html. destruct (ghtml g) as [[|c h]|].
  - split; [reflexivity|]. intros (c & h & E). discriminate E.
  - destruct (validate (c :: h)) as [[]|e] eqn:V.
    + split; [eauto|]. left. split; [reflexivity|]. exists (c :: h). auto.
    + split; [eauto|]. right. exists e, (c :: h). auto.
  - split; [reflexivity|]. intros (c & h & E). discriminate E.
Qed.

(* ---- genes of the wiki ---- *)
Definition wchars : list ascii := List.concat (words wGene).
Lemma text_chars : forall k n t, spelt k n t -> forall c, In c t -> In c (List.concat (words k)).
Proof.
  intros k n t T. induction T as [|w n t I T IH]; intros c J; [destruct J|]. apply in_app_or in J. destruct J as [J|J]; [|exact (IH c J)].
  apply in_concat. exists w. auto.
Qed.
Lemma no_char : forall n t u c, spelt wGene n t -> In c u -> existsb (Ascii.eqb c) wchars = false -> ~ within u t.
Proof.
  intros n t u c T I N (a & b & ->). assert (J : In c wchars) by (apply (text_chars _ _ _ T); apply in_or_app; right; apply in_or_app; left; exact I).
  assert (X : existsb (Ascii.eqb c) wchars = true) by (apply existsb_exists; exists c; split; [exact J|apply Ascii.eqb_refl]). congruence.
Qed.
Lemma wgene_legal : forall n t, spelt wGene n t -> legal_text t.
Proof.
  intros n t T c I. pose proof (text_chars _ _ _ T c I) as J.
  assert (F : forallb XmlSpec.legal (List.concat (words wGene)) = true) by (vm_compute; reflexivity). rewrite forallb_forall in F. exact (F c J).
Qed.

Section Wiki.
Variable design_order : list string.
Variable wikipath : str.
Variable now : str.
Variable urlencode : list (string * str) -> str.
Variable analysis : str -> res (list WikiModel.table).
Variable rst : str -> res str.
Hypothesis order : Permutation design_order design_names.
Hypothesis Hnow : plain now.
Hypothesis tables : forall p ts t, analysis p = Ok ts -> In t ts -> table_ok t.
Hypothesis docutils : forall s, exists o, rst s = Ok o.

Lemma open_any : forall tc md nq ks dorder n, incl dorder design_names -> fine tc md nq ks n -> (exists o, open dorder n = Ok o) \/ open dorder n = Exc KeyError.
Proof.
  intros tc md nq ks dorder n Ho (_ & _ & S). unfold style_ok in S. unfold open. destruct (cls n) eqn:K; try (left; eexists; reflexivity); try (left; unfold generic_open; rewrite K; eexists; reflexivity); try (destruct S; fail); try (left; eapply generic_ok; first [exact S|exact (proj1 S)]).
  - destruct S as [[E|[E Nu]] Sg]; rewrite E; [left; eauto|]. unfold sign_class. destruct (sign_of (attrs n)) as [[s| | |]|]; try (right; reflexivity). repeat (match goal with |- context [if ?b then _ else _] => destruct b end; try (left; eexists; reflexivity)). right. reflexivity.
  - destruct S as [S _]. destruct (tag_ok dorder n Ho S) as [[t [c|]] ->]; left; eauto.
Qed.
Lemma wgene_parse : forall n t e, spelt wGene n t -> snd (parse design_order wikipath now urlencode analysis t new_doc) = Exc e -> False.
Proof.
  intros n t e T H. destruct (parse_partial design_order wikipath now urlencode analysis order Hnow tables t e H) as [[_ [W|W]]|[W _]]; revert W.
  - apply (no_char n t _ "P"%char T); [cbn; tauto|vm_compute; reflexivity].
  - apply (no_char n t _ "A"%char T); [cbn; tauto|vm_compute; reflexivity].
  - apply (no_char n t _ "A"%char T); [cbn; tauto|vm_compute; reflexivity].
Qed.
Lemma wgene_render : forall n t e, spelt wGene n t -> html design_order wikipath now urlencode analysis rst t = Exc e -> e = KeyError.
Proof.
  intros k t e T H. pose proof (wgene_parse k t) as NP.
  assert (P := parsed_any design_order wikipath now urlencode analysis order Hnow tables (found (L "[[TableOfContent") t) AnyItems t (proj2 (found_part _ _)) (fun h => ltac:(discriminate h)) (fun h => ltac:(discriminate h))). unfold html in H.
  destruct (parse design_order wikipath now urlencode analysis t new_doc) as [d [[]|x]]; [|destruct (NP x T eq_refl)].
  destruct (html_pieces design_order rst _ _ _ _ _ d order Logic.I P) as (l & es & vs & O & He & A & V & _ & M). rewrite H in M. destruct M as (v & Iv & Hv).
  destruct (V v Iv) as (j & n & [-> | ->] & Hn); cbn [piece] in Hv; destruct Hv as (n0 & Hn0 & Hv); rewrite Hn in Hn0; injection Hn0 as <-; pose proof (i_fine _ _ _ _ _ _ P j n Hn) as Fn.
  - destruct Hv as [[K E]|(K & n' & Mk & E)].
    + exfalso. destruct Fn as (_ & _ & Sn). unfold style_ok in Sn. rewrite K in Sn. apply found_part in Sn. revert Sn. apply (no_char k t _ "T"%char T); [cbn; tauto|vm_compute; reflexivity].
    + destruct (open_any _ _ _ _ design_order n' (order_names _ order) (maybe_fine _ _ _ _ Logic.I n n' Fn Mk)) as [[o Eo]|Eo]; congruence.
  - exfalso. destruct (close_ok _ _ _ _ design_order rst n (order_names _ order) Fn) as [[o E]|(s & x & R & E)]; [congruence|]. destruct (docutils s) as [o Eo]. congruence.
Qed.
Lemma wgene_fine : forall n t, spelt wGene n t -> (forall line, line_of t line -> ~ signed_item line) \/ (forall line, line_of t line -> ~ unsigned_item line) ->
  exists out, html design_order wikipath now urlencode analysis rst t = Ok out.
Proof.
  intros n t T S. destruct (html design_order wikipath now urlencode analysis rst t) as [out|e] eqn:E; [eauto|exfalso].
  destruct (render_partial design_order wikipath now urlencode analysis rst order Hnow tables t e S E) as [P|[[s R]|[_ W]]].
  - exact (wgene_parse n t e T P).
  - destruct (docutils s) as [o Eo]. congruence.
  - revert W. apply (no_char n t _ "T"%char T); [cbn; tauto|vm_compute; reflexivity].
Qed.
Lemma wiki_html : forall t, html design_order wikipath now urlencode analysis rst t
  = let! d := wiki_parse design_order wikipath now urlencode analysis t in let! h := wiki_make design_order rst d in match h with Some out => Ok out | None => Exc Unmodelled end.
Proof.
  intro t. unfold html, wiki_parse, wiki_make. destruct (parse design_order wikipath now urlencode analysis t new_doc) as [d [[]|e]]; cbn [bind]; [|reflexivity].
  destruct (make_html design_order rst d); reflexivity.
Qed.
Lemma wgene_format : forall draw n g, draws wGene draw -> new_gene wGene draw (AInt n) = Ok g ->
  exists t g' v, get_text g = Ok t /\ format (wiki_parse design_order wikipath now urlencode analysis) (wiki_make design_order rst) g = (g', Ok v)
  /\ ((v = True_ /\ exists out, html design_order wikipath now urlencode analysis rst t = Ok out /\ ghtml g' = Some out)
      \/ (v = FormatError KeyError /\ ghtml g' = None
          /\ ~ (forall line, line_of t line -> ~ signed_item line) /\ ~ (forall line, line_of t line -> ~ unsigned_item line))).
Proof.
  intros draw n g D E. destruct (gene_text wGene draw n D) as (g0 & t0 & E0 & _ & _ & Et0 & T). assert (g0 = g) by congruence. subst g0.
  destruct (format_verdict _ (wiki_parse design_order wikipath now urlencode analysis) (wiki_make design_order rst) wGene draw n g D E) as (t & g' & v & Et & F & _ & _ & _ & V).
  assert (t0 = t) by congruence. subst t0. exists t, g', v. split; [exact Et|]. split; [exact F|].
  pose proof (wiki_html t) as W. destruct V as [(-> & st & h & P & M & G)|(e & -> & G & X)].
  - left. split; [reflexivity|]. rewrite P in W. cbn [bind] in W. rewrite M in W. cbn [bind] in W. unfold wiki_make in M. destruct (make_html design_order rst st) as [o|]; cbn [bind] in M; [|discriminate M]. injection M as <-. exists o. auto.
  - right. assert (H : html design_order wikipath now urlencode analysis rst t = Exc e).
    { destruct X as [P|(st & P & M)]; rewrite P in W; cbn [bind] in W; [exact W|]. rewrite M in W. exact W. }
    rewrite (wgene_render _ t e T H). split; [reflexivity|]. split; [exact G|].
    split; intro S; [destruct (wgene_fine _ t T (or_introl S)) as [o Eo]|destruct (wgene_fine _ t T (or_intror S)) as [o Eo]]; congruence.
Qed.
End Wiki.

Lemma fit_ok : forall t, table_fit t -> table_ok t.
Proof.
  intros t (_ & _ & T2) r c Ir Ic. destruct (T2 r Ir) as (_ & _ & T3). destruct (T3 c Ic) as (_ & T4 & _ & _ & T5). split; [exact T4|]. intros k v Ik. apply (T5 k v Ik).
Qed.
Lemma wgene_passes : forall design_order wikipath now urlencode analysis rst validate,
  Permutation design_order design_names -> legal_text now -> plain now -> references now -> legal_text wikipath -> quiet wikipath -> (forall p, legal_text (urlencode p) /\ quiet (urlencode p)) ->
  (forall p ts t, analysis p = Ok ts -> In t ts -> table_fit t) -> (forall s, exists o, rst s = Ok o /\ (legal_text s -> well_formed o)) ->
  (forall s, well_formed s -> validate s = Ok tt) ->
  forall draw n g t, draws wGene draw -> new_gene wGene draw (AInt n) = Ok g -> get_text g = Ok t ->
  ~ quoted_label t -> ~ amp_url t -> (forall line, line_of t line -> ~ signed_item line) \/ (forall line, line_of t line -> ~ unsigned_item line) ->
  exists out, html design_order wikipath now urlencode analysis rst t = Ok out
  /\ (out <> [] -> child (wiki_parse design_order wikipath now urlencode analysis) (wiki_make design_order rst) validate g = (true, Exits 0))
  /\ (out = [] -> child (wiki_parse design_order wikipath now urlencode analysis) (wiki_make design_order rst) validate g = (false, Raises AssertionError)).
Proof.
  intros design_order wikipath now urlencode analysis rst validate H1 H2 H3 H4 H5 H6 H7 H8 H9 HV draw n g t D E Et Q NA S.
  assert (tables : forall p ts t, analysis p = Ok ts -> In t ts -> table_ok t) by (intros p ts x Ea I; apply fit_ok; exact (H8 p ts x Ea I)).
  assert (docutils : forall s, exists o, rst s = Ok o) by (intro s; destruct (H9 s) as (o & R & _); eauto).
  destruct (wgene_format design_order wikipath now urlencode analysis rst H1 H3 tables docutils draw n g D E) as (t' & g' & v & Et' & F & V).
  assert (t' = t) by congruence. subst t'. destruct (gene_text wGene draw n D) as (g0 & t0 & E0 & _ & _ & Et0 & T). assert (g0 = g) by congruence. subst g0. assert (t0 = t) by congruence. subst t0.
  unfold child. rewrite F. destruct V as [(-> & out & O & G)|(-> & _ & N1 & N2)]; [|exfalso; destruct S as [S|S]; auto].
  exists out. split; [exact O|]. cbn [truth]. unfold verify. rewrite G. split; [|intros ->; reflexivity].
  intro NE. assert (W : well_formed out).
  { apply (wiki_well design_order wikipath now urlencode analysis rst H1 H2 H3 H4 H5 H6 H7 H8) with (wiki := t); [|exact (wgene_legal _ t T)|exact Q|exact NA|exact O].
    intros s o Ls R. destruct (H9 s) as (o' & R' & W). assert (o' = o) by congruence. subst o'. exact (W Ls). }
  destruct out as [|c out]; [congruence|]. rewrite (HV _ W). reflexivity.
Qed.

(* ---- the parent ---- *)
Lemma timed_out_exact : forall St (fparse : str -> res St) fmake validate quick g,
  says_timed_out fparse fmake validate quick g = false <-> child fparse fmake validate g = (true, Exits 0) /\ quick = true.
Proof.
  intros. unfold says_timed_out. assert (K : fst (child fparse fmake validate g) = true -> child fparse fmake validate g = (true, Exits 0)).
  { unfold child. destruct (format fparse fmake g) as [g' [v|]]; [|discriminate]. destruct (truth v); [|discriminate]. destruct (verify validate g') as [v'|]; [|discriminate]. destruct (truth v'); [reflexivity|discriminate]. }
  split.
  - intro H. apply negb_false_iff, andb_true_iff in H. destruct H as [H Q]. auto.
  - intros [-> ->]. reflexivity.
Qed.
Lemma subset_raises : forall draw g, (code g = [] -> iter_subset draw g = []) /\ (code g <> [] -> iter_subset draw g = [Exc TypeError]) /\ shorter_fails g = [Exc NameError].
Proof. intros draw [k [|c cs] h]; (split; [|split; [|reflexivity]]); intro H; [reflexivity|destruct (H eq_refl)|discriminate H|reflexivity]. Qed.

(* a text with a mixed list, and one with nothing to show *)
Definition spell (k : gclass) (ws : list str) : nat -> Z := fun i =>
  Z.of_nat (List.length ((fix before (u : str) (l : list str) : list str := match l with w :: l => if str_eqb w u then [] else w :: before u l | [] => [] end) (nth i ws (hd [] (words k))) (words k))).
Definition mixed : list str := [L " "; L "+"; L " "; L "a"; [ascii_of_nat 10]; L " "; L "*"; L " "; L "b"].
Definition wiki_child (g : gene) : bool * ending := child (wiki_parse design_names [] [] (fun _ => []) (fun _ => Ok [])) (wiki_make design_names (fun _ => Ok [])) (fun _ => Ok tt) g.
Lemma spell_draws : forall ws, (forall w, In w ws -> existsb (str_eqb w) (words wGene) = true) -> draws wGene (spell wGene ws).
Proof.
  intros ws H i. unfold spell. set (u := nth i ws (hd [] (words wGene))).
  assert (M : existsb (str_eqb u) (words wGene) = true).
  { destruct (Nat.lt_ge_cases i (List.length ws)) as [Hi|Hi]; [apply H; apply nth_In; exact Hi|]. unfold u. rewrite nth_overflow by exact Hi. vm_compute. reflexivity. }
  change (count wGene) with (zlen (words wGene)). unfold zlen. split; [lia|]. apply Nat2Z.inj_lt. revert M. generalize (words wGene).
  induction l as [|w l IH]; intro M; cbn [existsb] in M; [discriminate M|]. destruct (str_eqb w u) eqn:Ew; cbn [List.length]; [lia|]. destruct (str_eqb u w) eqn:Eu; [apply str_eqb_eq in Eu; subst; rewrite str_eqb_refl in Ew; discriminate Ew|]. cbn [orb] in M. specialize (IH M). lia.
Qed.
Lemma mixed_fails : exists draw g, draws wGene draw /\ new_gene wGene draw (AInt 9) = Ok g /\ get_text g = Ok (List.concat mixed)
  /\ wiki_child g = (false, Exits 1) /\ says_timed_out (wiki_parse design_names [] [] (fun _ => []) (fun _ => Ok [])) (wiki_make design_names (fun _ => Ok [])) (fun _ => Ok tt) true g = true.
Proof.
  exists (spell wGene mixed). eexists. split; [apply spell_draws; intros w I; cbn in I; repeat (destruct I as [<-|I]; [vm_compute; reflexivity|]); destruct I|].
  split; [reflexivity|]. split; [vm_compute; reflexivity|]. split; vm_compute; reflexivity.
Qed.
Lemma blank_fails : exists draw g, draws wGene draw /\ new_gene wGene draw (AInt 1) = Ok g /\ get_text g = Ok [ascii_of_nat 10] /\ wiki_child g = (false, Raises AssertionError).
Proof.
  exists (spell wGene [[ascii_of_nat 10]]). eexists. split; [apply spell_draws; intros w [<-|[]]; vm_compute; reflexivity|].
  split; [reflexivity|]. split; [vm_compute; reflexivity|]. vm_compute. reflexivity.
Qed.
Lemma failed_timed_out : exists draw g, draws wGene draw /\ new_gene wGene draw (AInt 9) = Ok g
  /\ says_timed_out (wiki_parse design_names [] [] (fun _ => []) (fun _ => Ok [])) (wiki_make design_names (fun _ => Ok [])) (fun _ => Ok tt) true g = true.
Proof. destruct mixed_fails as (draw & g & D & E & _ & _ & T). exists draw, g. auto. Qed.
(* leaving one word out *)
Lemma subset_refuted : exists draw g, draws Gene draw /\ new_gene Gene draw (AInt 2) = Ok g
  /\ (forall g', ~ In (Ok g') (iter_subset draw g)) /\ (forall g', ~ In (Ok g') (shorter_fails g)).
Proof.
  exists (fun _ => 0), (mkgene Gene [0; 0] None). split; [intro i; vm_compute; split; [discriminate|reflexivity]|]. split; [reflexivity|].
  split; intros g' [H|[]]; discriminate H.
Qed.
Lemma wgene_formatted : forall design_order wikipath now urlencode analysis rst,
  Permutation design_order design_names -> plain now -> (forall p ts t, analysis p = Ok ts -> In t ts -> table_ok t) -> (forall s, exists o, rst s = Ok o) ->
  forall draw n g, draws wGene draw -> new_gene wGene draw (AInt n) = Ok g ->
  exists t g' v, get_text g = Ok t /\ format (wiki_parse design_order wikipath now urlencode analysis) (wiki_make design_order rst) g = (g', Ok v)
  /\ ((v = True_ /\ exists out, html design_order wikipath now urlencode analysis rst t = Ok out /\ ghtml g' = Some out)
      \/ (v = FormatError KeyError /\ ghtml g' = None
          /\ ~ (forall line, line_of t line -> ~ signed_item line) /\ ~ (forall line, line_of t line -> ~ unsigned_item line))).
Proof. intros design_order wikipath now urlencode analysis rst H1 H2 H3 H4. exact (wgene_format design_order wikipath now urlencode analysis rst H1 H2 H3 H4). Qed.
