(* Property C128: the HTML of a wiki text is well formed *)
From Verif Require Import Py Re HtmlModel HtmlSpec TreeModel TreeSpec TocModel TocSpec WikiModel WikiSpec WellSpec WikiAttrs WikiWell.
From Coq Require Import Permutation.
From Verif Require PyFacts TreeHtml WikiInv XmlSpec WikiKeep.
Open Scope string_scope.
Open Scope list_scope.
Open Scope nat_scope.

(* C128: the HTML of a text with a URL that has an ampersand is not well formed *)
Theorem C128_refuted : exists design_order wikipath now urlencode analysis rst wiki out, Permutation design_order design_names
  /\ legal_text now /\ plain now /\ references now /\ legal_text wikipath /\ quiet wikipath /\ (forall p, legal_text (urlencode p) /\ quiet (urlencode p)) /\ (forall p, analysis p = Ok [])
  /\ (forall s o, rst s = Ok o -> well_formed o) /\ legal_text wiki /\ quiet wiki /\ html design_order wikipath now urlencode analysis rst wiki = Ok out /\ ~ well_formed out.
Proof. exact well_refuted. Qed.
Print Assumptions C128_refuted.
(* with a URL that has an ampersand *)
Example C128_refuted_case : match html design_names [] [] (fun _ => []) (fun _ => Ok []) (fun s => Ok []) (L "http://a.b/?c=d&copy=2") with
  Ok out => ~ well_formed out | Exc _ => False end.
Proof.
  match goal with |- match ?h with _ => _ end => destruct h as [out|] eqn:E; vm_compute in E; [|discriminate] end. injection E as <-. intro W. apply well_refers in W.
  match type of W with referring ?o => destruct (W (firstn 114 o) (skipn 115 o) eq_refl) as (t & r & I & E) end. cbn in I. repeat (destruct I as [<-|I]; [discriminate E|]). destruct I.
Qed.

(* C128: the HTML of every other text of legal characters is well formed, if no label of a link has a quotation mark *)
Theorem C128_partial : forall design_order wikipath now urlencode analysis rst,
  Permutation design_order design_names -> legal_text now -> plain now -> references now -> legal_text wikipath -> quiet wikipath -> (forall p, legal_text (urlencode p) /\ quiet (urlencode p)) ->
  (forall p ts t, analysis p = Ok ts -> In t ts -> table_fit t) -> (forall s o, legal_text s -> rst s = Ok o -> well_formed o) ->
  forall wiki out, legal_text wiki -> ~ quoted_label wiki -> ~ amp_url wiki -> html design_order wikipath now urlencode analysis rst wiki = Ok out -> well_formed out.
Proof. exact wiki_well. Qed.
Print Assumptions C128_partial.
(* a table of the analysis, a document of docutils, and a page with everything *)
Definition fit_table : table := mktable (L "cube") [(L "odd", [mkcell false [("colspan", L "2"); ("class", L "a&b")] (L "a &lt; b")])].
Definition fit_rst (s : str) : res str := Ok (L "<p>" ++ escape s ++ L "</p>").
Definition fit_page : str -> res str := html design_names (L "/wiki/") (L "12:00") (fun _ => L "gnubgid=x&width=400") (fun _ => Ok [fit_table]) fit_rst.
Definition everything : str := lines_text [L "[[TableOfContent]]"; L "= R&D ="; L "'''bold ''both''' x''[[BR]]"; L " * item <b>"; L "   1. inner"; L "||a ""b"" ||c||"; L ">> x <y>";
  L "[http://a.b/?c label] WikiName m12 [[Position(4HPwATDgc/ABMA:cAkAAAAAAAAA)]] [[Analysis(4HPwATDgc/ABMA:cAkAAAAAAAAA)]] [[Nothing]]"; L "{{{"; L "<b>"; L "}}}"; L "{{{"; L "#!rst"; L "<&"; L "}}}"].
Example everything_urls : ~ amp_url everything.
Proof.
  assert (N : forall k, k <= 600 -> forall sc, In sc [L "http://"; L "https://"] -> str_eqb (firstn (List.length sc) (skipn k everything)) sc = true ->
    existsb (Ascii.eqb "&") ((fix run (s : str) := match s with c :: s => if url_char c then c :: run s else [] | [] => [] end) (skipn (k + List.length sc) everything)) = false).
  { intros k Hk sc I.
    assert (F : forallb (fun k => forallb (fun sc => negb (str_eqb (firstn (List.length sc) (skipn k everything)) sc) || negb (existsb (Ascii.eqb "&") ((fix run (s : str) := match s with c :: s => if url_char c then c :: run s else [] | [] => [] end) (skipn (k + List.length sc) everything)))) [L "http://"; L "https://"]) (seq 0 601) = true) by (vm_compute; reflexivity).
    rewrite forallb_forall in F. assert (Ik : In k (seq 0 601)) by (apply in_seq; split; [apply Nat.le_0_l|apply Nat.lt_succ_r; exact Hk]). specialize (F k Ik). rewrite forallb_forall in F. specialize (F sc I).
    apply orb_true_iff in F. intro H. rewrite H in F. destruct F as [F|F]; [discriminate F|]. apply negb_true_iff in F. exact F. }
  intros (sc & u & I & U & A & a & b & W).
  assert (La : List.length a <= 600). { assert (Hl : List.length everything <= 600) by (vm_compute; repeat constructor). rewrite W in Hl. rewrite app_length in Hl. eapply Nat.le_trans; [apply Nat.le_add_r|exact Hl]. }
  specialize (N (List.length a) La sc I). rewrite W in N.
  assert (S1 : skipn (List.length a) (a ++ (sc ++ u) ++ b) = sc ++ u ++ b) by (rewrite skipn_app, skipn_all, Nat.sub_diag; cbn [skipn app]; rewrite <- app_assoc; reflexivity).
  rewrite S1 in N. assert (S2 : firstn (List.length sc) (sc ++ u ++ b) = sc) by (rewrite firstn_app, firstn_all, Nat.sub_diag; apply app_nil_r). rewrite S2 in N.
  assert (S3 : skipn (List.length a + List.length sc) (a ++ (sc ++ u) ++ b) = u ++ b).
  { rewrite <- (app_assoc sc). rewrite (app_assoc a). rewrite <- app_length. rewrite skipn_app, skipn_all, Nat.sub_diag. reflexivity. }
  rewrite S3 in N. assert (Sr : str_eqb sc sc = true) by (apply PyFacts.str_eqb_eq; reflexivity). specialize (N Sr). clear - U A N.
  induction u as [|c u IH]; [destruct A|]. cbn [app] in N. rewrite (U c (or_introl eq_refl)) in N. cbn [existsb] in N. apply orb_false_iff in N. destruct N as [N1 N2].
  destruct A as [->|A]; [discriminate N1|]. apply IH; first [exact A|exact N2|intros x J; apply U; right; exact J].
Qed.
Example C128_partial_case : match fit_page everything with Ok out => well_formed out | Exc _ => False end.
Proof.
  destruct (fit_page everything) as [out|] eqn:E; [|vm_compute in E; discriminate].
  revert E. apply C128_partial.
  - apply Permutation_refl.
  - apply WikiKeep.lg_list. reflexivity.
  - intros c I. cbn in I. repeat (destruct I as [<-|I]; [split; discriminate|]). destruct I.
  - apply WikiInv.references_list. reflexivity.
  - apply WikiKeep.lg_list. reflexivity.
  - intro I. cbn in I. repeat (destruct I as [I|I]; [discriminate I|]). exact I.
  - intros p. split; [apply WikiKeep.lg_list; reflexivity|]. intro I. cbn in I. repeat (destruct I as [I|I]; [discriminate I|]). exact I.
  - intros p ts t E I. injection E as <-. destruct I as [<-|[]]. split; [apply WikiKeep.lg_list; reflexivity|]. split; [intro I; cbn in I; repeat (destruct I as [I|I]; [discriminate I|]); exact I|].
    intros r [<-|[]]. split; [apply WikiKeep.lg_list; reflexivity|]. split; [intro I; cbn in I; repeat (destruct I as [I|I]; [discriminate I|]); exact I|].
    intros c [<-|[]]. split; [apply WikiKeep.lg_list; reflexivity|]. split; [apply TreeHtml.plain_list; reflexivity|]. split.
    { apply (WikiInv.references_app (L "a ")); [apply WikiInv.references_list; reflexivity|]. apply (WikiInv.references_app ("&"%char :: L "lt;") (L " b")); [apply WikiInv.references_one; left; reflexivity|apply WikiInv.references_list; reflexivity]. }
    split; [repeat constructor; cbn; intuition discriminate|].
    intros k v [E|[E|[]]]; injection E as <- <-; (split; [split; [discriminate|apply forallb_forall; reflexivity]|]; split; [reflexivity|]; split; [apply WikiKeep.lg_list; reflexivity|]; intro I; cbn in I; repeat (destruct I as [I|I]; [discriminate I|]); exact I).
  - intros s o H E. injection E as <-. apply (simple_well "p"); [reflexivity|]. apply wf_data. apply data_escape. exact H.
  - apply WikiKeep.lg_list. vm_compute. reflexivity.
  - apply labels_unquoted. vm_compute. reflexivity.
  - exact everything_urls.
Qed.
