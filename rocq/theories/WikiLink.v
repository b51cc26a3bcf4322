(* Proofs about the link that is made of a URL *)
From Verif Require Import Py PyFacts Re Rx RxFacts HtmlModel HtmlSpec HtmlProofs TreeModel TreeSpec TreeProofs TreeVisit TreeHtml TreeText TocModel TocSpec TocProofs WikiModel WikiSpec WikiInv WikiMatch WikiWalk WikiText WikiToc WikiProofs WikiAttrs.
From Coq Require Import Permutation.
Open Scope string_scope.
Open Scope list_scope.
Open Scope nat_scope.

Lemma run_first : forall i l k st r x, nth_error l i = Some r -> (forall j q, j < i -> nth_error l j = Some q -> run q k st = None) -> run r k st = Some x -> run (xalts l) k st = Some x.
Proof.
  induction i as [|i IH]; intros [|q l] k st r x H N R; try discriminate.
  - injection H as ->. destruct l as [|q2 l]; [exact R|]. change (xalts (r :: q2 :: l)) with (XAlt r (xalts (q2 :: l))). cbn [run]. rewrite R. reflexivity.
  - cbn in H. destruct l as [|q2 l]; [destruct i; discriminate|]. change (xalts (q :: q2 :: l)) with (XAlt q (xalts (q2 :: l))). cbn [run].
    rewrite (N 0 q (ltac:(lia)) eq_refl). apply (IH (q2 :: l) k st r x H); [|exact R]. intros j p Lt Hj. apply (N (S j) p (ltac:(lia)) Hj).
Qed.
Definition url_set : cset := Ranges false [("a", "z"); ("A", "Z"); ("0", "9"); xone "_"; xone "~"; xone "#"; xone "="; xone "?"; xone "."; xone "/"; xone "-"; xone "&"; xone "%"]%char.
Lemma url_in : forall c, url_char c = true -> inset url_set c = true.
Proof.
  intros c H. assert (G : forallb (fun n => implb (url_char (ascii_of_nat n)) (inset url_set (ascii_of_nat n))) (seq 0 256) = true) by (vm_compute; reflexivity).
  rewrite forallb_forall in G. specialize (G (nat_of_ascii c)). rewrite ascii_nat_embedding in G. rewrite H in G. apply G. apply in_seq. pose proof (nat_ascii_bounded c). lia.
Qed.
Lemma url_match : forall scheme u, In scheme [L "http://"; L "https://"] -> u <> [] -> (forall c, In c u -> url_char c = true) ->
  matches (scheme ++ u) = [[("_pattern_auto_anchor", scheme ++ u); ("url_2", scheme ++ u)]].
Proof.
  intros scheme u I N U.
  assert (R : run (regexp line_patterns) Some (mkspot true (scheme ++ u) []) = Some (mkspot false [] [("_pattern_auto_anchor", scheme ++ u); ("url_2", scheme ++ u)])).
  { unfold regexp. apply run_first with (i := 23) (r := XGroup "_pattern_auto_anchor" (XCat bang (url "url_2"))); [reflexivity| |].
    - intros j q Lt Hj. cbn in I. destruct I as [<-|[<-|[]]].
      all: do 23 (destruct j as [|j]; [injection Hj as <-; reflexivity|]); lia.
    - set (line := scheme ++ u).
      assert (St : forall K, (forall f', K (mkspot f' [] []) = Some (mkspot f' [] [("_pattern_auto_anchor", line); ("url_2", line)])) ->
        run (xplus (XChr url_set)) K (mkspot false u []) = Some (mkspot false [] [("_pattern_auto_anchor", line); ("url_2", line)])).
      { intros K HK. destruct u as [|c u']; [congruence|].
        transitivity (if inset url_set c then run (XStar (XChr url_set)) K (mkspot false u' []) else None); [reflexivity|].
        rewrite url_in by (apply U; left; reflexivity).
        rewrite (run_star_all url_set K u' false [] (fun f' => mkspot f' [] [("_pattern_auto_anchor", line); ("url_2", line)])); [destruct u'; reflexivity| |exact HK].
        intros d Id. apply url_in. apply U. right. exact Id. }
      pose (K := fun st' => Some (mkspot (fresh st') (left st') (("_pattern_auto_anchor", between line (left st')) :: ("url_2", between line (left st')) :: caps st'))).
      assert (E : run (XGroup "_pattern_auto_anchor" (XCat bang (url "url_2"))) Some (mkspot true line []) = match run (xplus (XChr url_set)) K (mkspot false u []) with Some x => Some x | None => None end).
      { cbn in I. destruct I as [<-|[<-|[]]]; [|reflexivity].
        transitivity (run (xplus (XChr url_set)) K (mkspot false u [])); [reflexivity|]. destruct (run (xplus (XChr url_set)) K (mkspot false u [])); reflexivity. }
      rewrite E. rewrite St; [reflexivity|]. intro f'. unfold K, between. cbn [fresh left caps List.length]. rewrite Nat.sub_0_r, firstn_all. reflexivity. }
  unfold matches, find_all. cbn [finditer]. rewrite R. cbn [left caps List.length].
  assert (P : 0 < List.length (scheme ++ u)) by (rewrite app_length; destruct u; [congruence|cbn; lia]).
  destruct (Nat.ltb_spec 0 (List.length (scheme ++ u))); [|lia]. f_equal. destruct (List.length (scheme ++ u)) as [|n]; [lia|]. cbn [finditer].
  replace (run (regexp line_patterns) Some (mkspot false [] [])) with (@None spot) by (vm_compute; reflexivity). reflexivity.
Qed.
Lemma one_split : forall s, one_line s -> s <> [] -> splitlines s = [s].
Proof.
  intros s O N. unfold splitlines. assert (G : forall s cur, one_line s -> rev cur ++ s <> [] -> split_lines cur s = [rev cur ++ s]); [|apply (G s [] O N)].
  clear. induction s as [|c s IH]; intros cur O N; cbn [split_lines].
  - rewrite app_nil_r in *. destruct cur; [elim N; reflexivity|reflexivity].
  - destruct (O c (or_introl eq_refl)) as [N1 N2]. destruct (Ascii.eqb_spec c (ascii_of_nat 13)); [contradiction|]. destruct (Ascii.eqb_spec c newline_char); [contradiction|].
    rewrite IH; [cbn [rev]; rewrite <- app_assoc; reflexivity|intros x I; apply O; right; exact I|cbn [rev]; destruct (rev cur); discriminate].
Qed.
Lemma url_line : forall scheme u, In scheme [L "http://"; L "https://"] -> (forall c, In c u -> url_char c = true) -> one_line (scheme ++ u).
Proof.
  intros scheme u I U c J. apply in_app_or in J. destruct J as [J|J].
  - cbn in I. destruct I as [<-|[<-|[]]]; cbn in J; repeat (destruct J as [<-|J]; [split; discriminate|]); destruct J.
  - specialize (U c J). split; intros ->; discriminate U.
Qed.
Lemma ends_no : forall s u, u <> [] -> ~ In ":"%char u -> ends_with "::" (s ++ u) = false.
Proof.
  intros s u N H. unfold ends_with. destruct (prefixed "::" (skipn (List.length (s ++ u) - List.length (L "::")) (s ++ u))) eqn:E; [|reflexivity]. exfalso. apply H.
  unfold prefixed in E. apply str_eqb_eq in E. set (t := skipn (List.length (s ++ u) - List.length (L "::")) (s ++ u)) in *.
  assert (Ht : List.length t <= 2) by (unfold t; rewrite skipn_length; cbn; lia).
  change (List.length (L "::")) with 2 in E. rewrite firstn_all2 in E by lia.
  assert (F : s ++ u = firstn (List.length (s ++ u) - 2) (s ++ u) ++ L "::") by (rewrite <- E; unfold t; symmetry; apply firstn_skipn).
  destruct (exists_last N) as (v & c & Hv). rewrite Hv in F. cbn [L list_ascii_of_string] in F.
  replace (firstn (List.length (s ++ v ++ [c]) - 2) (s ++ v ++ [c]) ++ [":"%char; ":"%char]) with ((firstn (List.length (s ++ v ++ [c]) - 2) (s ++ v ++ [c]) ++ [":"%char]) ++ [":"%char]) in F by (rewrite <- app_assoc; reflexivity).
  rewrite app_assoc in F at 1. apply app_inj_tail in F. destruct F as [_ ->]. rewrite Hv. apply in_or_app. right. left. reflexivity.
Qed.
Definition link_page (href label : str) : str :=
  L "<div>" ++ nl ++ L "<a class=" ++ [quote] ++ L "ext-link" ++ [quote] ++ L " title=" ++ [quote] ++ L "title" ++ [quote] ++ L " href=" ++ [quote] ++ escape href ++ [quote] ++ L ">" ++ nl
  ++ L "<span class=" ++ [quote] ++ L "icon" ++ [quote] ++ L ">" ++ nl ++ label ++ nl ++ L "</span>" ++ nl ++ L "</a>" ++ nl ++ L "</div>" ++ nl.
Lemma url_page : forall design_order wikipath now urlencode analysis rst scheme u, In scheme [L "http://"; L "https://"] -> u <> [] -> (forall c, In c u -> url_char c = true) ->
  html design_order wikipath now urlencode analysis rst (scheme ++ u) = Ok (link_page (escape (scheme ++ u)) (scheme ++ u)).
Proof.
  intros design_order wikipath now urlencode analysis rst scheme u I N U. unfold html, parse.
  rewrite one_split; [|apply url_line; assumption|destruct u; [congruence|destruct scheme; discriminate]].
  pose proof (url_match scheme u I N U) as M. assert (Ew : ends_with "::" (scheme ++ u) = false) by (apply ends_no; [exact N|intro J; specialize (U _ J); discriminate U]).
  assert (Hd : exists v, scheme ++ u = "h"%char :: v) by (cbn in I; destruct I as [<-|[<-|[]]]; eexists; reflexivity). clear I N U. destruct Hd as [v Hv]. rewrite Hv in *. clear Hv scheme u.
  cbn [m_each]. unfold andthen at 1, parse_line. cbn [current new_doc nodes nth_error root cls]. unfold line_parse. rewrite Ew, M. clear Ew M.
  transitivity (Ok (L "<div>" ++ nl ++ L "<a class=" ++ [quote] ++ L "ext-link" ++ [quote] ++ L " title=" ++ [quote] ++ L "title" ++ [quote] ++ L " href=" ++ [quote] ++ ((escape (escape ("h"%char :: v)) ++ [quote]) ++ L ">" ++ nl)
    ++ L "<span class=" ++ [quote] ++ L "icon" ++ [quote] ++ L ">" ++ nl ++ ("h"%char :: v) ++ nl ++ L "</span>" ++ nl ++ L "</a>" ++ nl ++ L "</div>" ++ nl)); [vm_compute; reflexivity|].
  unfold link_page. f_equal. repeat rewrite <- app_assoc. reflexivity.
Qed.
Lemma next_less : forall x y a b, ~ In "<"%char x -> x ++ "<"%char :: y = a ++ "<"%char :: b -> (a = x /\ b = y) \/ exists a', a = x ++ "<"%char :: a' /\ y = a' ++ "<"%char :: b.
Proof.
  induction x as [|c x IH]; intros y a b N E.
  - destruct a as [|d a]; cbn [app] in E; [left; injection E as ->; auto|]. injection E as <- ->. right. exists a. auto.
  - destruct a as [|d a]; cbn [app] in E; [injection E as -> _; elim N; left; reflexivity|]. injection E as <- E.
    destruct (IH y a b (fun I => N (or_intror I)) E) as [[-> ->]|(a' & -> & ->)]; [left; auto|right; exists a'; auto].
Qed.
Lemma no_more : forall x a b, ~ In "<"%char x -> x <> a ++ "<"%char :: b.
Proof. intros x a b N ->. apply N. apply in_or_app. right. left. reflexivity. Qed.
Definition link_tag (href : str) : str :=
  L "a class=" ++ [quote] ++ L "ext-link" ++ [quote] ++ L " title=" ++ [quote] ++ L "title" ++ [quote] ++ L " href=" ++ [quote] ++ escape href ++ [quote] ++ L ">" ++ nl.
Lemma link_page_eq : forall href label, link_page href label =
  "<"%char :: (L "div>" ++ nl) ++ "<"%char :: link_tag href ++ "<"%char :: ((L "span class=" ++ [quote] ++ L "icon" ++ [quote] ++ L ">" ++ nl) ++ label ++ nl)
  ++ "<"%char :: (L "/span>" ++ nl) ++ "<"%char :: (L "/a>" ++ nl) ++ "<"%char :: (L "/div>" ++ nl).
Proof.
  intros href label. unfold link_page, link_tag. repeat (progress cbn [app L list_ascii_of_string nl] || rewrite <- app_assoc). reflexivity.
Qed.
Lemma link_read : forall href rest, ~ In quote href -> attributes ("<"%char :: link_tag href ++ rest) = Some [(L "class", L "ext-link"); (L "title", L "title"); (L "href", href)].
Proof.
  intros href rest Q.
  destruct (attributes_partial [] (mknode Anchor [("class", VStr (L "ext-link")); ("title", VStr (L "title")); ("href", VStr href)] [] None None []) "a" [("class", L "ext-link"); ("title", L "title"); ("href", href)]) as (o & Eo & _ & R).
  - intro I. cbn in I. repeat (destruct I as [I|I]; [discriminate I|]). exact I.
  - reflexivity.
  - reflexivity.
  - intros k s I. cbn in I. repeat (destruct I as [E|I]; [injection E as <- <-; apply good_key_of; [discriminate|reflexivity]|]). destruct I.
  - assert (Ho : o = "<"%char :: link_tag href).
    { assert (G : open [] (mknode Anchor [("class", VStr (L "ext-link")); ("title", VStr (L "title")); ("href", VStr href)] [] None None []) = Ok ("<"%char :: link_tag href)); [|congruence].
      unfold open, generic_open. cbn [cls attrs html_element mapM attr_string fst snd bind]. f_equal. unfold link_tag. cbn [join_attrs]. repeat (progress cbn [app L list_ascii_of_string nl] || rewrite <- app_assoc). reflexivity. }
    subst o. change ("<"%char :: link_tag href ++ rest) with (("<"%char :: link_tag href) ++ rest). unfold attributes in *. apply read_more. apply R.
    intros k s I. cbn in I. destruct I as [E|[E|[E|[]]]]; injection E as <- <-; [apply quiet_list; reflexivity|apply quiet_list; reflexivity|exact Q].
Qed.
Lemma less_list : forall s, forallb (fun c => negb (Ascii.eqb c "<")) s = true -> ~ In "<"%char s.
Proof. intros s H I. rewrite forallb_forall in H. specialize (H _ I). discriminate. Qed.
Lemma less_app : forall a b, ~ In "<"%char a -> ~ In "<"%char b -> ~ In "<"%char (a ++ b).
Proof. intros a b Ha Hb I. apply in_app_or in I. tauto. Qed.
Lemma link_target : forall href label h, ~ In quote href -> ~ In "<"%char label -> links (link_page href label) h <-> h = href.
Proof.
  intros href label h Q Nl. rewrite link_page_eq. split.
  - intros (a & b & l & E & Ra & Ih). change (L "<a " ++ b) with ("<"%char :: L "a " ++ b) in E, Ra.
    change ("<"%char :: (L "div>" ++ nl) ++ ?x) with ([] ++ "<"%char :: (L "div>" ++ nl) ++ x) in E.
    apply next_less in E; [|intros []]. destruct E as [[_ E]|(a1 & _ & E)]; [discriminate E|].
    apply next_less in E; [|apply less_list; reflexivity]. destruct E as [[_ E]|(a2 & _ & E)].
    + rewrite E in Ra. rewrite link_read in Ra by exact Q. injection Ra as <-. cbn in Ih. destruct Ih as [H|[H|[H|[]]]]; [discriminate H|discriminate H|]. injection H as <-. reflexivity.
    + apply next_less in E.
      2:{ unfold link_tag. repeat (apply less_app; [first [apply less_list; reflexivity|intro I; destruct (plain_escape href _ I); congruence]|]). apply less_list. reflexivity. }
      destruct E as [[_ E]|(a3 & _ & E)]; [discriminate E|].
      apply next_less in E; [|apply less_app; [apply less_list; reflexivity|apply less_app; [exact Nl|apply less_list; reflexivity]]]. destruct E as [[_ E]|(a4 & _ & E)]; [discriminate E|].
      apply next_less in E; [|apply less_list; reflexivity]. destruct E as [[_ E]|(a5 & _ & E)]; [discriminate E|].
      apply next_less in E; [|apply less_list; reflexivity]. destruct E as [[_ E]|(a6 & _ & E)]; [discriminate E|].
      exfalso. revert E. apply no_more. apply less_list. reflexivity.
  - intros ->. exists ("<"%char :: (L "div>" ++ nl)). eexists. exists [(L "class", L "ext-link"); (L "title", L "title"); (L "href", href)]. split; [reflexivity|]. split; [|cbn; auto].
    exact (link_read href _ Q).
Qed.
Lemma url_links : forall design_order wikipath now urlencode analysis rst scheme u, In scheme [L "http://"; L "https://"] -> u <> [] -> (forall c, In c u -> url_char c = true) ->
  exists out, html design_order wikipath now urlencode analysis rst (scheme ++ u) = Ok out /\ (forall h, links out h <-> h = escape (scheme ++ u)) /\ (links out (scheme ++ u) <-> ~ In "&"%char u).
Proof.
  intros design_order wikipath now urlencode analysis rst scheme u I N U. eexists. split; [apply url_page; assumption|].
  assert (Hc : forall c, In c (scheme ++ u) -> c <> quote /\ c <> "<"%char /\ c <> ">"%char).
  { intros c J. apply in_app_or in J. destruct J as [J|J].
    - cbn in I. destruct I as [<-|[<-|[]]]; cbn in J; repeat (destruct J as [<-|J]; [repeat split; discriminate|]); destruct J.
    - specialize (U c J). repeat split; intros ->; discriminate U. }
  assert (Lk : forall h, links (link_page (escape (scheme ++ u)) (scheme ++ u)) h <-> h = escape (scheme ++ u)).
  { intro h. apply link_target; [apply quiet_escape; intro J; destruct (Hc _ J); congruence|intro J; destruct (Hc _ J) as (_ & J2 & _); congruence]. }
  split; [exact Lk|]. rewrite Lk.
  assert (Es : forall s, (forall c, In c s -> c <> "<"%char /\ c <> ">"%char /\ c <> "&"%char) -> escape s = s).
  { induction s as [|c s IH]; intro H; [reflexivity|]. change (escape (c :: s)) with (escape_char c ++ escape s). rewrite IH by (intros x J; apply H; right; exact J).
    destruct (H c (or_introl eq_refl)) as (H1 & H2 & H3). destruct (HtmlProofs.escape_char_cases c) as [[-> _]|[[-> _]|[[-> _]|[_ ->]]]]; congruence || reflexivity. }
  split; [|intro Na; symmetry; apply Es; intros c J; destruct (Hc _ J) as (_ & J2 & J3); split; [exact J2|]; split; [exact J3|]; intros ->; apply in_app_or in J; destruct J as [J|J];
    [cbn in I; destruct I as [<-|[<-|[]]]; cbn in J; repeat (destruct J as [J|J]; [discriminate J|]); destruct J|exact (Na J)]].
  intros E Ia. assert (Len : List.length (escape (scheme ++ u)) = List.length (scheme ++ u)) by congruence. clear - Ia Len.
  assert (Le : forall s, List.length s <= List.length (escape s)).
  { induction s as [|c s IH]; [cbn; lia|]. change (escape (c :: s)) with (escape_char c ++ escape s). rewrite app_length. cbn [List.length].
    destruct (HtmlProofs.escape_char_cases c) as [[_ ->]|[[_ ->]|[[_ ->]|[_ ->]]]]; cbn; lia. }
  apply in_split in Ia. destruct Ia as (x & y & ->). unfold escape in Len. rewrite !flat_map_app in Len. cbn [flat_map] in Len. rewrite !app_length in Len. cbn [List.length] in Len.
  pose proof (Le scheme). pose proof (Le x). pose proof (Le y). unfold escape in *. change (List.length (escape_char "&")) with 5 in Len. lia.
Qed.
Lemma url_refuted : exists design_order wikipath now urlencode analysis rst url out, Permutation design_order design_names
  /\ url = L "http://a.b/?c=d&e=f" /\ html design_order wikipath now urlencode analysis rst url = Ok out
  /\ links out (L "http://a.b/?c=d&amp;e=f") /\ forall h, links out h -> h <> url.
Proof.
  destruct (url_links design_names [] [] (fun _ => []) (fun _ => Ok []) (fun s => Ok []) (L "http://") (L "a.b/?c=d&e=f") (or_introl eq_refl) (ltac:(discriminate))) as (out & H1 & H2 & _).
  { intros c I. cbn in I. repeat (destruct I as [<-|I]; [reflexivity|]). destruct I. }
  exists design_names, [], [], (fun _ => []), (fun _ => Ok []), (fun s => Ok []), (L "http://a.b/?c=d&e=f"), out. split; [apply Permutation_refl|]. split; [reflexivity|]. split; [exact H1|].
  split; [apply H2; reflexivity|]. intros h Hh ->. apply H2 in Hh. discriminate Hh.
Qed.
