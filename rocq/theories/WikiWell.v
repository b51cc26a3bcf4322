(* Proofs that pages are well formed *)
From Verif Require Import Py PyFacts Re Rx RxFacts HtmlModel HtmlSpec HtmlProofs TreeModel TreeSpec TreeProofs TreeVisit TreeHtml TreeText TocModel TocSpec TocProofs WikiModel WikiSpec WikiInv WikiMatch WikiWalk WikiText WikiToc WikiProofs WikiAmp WikiKeep WellSpec.
From Verif Require XmlSpec.
From Coq Require Import Permutation.
Open Scope string_scope.
Open Scope list_scope.
Open Scope nat_scope.

Notation wfd := well_formed.
Notation is_name := XmlSpec.is_name.
Lemma wf_app : forall a b, wfd a -> wfd b -> wfd (a ++ b).
Proof.
  intros a b H Hb. induction H as [|t s T _ IH|n a gap s N A G _ IH|n a i s N A Hi _ _ IH].
  - exact Hb.
  - rewrite <- app_assoc. apply wf_text; assumption.
  - rewrite <- !app_assoc. apply wf_empty; assumption.
  - rewrite <- !app_assoc. apply wf_element; assumption.
Qed.
Lemma wf_data : forall t, char_data t -> wfd t.
Proof. intros t H. rewrite <- (app_nil_r t). apply wf_text; [exact H|exact wf_none]. Qed.
Lemma wf_concat : forall ss, (forall s, In s ss -> wfd s) -> wfd (List.concat ss).
Proof. induction ss as [|s ss IH]; intro H; cbn [List.concat]; [exact wf_none|]. apply wf_app; [apply H; left; reflexivity|apply IH; intros x I; apply H; right; exact I]. Qed.
Lemma refers : forall s, references s -> referring s.
Proof. intros s H a b E. destruct (H a b E) as (t & r & I & E'). exists t, r. split; [cbn in *; tauto|exact E']. Qed.
Lemma data_list : forall s, lgb s = true -> forallb (fun c => negb (Ascii.eqb c "<") && negb (Ascii.eqb c ">")) s = true -> forallb (fun c => negb (Ascii.eqb c "&")) s = true -> char_data s.
Proof. intros s H1 H2 H3. split; [apply lg_list; exact H1|]. split; [apply plain_list; exact H2|]. apply refers. apply references_list. exact H3. Qed.
Lemma data_escape : forall s, lg s -> char_data (escape s).
Proof. intros s H. split; [apply lg_escape; exact H|]. split; [apply plain_escape|]. apply refers. apply references_escape. Qed.
Lemma quiet_escape : forall s, quiet s -> quiet (escape s).
Proof.
  induction s as [|c s IH]; intros H I; [exact I|]. change (escape (c :: s)) with (escape_char c ++ escape s) in I. apply in_app_or in I. destruct I as [I|I].
  - assert (N : c <> quote) by (intros ->; apply H; left; reflexivity). unfold escape_char in I.
    revert N I. destruct c as [[] [] [] [] [] [] [] []]; intros N I; cbn in I; repeat (destruct I as [I|I]; [first [discriminate I|apply N; exact I]|]); exact I.
  - apply IH; [|exact I]. intro J. apply H. right. exact J.
Qed.
Lemma wf_nl : wfd nl.
Proof. apply wf_data. apply data_list; reflexivity. Qed.
Lemma none_list : att_list [].
Proof. split; [constructor|intros k v []]. Qed.
Lemma L_inj : forall a b, L a = L b -> a = b.
Proof. intros a b H. rewrite <- (string_of_list_ascii_of_string a), <- (string_of_list_ascii_of_string b). f_equal. exact H. Qed.
Definition escaped (a : list (string * str)) : list (str * str) := map (fun kv => (L (fst kv), escape (snd kv))) a.
Lemma escaped_list : forall b, NoDup (map fst b) -> (forall k s, In (k, s) b -> is_name (L k) = true /\ lg s /\ quiet s) -> att_list (escaped b).
Proof.
  intros b N H. split.
  - unfold escaped. rewrite map_map. cbn [fst]. clear H. induction b as [|[k s] b IH]; [constructor|]. inversion N as [|? ? N1 N2]; subst. cbn [map fst]. constructor; [|apply IH; exact N2].
    intro I. apply N1. apply in_map_iff in I. destruct I as ([k' s'] & E & I). cbn [fst] in E. apply L_inj in E. subst k'. apply in_map_iff. exists (k, s'). auto.
  - intros k v I. unfold escaped in I. apply in_map_iff in I. destruct I as ([k' s] & E & I). cbn [fst snd] in E. injection E as <- <-. destruct (H _ _ I) as (H1 & H2 & H3).
    split; [exact H1|]. split; [apply data_escape; exact H2|apply quiet_escape; exact H3].
Qed.
Lemma written_attrs : forall b l, mapM attr_string (strings b) = Ok l -> match join_attrs l with [] => [] | _ => L " " ++ join_attrs l end = written (escaped b).
Proof.
  assert (H0 : forall b l, mapM attr_string (strings b) = Ok l -> b <> [] -> L " " ++ join_attrs l = written (escaped b)).
  { induction b as [|[k s] b IH]; intros l H N; [congruence|]. cbn [strings map mapM fst snd] in H. unfold bind in H. unfold attr_string at 1 in H. cbn [fst snd] in H.
    fold (strings b) in H. destruct (mapM attr_string (strings b)) as [r|] eqn:E; [|discriminate].
    assert (Hl : l = (L k ++ L "=" ++ [ascii_of_nat 34] ++ escape s ++ [ascii_of_nat 34]) :: r) by (symmetry; apply (f_equal (fun x => match x with Ok a => a | Exc _ => [] end)) in H; exact H). subst l. clear H.
    change (written (escaped ((k, s) :: b))) with ((L " " ++ L k ++ L "=" ++ [quote] ++ escape s ++ [quote]) ++ written (escaped b)).
    destruct b as [|x b]; [cbn in E; injection E as <-; cbn [join_attrs escaped map written flat_map]; rewrite app_nil_r; reflexivity|].
    rewrite <- (IH r eq_refl ltac:(discriminate)). destruct r as [|y r].
    { exfalso. cbn [strings map mapM] in E. unfold bind in E. destruct (attr_string _); [|discriminate]. destruct (mapM attr_string _); discriminate. }
    change (join_attrs ((L k ++ L "=" ++ [ascii_of_nat 34] ++ escape s ++ [ascii_of_nat 34]) :: y :: r)) with ((L k ++ L "=" ++ [ascii_of_nat 34] ++ escape s ++ [ascii_of_nat 34]) ++ L " " ++ join_attrs (y :: r)).
    rewrite <- !app_assoc. reflexivity. }
  intros [|x b] l H; [cbn in H; injection H as <-; reflexivity|]. rewrite <- (H0 _ _ H ltac:(discriminate)).
  destruct (join_attrs l) as [|c j] eqn:E; [|reflexivity]. exfalso. destruct (join_shape (strings (x :: b)) l H) as (y & Ey); [discriminate|]. rewrite E in Ey. destruct y; discriminate.
Qed.
Definition named_key : string -> Prop := fun k => is_name (L k) = true.
Notation cared := (mkcare true true).
Lemma strings_of : forall a, Forall (value_ok cared named_key) a -> fits a -> exists b, a = strings b /\ att_list (escaped b).
Proof.
  intros a H [N F].
  assert (G : exists b, a = strings b /\ forall k s, In (k, s) b -> is_name (L k) = true /\ quiet s).
  { clear N F. induction H as [|[k v] a (_ & K & s & E & Q) _ (b & -> & Hb)]; [exists []; split; [reflexivity|intros k s []]|]. cbn [fst snd] in *. subst v. exists ((k, s) :: b).
    split; [reflexivity|]. intros x y [I|I]; [injection I as <- <-; split; [exact K|apply Q; reflexivity]|apply (Hb x y I)]. }
  destruct G as (b & -> & Hb). exists b. split; [reflexivity|]. apply escaped_list.
  - unfold strings in N. rewrite map_map in N. exact N.
  - intros k s I. destruct (Hb k s I) as [H1 H2]. split; [exact H1|]. split; [|exact H2]. apply (F k). apply in_map_iff. exists (k, s). auto.
Qed.
Lemma pair_well : forall n a inside, is_name n = true -> att_list a -> wfd inside -> wfd (L "<" ++ n ++ written a ++ L ">" ++ inside ++ L "</" ++ n ++ L ">").
Proof. intros n a inside N A H. pose proof (wf_element n a inside [] N A H wf_none) as W. rewrite app_nil_r in W. exact W. Qed.
Lemma simple_well : forall n inside, is_name (L n) = true -> wfd inside -> wfd (L "<" ++ L n ++ L ">" ++ inside ++ L "</" ++ L n ++ L ">").
Proof. intros n inside N H. exact (pair_well (L n) [] inside N none_list H). Qed.
Lemma class_well : forall n c inside, is_name (L n) = true -> lgb (L c) = true -> forallb (fun c => negb (Ascii.eqb c "<") && negb (Ascii.eqb c ">")) (L c) = true ->
  forallb (fun c => negb (Ascii.eqb c "&")) (L c) = true -> forallb (fun c => negb (Ascii.eqb c quote)) (L c) = true -> wfd inside ->
  wfd (L "<" ++ L n ++ L " class=" ++ [quote] ++ L c ++ [quote] ++ L ">" ++ inside ++ L "</" ++ L n ++ L ">").
Proof.
  intros n c inside N H1 H2 H3 H4 H. assert (A : att_list [(L "class", L c)]).
  { split; [repeat constructor; intros []|]. intros k v [E|[]]. injection E as <- <-. split; [reflexivity|]. split; [apply data_list; assumption|].
    intro I. rewrite forallb_forall in H4. specialize (H4 _ I). discriminate. }
  pose proof (pair_well (L n) [(L "class", L c)] inside N A H) as W. unfold written in W. cbn [flat_map fst snd] in W. rewrite app_nil_r in W. rewrite <- !app_assoc in W. exact W.
Qed.

Lemma class_pair : forall n cl e o c inside, o = L "<" ++ L n ++ L " class=" ++ [quote] ++ L cl ++ [quote] ++ L ">" ++ e -> c = L "</" ++ L n ++ L ">" ++ nl ->
  is_name (L n) = true -> lgb (L cl) = true -> forallb (fun c => negb (Ascii.eqb c "<") && negb (Ascii.eqb c ">")) (L cl) = true ->
  forallb (fun c => negb (Ascii.eqb c "&")) (L cl) = true -> forallb (fun c => negb (Ascii.eqb c quote)) (L cl) = true -> wfd e -> wfd inside -> wfd (o ++ inside ++ c).
Proof.
  intros n cl e o c inside -> -> N H1 H2 H3 H4 He H. pose proof (wf_app _ _ (class_well n cl (e ++ inside) N H1 H2 H3 H4 (wf_app _ _ He H)) wf_nl) as W.
  rewrite <- !app_assoc in W. rewrite <- !app_assoc. exact W.
Qed.
Lemma simple_pair : forall n e o c inside, o = L "<" ++ L n ++ L ">" ++ e -> c = L "</" ++ L n ++ L ">" ++ nl -> is_name (L n) = true -> wfd e -> wfd inside -> wfd (o ++ inside ++ c).
Proof.
  intros n e o c inside -> -> N He H. pose proof (wf_app _ _ (simple_well n (e ++ inside) N (wf_app _ _ He H)) wf_nl) as W.
  rewrite <- !app_assoc in W. rewrite <- !app_assoc. exact W.
Qed.
Lemma ok_is : forall (a b : str), Ok a = Ok b -> b = a.
Proof. intros a b H. congruence. Qed.

Section Node.
Variables (order : list string) (rst : str -> res str).
Hypothesis Hrst : forall s o, lg s -> rst s = Ok o -> wfd o.
Lemma node_well : forall tc md n o c inside, fine tc md cared named_key n -> fit_node n -> cls n <> MacroNode -> open order n = Ok o -> close order rst n = Ok c -> wfd inside -> wfd (o ++ inside ++ c).
Proof.
  intros tc md n o c inside (Pa & Pt & St) [Fa Ft] Nm Ho Hc Hi.
  assert (Gen : open order n = generic_open n -> close order rst n = Ok (generic_close n) -> Forall (value_ok cared named_key) (attrs n) -> wfd (o ++ inside ++ c)).
  { intros E1 E2 V. rewrite E1 in Ho. rewrite E2 in Hc. injection Hc as <-. unfold generic_open in Ho. unfold generic_close. destruct (html_element (cls n)) as [e|] eqn:He.
    2:{ injection Ho as <-. cbn [app]. rewrite app_nil_r. exact Hi. }
    destruct (strings_of _ V Fa) as (b & Eb & Ab). rewrite Eb in Ho. destruct (mapM attr_string (strings b)) as [l|] eqn:M; [|discriminate].
    cbv zeta in Ho. rewrite (written_attrs _ _ M) in Ho. apply (f_equal (fun x => match x with Ok a => a | Exc _ => [] end)) in Ho. cbv beta iota in Ho. subst o.
    assert (Ne : is_name (L e) = true) by (destruct (cls n); cbn in He; inversion He; reflexivity).
    destruct (is_single (cls n)).
    - rewrite app_nil_r. pose proof (wf_empty (L e) (escaped b) (L " ") (nl ++ inside) Ne Ab eq_refl (wf_app _ _ wf_nl Hi)) as W.
      rewrite <- !app_assoc. exact W.
    - pose proof (wf_element (L e) (escaped b) (nl ++ inside) nl Ne Ab (wf_app _ _ wf_nl Hi) wf_nl) as W. rewrite <- !app_assoc. rewrite <- !app_assoc in W. exact W. }
  unfold style_ok in St. destruct (cls n) eqn:K; try (elim Nm; reflexivity); try (destruct St; fail);
    try (solve [apply Gen; [unfold open; rewrite K; reflexivity|unfold close; rewrite K; reflexivity|first [exact St|exact (proj1 St)]]]).
  all: unfold open in Ho; unfold close in Hc; rewrite K in Ho, Hc.
  - apply ok_is in Ho, Hc. apply (class_pair "span" "underline" []); [rewrite Ho; reflexivity|rewrite Hc; unfold generic_close; rewrite K; reflexivity|reflexivity|reflexivity|reflexivity|reflexivity|reflexivity|exact wf_none|exact Hi].
  - apply ok_is in Ho, Hc. apply (class_pair "span" "monospace" []); [rewrite Ho; reflexivity|rewrite Hc; unfold generic_close; rewrite K; reflexivity|reflexivity|reflexivity|reflexivity|reflexivity|reflexivity|exact wf_none|exact Hi].
  - apply ok_is in Hc. assert (Ec : c = L "</" ++ L "li" ++ L ">" ++ nl) by (rewrite Hc; unfold generic_close; rewrite K; reflexivity).
    destruct (get (attrs n) "style") as [[s| | |]|]; try discriminate.
    + apply ok_is in Ho. apply (simple_pair "li" []); [exact Ho|exact Ec|reflexivity|exact wf_none|exact Hi].
    + destruct (sign_class (sign_of (attrs n))) as [w|] eqn:Es; [|discriminate]. apply ok_is in Ho. unfold sign_class in Es. destruct (sign_of (attrs n)) as [[s| | |]|]; try discriminate.
      repeat (match type of Es with (if ?b then _ else _) = _ => destruct b end; [injection Es as <-; eapply (class_pair "li" _ []); [rewrite Ho; reflexivity|exact Ec|reflexivity|reflexivity|reflexivity|reflexivity|reflexivity|exact wf_none|exact Hi]|]). discriminate.
  - apply ok_is in Ho, Hc. pose proof (simple_pair "blockquote" nl _ _ _ eq_refl eq_refl eq_refl wf_nl (simple_pair "p" nl _ _ _ eq_refl eq_refl eq_refl wf_nl Hi)) as W.
    rewrite Ho, Hc. rewrite <- !app_assoc in W. rewrite <- !app_assoc. exact W.
  - apply ok_is in Ho, Hc. rewrite Ho, Hc. apply (simple_pair "p" nl); try reflexivity; [apply wf_nl|exact Hi].
  - apply ok_is in Ho, Hc. rewrite Ho, Hc. apply (class_pair "blockquote" "citation" nl); try reflexivity; [apply wf_nl|exact Hi].
  - destruct (list_tag order n) as [[t k]|] eqn:El; [|discriminate]. apply ok_is in Hc. subst c.
    assert (Et : (t = "ul"%string \/ t = "ol"%string) /\ (k = None \/ k = Some "sign"%string \/ k = Some "loweralpha"%string \/ k = Some "lowerroman"%string)).
    { unfold list_tag in El. destruct (design_name order (attrs n)) as [name|]; [|discriminate]. unfold design_tag in El.
      repeat match type of El with (if ?b then _ else _) = _ => destruct b; [injection El as <- <-; auto|] end. discriminate. }
    destruct Et as [Et [-> |[-> |[-> | ->]]]]; apply ok_is in Ho; subst o; assert (Nt : is_name (L t) = true) by (destruct Et as [-> | ->]; reflexivity);
      first [apply (simple_pair t nl); [reflexivity|reflexivity|exact Nt|apply wf_nl|exact Hi]|eapply (class_pair t _ nl); [unfold class_attr; rewrite <- !app_assoc; reflexivity|reflexivity|exact Nt|reflexivity|reflexivity|reflexivity|reflexivity|apply wf_nl|exact Hi]].
  - apply ok_is in Ho, Hc. subst o c. apply wf_text; [|apply wf_app; [exact Hi|apply wf_nl]]. split; [exact Ft|]. split; [apply Pt; reflexivity|]. apply refers. apply St. reflexivity.
  - apply ok_is in Ho. subst o. cbn [app]. apply wf_app; [exact Hi|].
    assert (Pre : Ok (quoted "<pre class=" "wiki" ">" ++ escape (text n) ++ L "</pre>" ++ nl) = Ok c -> wfd c).
    { intro E. apply ok_is in E. subst c. apply (class_pair "pre" "wiki" []); try reflexivity; [exact wf_none|]. apply wf_data. apply data_escape. exact Ft. }
    destruct (processor n) as [p|]; [|exact (Pre Hc)]. repeat match type of Hc with context [match ?x with _ => _ end] => is_var x; destruct x; try exact (Pre Hc) end. exact (Hrst _ _ Ft Hc).
Qed.
End Node.

(* ---- tables of contents ---- *)
Fixpoint closes (d : nat) (s : str) : Prop :=
  match d with 0 => wfd s | S d => exists a b, s = a ++ L "</ol>" ++ b /\ wfd a /\ closes d b end.
Lemma closes_app : forall d a s, wfd a -> closes d s -> closes d (a ++ s).
Proof.
  intros [|d] a s H C; cbn [closes] in *; [apply wf_app; assumption|]. destruct C as (x & y & -> & Hx & Hy). exists (a ++ x), y. split; [rewrite <- !app_assoc; reflexivity|]. split; [apply wf_app; assumption|exact Hy].
Qed.
Lemma closes_close : forall d n s, closes d s -> closes (n + d) (lines n "</ol>" ++ s).
Proof.
  intros d n s C. induction n as [|n IH]; [exact C|]. cbn [lines Nat.add]. exists [], ([newline] ++ lines n "</ol>" ++ s). split; [rewrite <- !app_assoc; reflexivity|]. split; [exact wf_none|].
  apply closes_app; [apply wf_nl|exact IH].
Qed.
Lemma closes_open1 : forall d s, closes (S d) s -> closes d (L "<ol>" ++ [newline] ++ s).
Proof.
  intros d s (a & b & -> & Ha & Hb). pose proof (simple_well "ol" ([newline] ++ a) eq_refl (wf_app _ _ wf_nl Ha)) as W.
  pose proof (closes_app d _ _ W Hb) as C. rewrite <- !app_assoc in C. exact C.
Qed.
Lemma closes_open : forall n d s, closes (n + d) s -> closes d (lines n "<ol>" ++ s).
Proof.
  induction n as [|n IH]; intros d s C; [exact C|]. cbn [lines]. rewrite <- !app_assoc. apply closes_open1. apply IH. replace (n + S d) with (S n + d) by lia. exact C.
Qed.
Lemma mark_data : forall k, att_value (L "#" ++ mark k).
Proof.
  intros k. assert (H : forall c, In c (L "#" ++ mark k) -> c = "#"%char \/ key_char c = true) by (intros c [<-|I]; [left; reflexivity|right; apply mark_chars in I; exact I]).
  assert (F : forall c, c = "#"%char \/ key_char c = true -> XmlSpec.legal c = true /\ c <> "<"%char /\ c <> ">"%char /\ c <> "&"%char /\ c <> quote).
  { intros c [->|K]; [repeat split; discriminate|]. revert K. destruct c as [[] [] [] [] [] [] [] []]; intro K; try discriminate K; repeat split; discriminate. }
  split; [split; [intros c I; apply F; apply H; exact I|split]|].
  - intros c I. destruct (F c (H c I)) as (_ & F1 & F2 & _). auto.
  - intros a b E. exfalso. assert (I : In "&"%char (L "#" ++ mark k)) by (rewrite E; apply in_or_app; right; left; reflexivity). destruct (F _ (H _ I)) as (_ & _ & _ & F1 & _). congruence.
  - intro I. destruct (F _ (H _ I)) as (_ & _ & _ & _ & F1). congruence.
Qed.
Lemma item_well : forall k labels, (forall s, In s labels -> char_data s) ->
  wfd (L "<li><a href=" ++ [quote] ++ L "#" ++ mark k ++ [quote] ++ L ">" ++ [newline] ++ List.concat (map (fun s => s ++ [newline]) labels) ++ L "</a>" ++ [newline] ++ L "</li>" ++ [newline]).
Proof.
  intros k labels H. assert (A : att_list [(L "href", L "#" ++ mark k)]).
  { split; [repeat constructor; intros []|]. intros x v [E|[]]. assert (x = L "href" /\ v = L "#" ++ mark k) as [-> ->] by (split; congruence). split; [reflexivity|apply mark_data]. }
  assert (B : wfd (List.concat (map (fun s => s ++ [newline]) labels))).
  { apply wf_concat. intros s I. apply in_map_iff in I. destruct I as (x & <- & I). apply wf_app; [apply wf_data; apply H; exact I|apply wf_nl]. }
  pose proof (pair_well (L "a") _ ([newline] ++ List.concat (map (fun s => s ++ [newline]) labels)) eq_refl A (wf_app _ _ wf_nl B)) as W.
  pose proof (wf_app _ _ (simple_well "li" _ eq_refl (wf_app _ _ W wf_nl)) wf_nl) as W2. unfold WellSpec.written in W2. cbn [flat_map fst snd] in W2. rewrite app_nil_r in W2.
  rewrite <- !app_assoc in W2. exact W2.
Qed.
Lemma contents_closes : forall es d k, (forall l labels s, In (l, labels) es -> In s labels -> char_data s) -> closes (S d) (contents d k es).
Proof.
  induction es as [|[l labels] es IH]; intros d k H; cbn [contents].
  - pose proof (closes_close 0 (S d) [] wf_none) as C. rewrite app_nil_r in C. rewrite Nat.add_0_r in C. exact C.
  - apply closes_open. replace (l - d + S d) with (d - l + S l) by lia. apply closes_close.
    assert (C : closes (S l) (contents l (S k) es)) by (apply IH; intros l' b s I; apply (H l' b s); right; exact I).
    pose proof (closes_app _ _ _ (item_well k labels (fun s I => H l labels s (or_introl eq_refl) I)) C) as W. rewrite <- !app_assoc in W. exact W.
Qed.
Lemma table_well : forall es, (forall l labels s, In (l, labels) es -> In s labels -> char_data s) -> wfd (contents_html es).
Proof. intros es H. exact (closes_open1 0 _ (contents_closes es 0 0 H)). Qed.

(* ---- pages ---- *)
Section Doc.
Variables (order : list string) (rst : str -> res str) (tc : bool) (md : mode) (F : list (nat * (str * option string))) (d : doc).
Hypothesis Hrst : forall s o, lg s -> rst s = Ok o -> wfd o.
Hypothesis J : inv tc md cared named_key F d.
Hypothesis Fd : fit d.
Notation ns := (nodes d).
Lemma label_legal : forall i s, label ns i s -> lg s.
Proof.
  destruct Fd as [_ C]. intros i s (n & Hn & [(K & _ & ->)|(K & ss & G & ->)]); [apply (C _ _ Hn)|].
  clear - G C. induction G as [|i s l ss H _ IH]; [intros x []|]. cbn [List.concat]. apply lg_app; [|exact IH].
  destruct H as (q & Hq & [[Kq ->]|[_ ->]]); [apply (C _ _ Hq)|apply lg_list; reflexivity].
Qed.
Lemma kept_legal : forall hs es, Forall2 (entry_of ns) hs es -> forall l labels s, In (l, labels) (TocProofs.kept es) -> In s labels -> lg s.
Proof.
  intros hs es G l labels s I Is. unfold TocProofs.kept in I. apply in_map_iff in I. destruct I as (e & Ee & I). injection Ee as _ <-.
  revert I. induction G as [|i e0 hs es (n & Hn & _ & H) _ IH]; [intros []|]. intros [<-|I]; [|apply IH; exact I].
  clear - H Is Fd. induction H as [|c o cs os H _ IH]; [destruct Is|]. unfold keep in Is. cbn [flat_map] in Is. apply in_app_or in Is. destruct Is as [Is|Is]; [|apply IH; exact Is].
  destruct o as [t|]; [|destruct Is]. destruct Is as [<-|[]]. eapply label_legal. exact H.
Qed.
Lemma maybe_fit : forall n n', fit_node n -> maybe_marked n n' -> fit_node n'.
Proof.
  intros n n' [H1 H2] [->|(k & D & ->)]; [split; assumption|]. split; [|exact H2]. apply set_fits; [exact H1|]. intros s E. assert (s = mark k) as -> by congruence.
  destruct (mark_data k) as [[M _] _]. intros c I. apply M. right. exact I.
Qed.
Lemma pieces_well : forall hs es, Forall2 (entry_of ns) hs es -> forall f i vs ss, accept f ns i = Ok vs -> Forall2 (fun v s => piece order rst d es v (Ok s)) vs ss -> wfd (List.concat ss).
Proof.
  intros hs es He. induction f as [|f IH]; intros i vs ss H M; [discriminate|]. apply accept_inv in H. destruct H as (n & ls & f' & E & Hn & H & ->). injection E as <-.
  inversion M as [|? o ? r1 O1 M1]; subst. apply Forall2_app_inv_l in M1. destruct M1 as (r3 & r4 & M3 & M4 & ->). inversion M4 as [|? c ? r5 C1 C2]; subst. inversion C2; subst.
  assert (G : wfd (List.concat r3)).
  { clear - IH H M3. revert r3 M3. induction H as [|c l cs ls H1 H2 IH2]; intros r3 M3.
    - inversion M3; subst. exact wf_none.
    - cbn [List.concat] in M3. apply Forall2_app_inv_l in M3. destruct M3 as (a & b & Ma & Mb & ->). rewrite concat_app. apply wf_app; [exact (IH _ _ _ H1 Ma)|exact (IH2 b Mb)]. }
  cbn [List.concat]. rewrite concat_app. cbn [List.concat]. rewrite app_nil_r.
  cbn [piece] in O1, C1. destruct O1 as (n0 & Hn0 & O1). destruct C1 as (n2 & Hn2 & C1). rewrite Hn in Hn0, Hn2. injection Hn0 as <-. injection Hn2 as <-.
  destruct O1 as [[K O1]|(K & n' & Mk & O1)].
  - unfold table_text in O1. destruct (existsb _ es); [discriminate|]. injection O1 as ->. unfold close, generic_close in C1. rewrite K in C1. injection C1 as ->. rewrite app_nil_r. apply wf_app; [|exact G].
    apply table_well. intros l labels s I Is. split; [exact (kept_legal _ _ He l labels s I Is)|]. split; [exact (kept_plain _ _ _ _ _ d J _ _ He l labels s I Is)|].
    apply refers. exact (kept_whole _ _ cared _ _ d eq_refl J _ _ He l labels s I Is).
  - apply (node_well order rst Hrst tc md n'); [exact (maybe_fine _ _ _ _ (eq_refl : named_key "id") n n' (i_fine _ _ _ _ _ _ J i n Hn) Mk)| | |symmetry; exact O1| |exact G].
    + eapply maybe_fit; [apply (proj2 Fd _ _ Hn)|exact Mk].
    + rewrite (maybe_cls _ _ Mk). exact K.
    + rewrite (maybe_close _ _ _ _ Mk). symmetry. exact C1.
Qed.
End Doc.
Lemma wiki_well : forall design_order wikipath now urlencode analysis rst,
  Permutation design_order design_names -> legal_text now -> plain now -> references now -> legal_text wikipath -> quiet wikipath -> (forall p, legal_text (urlencode p) /\ quiet (urlencode p)) ->
  (forall p ts t, analysis p = Ok ts -> In t ts -> table_fit t) -> (forall s o, legal_text s -> rst s = Ok o -> well_formed o) ->
  forall wiki out, legal_text wiki -> ~ quoted_label wiki -> ~ amp_url wiki -> html design_order wikipath now urlencode analysis rst wiki = Ok out -> well_formed out.
Proof.
  intros design_order wikipath now urlencode analysis rst H1 Hn1 Hn2 Hn3 Hw1 Hw2 Hu Ha Hr wiki out Lw Qw Am H. unfold html in H.
  assert (T : forall p ts t, analysis p = Ok ts -> In t ts -> table_ok t /\ (true = true -> table_quiet t) /\ (forall r c k v, In r (rows t) -> In c (snd r) -> In (k, v) (cattrs c) -> named_key k)).
  { intros p ts t A I. destruct (Ha p ts t A I) as (_ & T1 & T2). split; [|split].
    - intros r c Ir Ic. destruct (T2 r Ir) as (_ & _ & T3). destruct (T3 c Ic) as (_ & T4 & _ & _ & T5). split; [exact T4|]. intros k v Ik. apply (T5 k v Ik).
    - intros _. split; [exact T1|]. intros r Ir. destruct (T2 r Ir) as (_ & T3 & T4). split; [exact T3|]. intros c k v Ic Ik. destruct (T4 c Ic) as (_ & _ & _ & _ & T5). apply (T5 k v Ik).
    - intros r c k v Ir Ic Ik. destruct (T2 r Ir) as (_ & _ & T3). destruct (T3 c Ic) as (_ & _ & _ & _ & T5). apply (T5 k v Ik). }
  assert (T' : forall p ts t r c, analysis p = Ok ts -> In t ts -> In r (rows t) -> In c (snd r) -> true = true -> references (ctext c)).
  { intros p ts t r c A I Ir Ic _. destruct (Ha p ts t A I) as (_ & _ & T2). destruct (T2 r Ir) as (_ & _ & T3). destruct (T3 c Ic) as (_ & _ & T4 & _). exact T4. }
  assert (Hk : forall k, In k wiki_keys -> named_key k) by (intros k I; cbn in I; repeat (destruct I as [<-|I]; [reflexivity|]); destruct I).
  pose proof (parsed design_order wikipath now urlencode analysis H1 Hn2 true AnyItems cared named_key (parse_fails analysis wiki) Hk
    (fun _ => Hw2) (fun p _ => proj2 (Hu p)) T (fun _ => Hn3) T' wiki
    (fits_any analysis wiki true AnyItems (fun _ => eq_refl) (fun h => ltac:(discriminate h)) (fun h => ltac:(discriminate h)) cared (fun _ => Qw) (fun _ => Am))) as P.
  pose proof (parse_fit design_order wikipath now urlencode analysis Hw1 Hn1 (fun p => proj1 (Hu p)) Ha wiki Lw) as Fd.
  destruct (parse design_order wikipath now urlencode analysis wiki new_doc) as [d [[]|e]]; [|discriminate]. cbn [fst snd] in P, Fd.
  destruct (html_pieces design_order rst _ _ _ _ _ d H1 (eq_refl : named_key "id") P) as (l & es & vs & O & He & A & V & _ & M). rewrite H in M. destruct M as (ss & -> & M).
  exact (pieces_well design_order rst _ _ _ d Hr P Fd _ _ He _ _ _ _ A M).
Qed.
(* a reference is missing *)
Lemma well_refers : forall s, well_formed s -> referring s.
Proof.
  assert (App : forall a b, referring a -> referring b -> referring (a ++ b)).
  { induction a as [|c a IH]; intros b Ha Hb; [exact Hb|]. intros [|x u] v E.
    - injection E as -> <-. destruct (Ha [] a eq_refl) as (t & r & I & ->). exists t, (r ++ b). split; [exact I|]. rewrite app_assoc. reflexivity.
    - injection E as -> E. apply (IH b) with (a := u); [|exact Hb|exact E]. intros a' b' E'. apply (Ha (x :: a') b'). rewrite E'. reflexivity. }
  assert (None : forall a, forallb (fun c => negb (Ascii.eqb c "&")) a = true -> referring a).
  { intros a H. apply refers. apply references_list. exact H. }
  assert (Name : forall n, is_name n = true -> referring n).
  { intros n H. apply None. destruct n as [|c n]; [reflexivity|]. cbn [XmlSpec.is_name] in H. apply andb_true_iff in H. destruct H as [_ H]. apply forallb_forall. intros x I. rewrite forallb_forall in H. specialize (H x I).
    destruct (Ascii.eqb_spec x "&") as [->|]; [discriminate H|reflexivity]. }
  assert (Attrs : forall a, att_list a -> referring (WellSpec.written a)).
  { intros a [_ H]. induction a as [|[k v] a IH]; [apply None; reflexivity|]. destruct (H k v (or_introl eq_refl)) as (H1 & (_ & _ & H2) & _).
    change (WellSpec.written ((k, v) :: a)) with ((L " " ++ k ++ L "=" ++ [quote] ++ v ++ [quote]) ++ WellSpec.written a).
    apply App; [|apply IH; intros x y I; apply (H x y); right; exact I]. repeat apply App; try (apply None; reflexivity); [apply Name; exact H1|exact H2]. }
  assert (Gap : forall g, forallb XmlSpec.blank g = true -> referring g).
  { intros g H. apply None. apply forallb_forall. intros x I. rewrite forallb_forall in H. specialize (H x I). destruct (Ascii.eqb_spec x "&") as [->|]; [discriminate H|reflexivity]. }
  intros s H. induction H as [|t s (_ & _ & T) _ IH|n a gap s N A G _ IH|n a i s N A _ Hi _ IH].
  - apply None. reflexivity.
  - apply App; assumption.
  - repeat apply App; try (apply None; reflexivity); auto.
  - repeat apply App; try (apply None; reflexivity); auto.
Qed.
Lemma well_refuted : exists design_order wikipath now urlencode analysis rst wiki out, Permutation design_order design_names
  /\ legal_text now /\ plain now /\ references now /\ legal_text wikipath /\ quiet wikipath /\ (forall p, legal_text (urlencode p) /\ quiet (urlencode p)) /\ (forall p, analysis p = Ok [])
  /\ (forall s o, rst s = Ok o -> well_formed o) /\ legal_text wiki /\ quiet wiki /\ html design_order wikipath now urlencode analysis rst wiki = Ok out /\ ~ well_formed out.
Proof.
  exists design_names, [], [], (fun _ => []), (fun _ => Ok []), (fun s => Ok []), amp_text.
  destruct (html design_names [] [] (fun _ => []) (fun _ => Ok []) (fun s => Ok []) amp_text) as [out|] eqn:E; vm_compute in E; [|discriminate].
  injection E as <-. eexists. split; [apply Permutation_refl|]. split; [intros c []|]. split; [intros c []|]. split; [no_amp|]. split; [intros c []|]. split; [intros []|].
  split; [intros p; split; [intros c []|intros []]|]. split; [reflexivity|]. split; [intros s o Eo; injection Eo as <-; exact wf_none|].
  split; [apply lg_list; reflexivity|]. split; [intro I; cbn in I; repeat (destruct I as [I|I]; [discriminate I|]); exact I|].
  split; [reflexivity|]. intro W. apply well_refers in W. match type of W with referring ?o => destruct (W (firstn 119 o) (skipn 120 o) eq_refl) as (t & r & I & E) end.
  cbn in I. repeat (destruct I as [<-|I]; [discriminate E|]). destruct I.
Qed.
