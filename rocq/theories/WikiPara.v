(* Paragraphs do not influence each other *)
From Verif Require Import Py PyFacts Re Rx RxFacts HtmlModel HtmlSpec HtmlProofs TreeModel TreeSpec TreeProofs TreeVisit TreeHtml TreeText TocModel TocSpec TocProofs WikiModel WikiSpec WikiInv WikiMatch WikiWalk WikiText WikiFrame WikiShift WikiToc WikiProofs.
From Coq Require Import Permutation.
Open Scope string_scope.
Open Scope list_scope.
Open Scope nat_scope.

Lemma split_first : forall l r, one_line l -> splitlines (l ++ newline_char :: r) = l :: splitlines r.
Proof.
  unfold splitlines. assert (W : forall l cur r, one_line l -> split_lines cur (l ++ newline_char :: r) = (rev cur ++ l) :: split_lines [] r).
  { induction l as [|c l IH]; intros cur r O; cbn [app split_lines].
    - rewrite app_nil_r. reflexivity.
    - destruct (O c (or_introl eq_refl)) as [N1 N2]. destruct (Ascii.eqb_spec c (ascii_of_nat 13)); [contradiction|]. destruct (Ascii.eqb_spec c newline_char); [contradiction|].
      rewrite IH by (intros x I; apply O; right; exact I). cbn [rev]. rewrite <- app_assoc. reflexivity. }
  intros l r O. rewrite W by exact O. reflexivity.
Qed.
Lemma split_before : forall ls r, (forall l, In l ls -> one_line l) -> splitlines (lines_text ls ++ r) = ls ++ splitlines r.
Proof.
  induction ls as [|l ls IH]; intros r O; [reflexivity|]. unfold lines_text. cbn [flat_map]. rewrite <- !app_assoc. cbn [app]. change (ascii_of_nat 10) with newline_char.
  rewrite split_first by (apply O; left; reflexivity). f_equal. apply IH. intros x I. apply O. right. exact I.
Qed.
(* without tables of contents *)
Lemma html_render : forall order rst md nq (ks : string -> Prop) F d, inv false md nq ks F d -> make_html order rst d = render order rst d.
Proof.
  intros order rst md nq ks F d J. rewrite make_html_contents. unfold render_contents, render. destruct (visit_ok d (i_wf _ _ _ _ _ _ J)) as (vs & A & _). rewrite A.
  rewrite write_plain; [reflexivity|]. intros i _ (n & Hn & K). destruct (i_fine _ _ _ _ _ _ J i n Hn) as (_ & _ & Sn). unfold style_ok in Sn. rewrite K in Sn. discriminate.
Qed.
Lemma fits_none : forall analysis l, one_line l -> ~ part (L "[[TableOfContent") l -> line_fits false AnyItems careless (fun _ => True) analysis l.
Proof. intros analysis l O N. unfold line_fits. split; [exact O|]. split; [discriminate|]. split; [discriminate|]. split; [discriminate|]. split; [auto|]. split; [intro P; contradiction|]. split; [auto|discriminate]. Qed.
Lemma line_part : forall l ls, In l ls -> part l (lines_text ls).
Proof.
  intros l ls I. apply in_split in I. destruct I as (a & b & ->). exists (lines_text a), (ascii_of_nat 10 :: lines_text b). unfold lines_text. rewrite flat_map_app. cbn [flat_map]. rewrite <- app_assoc. reflexivity.
Qed.
Lemma paragraphs : forall design_order wikipath now urlencode analysis rst,
  Permutation design_order design_names -> plain now -> (forall p ts t, analysis p = Ok ts -> In t ts -> table_ok t) ->
  forall before after out, (forall line, In line before -> one_line line) -> block_open false before = false ->
  ~ within (L "[[TableOfContent") (lines_text before) -> ~ within (L "[[TableOfContent") after ->
  html design_order wikipath now urlencode analysis rst (lines_text before) = Ok out ->
  html design_order wikipath now urlencode analysis rst (lines_text before ++ [ascii_of_nat 10] ++ after)
  = match html design_order wikipath now urlencode analysis rst after with Ok rest => Ok (out ++ rest) | Exc e => Exc e end.
Proof.
  intros design_order wikipath now urlencode analysis rst H1 H2 H3 before after out O Bo N1 N2 H. unfold html, parse in *.
  rewrite splitlines_text in H by exact O. cbn [app]. rewrite (split_before before (ascii_of_nat 10 :: after) O).
  change (splitlines (ascii_of_nat 10 :: after)) with ([] :: splitlines after).
  assert (Fit1 : forall l, In l before -> line_fits false AnyItems careless (fun _ => True) analysis l).
  { intros l I. apply fits_none; [apply O; exact I|]. intro P. apply N1. eapply part_trans; [exact P|]. apply line_part. exact I. }
  assert (Fit2 : forall l, In l (splitlines after) -> line_fits false AnyItems careless (fun _ => True) analysis l).
  { intros l I. apply splitlines_line in I. apply fits_none; [apply I|]. intro P. apply N2. eapply part_trans; [exact P|]. apply line_of_part. exact I. }
  assert (Tx : forall ls, (forall l, In l ls -> line_fits false AnyItems careless (fun _ => True) analysis l) ->
    match snd (m_each (parse_line design_order wikipath now urlencode analysis) ls new_doc) with
    | Ok _ => here false AnyItems careless (fun _ => True) [] (block_open false ls) (fst (m_each (parse_line design_order wikipath now urlencode analysis) ls new_doc)) | Exc _ => True end).
  { intros ls Hf. exact (texts false AnyItems careless (fun _ => True) (fun _ _ => Logic.I) (fun _ => True) design_order wikipath now urlencode analysis (order_names _ H1)
      (fun h => False_rect _ (Bool.diff_false_true h)) H2 (no_care _) (fun _ h => False_rect _ (Bool.diff_false_true h)) (any_table analysis H3) (fun _ _ _ _ _ _ _ _ _ => no_care _) [] ls false
      Hf new_doc (here_new false AnyItems careless (fun _ => True))). }
  assert (Tall := Tx (before ++ [] :: splitlines after)). assert (Fall : forall l, In l (before ++ [] :: splitlines after) -> line_fits false AnyItems careless (fun _ => True) analysis l).
  { intros l I. apply in_app_or in I. destruct I as [I|[<-|I]]; [apply Fit1; exact I| |apply Fit2; exact I]. apply fits_none; [intros c []|]. intros ([|x u] & v & P); discriminate P. }
  specialize (Tall Fall). rewrite m_each_app in Tall |- *. unfold andthen in Tall |- *.
  destruct (m_each (parse_line design_order wikipath now urlencode analysis) before new_doc) as [a [[]|e]] eqn:Pa; [|discriminate].
  assert (Ha : here false AnyItems careless (fun _ => True) [] false a) by (pose proof (Tx before Fit1) as T; rewrite Pa, Bo in T; exact T).
  pose proof (Tx (splitlines after) Fit2) as Tafter.
  assert (Ta : tidy a) by (pose proof (tidy_lines design_order wikipath now urlencode analysis before new_doc tidy_new) as T; rewrite Pa in T; exact T).
  cbn [m_each] in Tall |- *. unfold andthen in Tall |- *. rewrite (outside_not_wrapping false AnyItems careless (fun _ => True) design_order wikipath now urlencode analysis [] a Ha) in Tall |- *.
  assert (El : line_parse design_order wikipath now urlencode analysis [] a = (mkdoc (nodes a) (Some root), Ok tt)).
  { unfold line_parse, andthen, m_leave, run_op. cbn [exec]. unfold leave. destruct (look_ok a (fun n => is_any (cls n) [Div]) (t_wf a Ta)) as [r Hr]. rewrite Hr. destruct r; reflexivity. }
  rewrite El in Tall |- *. destruct (wf_root a (t_wf a Ta)) as (top & Htop & K1 & K2). destruct (t_root a Ta top Htop) as (K3 & K4 & K5).
  pose proof (here_inv _ _ _ _ _ _ _ Ha) as I.
  assert (Hin : forall i, In i (children top) -> root < i < List.length (nodes a)) by (intros i J; exact (wf_children a (t_wf a Ta) _ _ _ Htop J)).
  assert (Hlast : forall i n, In i (children top) -> nth_error (nodes a) i = Some n -> cls n <> Text).
  { intros i n J Hn Kn. pose proof (t_texts a Ta root top i n Htop J Hn Kn) as Hp. pose proof (i_link _ _ _ _ _ _ I i n root top Hn Hp Htop) as Lk. rewrite Kn, K1 in Lk. discriminate. }
  pose proof (behind_new (nodes a) top Htop Hin Hlast K1 K3 K4 K5 K2) as B0.
  pose proof (behind_lines (nodes a) top Htop Hin Hlast design_order wikipath now urlencode analysis (splitlines after) _ _ B0) as [B Hres].
  assert (Te : tidy (fst (m_each (parse_line design_order wikipath now urlencode analysis) (splitlines after) (mkdoc (nodes a) (Some root))))).
  { apply tidy_lines. apply tidy_goto; [exact Ta|]. apply wf_goto; [apply (t_wf a Ta)|]. intros x Hx. injection Hx as <-. apply nth_lt in Htop. exact Htop. }
  destruct (m_each (parse_line design_order wikipath now urlencode analysis) (splitlines after) new_doc) as [d r].
  destruct (m_each (parse_line design_order wikipath now urlencode analysis) (splitlines after) (mkdoc (nodes a) (Some root))) as [e r']. cbn [fst snd] in *.
  destruct r as [[]|f], r' as [[]|f']; cbn [lift] in Hres; try contradiction; [|congruence].
  rewrite (html_render _ _ _ _ _ _ _ I) in H. rewrite (html_render _ _ _ _ _ _ _ (here_inv _ _ _ _ _ _ _ Tall)), (html_render _ _ _ _ _ _ _ (here_inv _ _ _ _ _ _ _ Tafter)). rewrite (both design_order rst a d e top (t_wf a Ta) Htop B (t_wf e Te)), H. reflexivity.
Qed.
