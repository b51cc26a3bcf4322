(* Properties C94, C96, C99 and C100: documents in the order of editing, tables of contents *)
From Verif Require Import Py HtmlModel HtmlSpec TreeModel TreeSpec TocModel TocSpec TocProofs WikiSpec.
From Coq Require Import Permutation.
Open Scope string_scope.
Open Scope list_scope.
Open Scope nat_scope.

(* C99 *)
Theorem C99_editing_order : forall order rst ops s, by_hand order rst [] None ops = Some s -> render order rst (edit new_doc ops) = Ok s.
Proof. exact in_editing_order. Qed.
Print Assumptions C99_editing_order.
(* a paragraph with two texts around a bold one, a picture, and a heading that is not left *)
Definition letter : list op :=
  [Enter Div []; AddText (L "a "); AddText (L "b"); Enter Bold []; AddText (L "c"); Leave [Bold]; AddText (L "d"); Append Img [("src", VStr (L "e.png"))];
   Leave [Div]; Enter H1 [("class", VStr (L "f"))]; AddText (L "g")].
Definition letter_html : str :=
  L "<div>" ++ nl ++ L "a b" ++ nl ++ L "<strong>" ++ nl ++ L "c" ++ nl ++ L "</strong>" ++ nl ++ L "d" ++ nl ++ L "<img src=" ++ [quote] ++ L "e.png" ++ [quote] ++ L " />" ++ nl
  ++ L "</div>" ++ nl ++ L "<h1 class=" ++ [quote] ++ L "f" ++ [quote] ++ L ">" ++ nl ++ L "g" ++ nl ++ L "</h1>" ++ nl.
Example C99_case : by_hand design_names (fun s => Ok s) [] None letter = Some letter_html /\ render design_names (fun s => Ok s) (edit new_doc letter) = Ok letter_html.
Proof. split; vm_compute; reflexivity. Qed.
(* leaving what is not the innermost element is not writing by hand *)
Example C99_not : by_hand design_names (fun s => Ok s) [] None [Enter Div []; Enter Bold []; Leave [Div]] = None.
Proof. reflexivity. Qed.

(* C94: the page cannot be written when a heading has a bold word *)
Theorem C94_contents_refuted : exists s, render design_names (fun s => Ok s) (edit new_doc bold_heading) = Ok s
  /\ snd (render_contents design_names (fun s => Ok s) (edit new_doc (table_of_contents :: bold_heading))) = Exc AttributeError.
Proof. exact contents_refuted. Qed.
Print Assumptions C94_contents_refuted.

(* C94 *)
Theorem C94_contents_partial : forall order rst ops d l es, Permutation order design_names -> d = edit new_doc ops -> in_order (nodes d) root l ->
  Forall2 (entry (nodes d)) (titles (nodes d) l) es ->
  exists ns', toc_open order rst (nodes d) = (ns', Ok (contents_html es)) /\ only_marked (nodes d) (titles (nodes d) l) ns'.
Proof. exact contents_listed. Qed.
Print Assumptions C94_contents_partial.
Definition chapters : list op :=
  [Enter H1 []; AddText (L "One"); Leave [H1]; Enter H3 []; AddText (L "Two "); Enter Anchor [("href", VStr (L "/x"))]; AddText (L "three"); Leave [Anchor]; Leave [H3];
   Enter Div []; AddText (L "text"); Leave [Div]; Enter H2 []; Leave [H2]].
Definition book : doc := edit new_doc (table_of_contents :: chapters).
Definition book_nodes : list node := Eval vm_compute in nodes book.
Example book_is : nodes book = book_nodes.
Proof. vm_compute. reflexivity. Qed.
Definition book_order : list nat := [0; 1; 2; 3; 4; 5; 6; 7; 8; 9; 10].
Definition book_entries : list (nat * list str) := [(0, [L "One"]); (2, [L "Two "; L "three"]); (1, [])].
Example C94_order : in_order (nodes book) root book_order /\ titles (nodes book) book_order = [2; 4; 10].
Proof.
  rewrite book_is. split; [|reflexivity]. change book_order with (root :: List.concat [[1]; [2; 3]; [4; 5; 6; 7]; [8; 9]; [10]]).
  assert (Leaf : forall i n, nth_error book_nodes i = Some n -> children n = [] -> in_order book_nodes i [i]).
  { intros i n Hn Hc. apply (order_node book_nodes i n [] Hn). rewrite Hc. constructor. }
  assert (One : forall i n c l, nth_error book_nodes i = Some n -> children n = [c] -> in_order book_nodes c l -> in_order book_nodes i (i :: l)).
  { intros i n c l Hn Hc H. rewrite <- (app_nil_r l). apply (order_node book_nodes i n [l] Hn). rewrite Hc. repeat constructor. exact H. }
  eapply order_node; [reflexivity|]. cbn [children]. repeat apply Forall2_cons; [..|apply Forall2_nil].
  - eapply Leaf; reflexivity.
  - eapply One; [reflexivity|reflexivity|]. eapply Leaf; reflexivity.
  - change [4; 5; 6; 7] with (4 :: List.concat [[5]; [6; 7]]). eapply order_node; [reflexivity|]. cbn [children]. repeat apply Forall2_cons; [..|apply Forall2_nil].
    + eapply Leaf; reflexivity.
    + eapply One; [reflexivity|reflexivity|]. eapply Leaf; reflexivity.
  - eapply One; [reflexivity|reflexivity|]. eapply Leaf; reflexivity.
  - eapply Leaf; reflexivity.
Qed.
Example C94_entries : Forall2 (entry (nodes book)) [2; 4; 10] book_entries.
Proof.
  rewrite book_is. unfold book_entries. repeat apply Forall2_cons; [..|apply Forall2_nil]; (eexists; split; [reflexivity|]; split; [reflexivity|]; cbn [children snd]; repeat apply Forall2_cons; try apply Forall2_nil).
  - eexists. split; [reflexivity|]. left. repeat split.
  - eexists. split; [reflexivity|]. left. repeat split.
  - eexists. split; [reflexivity|]. right. split; [reflexivity|]. exists [L "three"]. split; [|reflexivity]. cbn [children]. constructor; [|constructor]. eexists. split; [reflexivity|]. left. split; reflexivity.
Qed.
Definition book_contents : str :=
  L "<ol>" ++ nl ++ L "<li><a href=" ++ [quote] ++ L "#fragment0" ++ [quote] ++ L ">" ++ nl ++ L "One" ++ nl ++ L "</a>" ++ nl ++ L "</li>" ++ nl
  ++ L "<ol>" ++ nl ++ L "<ol>" ++ nl ++ L "<li><a href=" ++ [quote] ++ L "#fragment1" ++ [quote] ++ L ">" ++ nl ++ L "Two " ++ nl ++ L "three" ++ nl ++ L "</a>" ++ nl ++ L "</li>" ++ nl
  ++ L "</ol>" ++ nl ++ L "<li><a href=" ++ [quote] ++ L "#fragment2" ++ [quote] ++ L ">" ++ nl ++ L "</a>" ++ nl ++ L "</li>" ++ nl ++ L "</ol>" ++ nl ++ L "</ol>" ++ nl.
Example C94_case : contents_html book_entries = book_contents /\ snd (toc_open design_names (fun s => Ok s) (nodes book)) = Ok book_contents.
Proof. split; vm_compute; reflexivity. Qed.

(* C94: exactly then *)
Theorem C94_contents_fails_partial : forall order rst ops d l i n c, Permutation order design_names -> d = edit new_doc ops -> in_order (nodes d) root l ->
  Forall (listed (nodes d)) (titles (nodes d) l) -> In i (titles (nodes d) l) -> nth_error (nodes d) i = Some n -> In c (children n) -> no_label (nodes d) c ->
  exists ns', toc_open order rst (nodes d) = (ns', Exc AttributeError) /\ only_marked (nodes d) (titles (nodes d) l) ns'.
Proof. exact contents_fails. Qed.
Print Assumptions C94_contents_fails_partial.
Definition bold_nodes : list node := Eval vm_compute in nodes (edit new_doc bold_heading).
Example bold_is : nodes (edit new_doc bold_heading) = bold_nodes.
Proof. vm_compute. reflexivity. Qed.
Example C94_fails : let ns := nodes (edit new_doc bold_heading) in
  titles ns [0; 1; 2; 3; 4] = [1] /\ listed ns 1 /\ (exists n, nth_error ns 1 = Some n /\ In 3 (children n)) /\ no_label ns 3
  /\ snd (toc_open design_names (fun s => Ok s) ns) = Exc AttributeError.
Proof.
  cbv zeta. rewrite bold_is. split; [reflexivity|]. split.
  { eexists. split; [reflexivity|]. split; [discriminate|]. cbn [children]. intros c [<-|[<-|[]]]; [right; exists (L "The "); eexists; split; [reflexivity|]; left; repeat split|].
    left. eexists. split; [reflexivity|]. split; discriminate. }
  split; [eexists; split; [reflexivity|]; cbn; auto|]. split; [eexists; split; [reflexivity|]; split; discriminate|]. vm_compute. reflexivity.
Qed.

(* C96: the headings in front of the table of contents *)
Theorem C96_links_refuted : exists d s, render_contents design_names (fun s => Ok s) (edit new_doc late_contents) = (d, Ok s)
  /\ found (L "href=" ++ [quote] ++ L "#fragment0" ++ [quote]) s = true /\ found (L "id=") s = false.
Proof. exact links_refuted. Qed.
Print Assumptions C96_links_refuted.

(* C96 *)
Theorem C96_links_partial : forall order rst ops d a m b es d' html, Permutation order design_names -> d = edit new_doc ops -> in_order (nodes d) root (a ++ m :: b) ->
  is_contents (nodes d) m -> titles (nodes d) a = [] -> Forall2 (entry (nodes d)) (titles (nodes d) b) es -> render_contents order rst d = (d', Ok html) ->
  exists x y, html = x ++ contents_html es ++ y
    /\ forall k i n, nth_error (titles (nodes d) b) k = Some i -> nth_error (nodes d) i = Some n -> exists u o v, y = u ++ o ++ v /\ open order (marked n k) = Ok o
      /\ forall s, attrs n = strings s -> (forall x t, In (x, t) s -> good_key x /\ ~ In quote t) -> exists al, attributes o = Some al /\ In (L "id", mark k) al.
Proof. exact links_lead. Qed.
Print Assumptions C96_links_partial.
Example C96_case : is_contents (nodes book) 1 /\ book_order = [0] ++ 1 :: [2; 3; 4; 5; 6; 7; 8; 9; 10] /\ titles (nodes book) [0] = []
  /\ exists d s, render_contents design_names (fun s => Ok s) book = (d, Ok s) /\ found book_contents s = true
     /\ found (L "<h3 id=" ++ [quote] ++ L "fragment1" ++ [quote] ++ L ">") s = true.
Proof.
  split; [rewrite book_is; eexists; split; reflexivity|]. split; [reflexivity|]. split; [reflexivity|]. eexists. eexists. split; [vm_compute; reflexivity|]. split; vm_compute; reflexivity.
Qed.

(* C100: the headings in front of the table of contents have got their marks *)
Theorem C100_again_refuted : exists d s s', render_contents design_names (fun s => Ok s) (edit new_doc late_contents) = (d, Ok s)
  /\ snd (render_contents design_names (fun s => Ok s) d) = Ok s' /\ s' <> s.
Proof. exact again_refuted. Qed.
Print Assumptions C100_again_refuted.

(* C100 *)
Theorem C100_again_partial : forall order rst ops d a m b es d' html, Permutation order design_names -> d = edit new_doc ops -> in_order (nodes d) root (a ++ m :: b) ->
  is_contents (nodes d) m -> titles (nodes d) a = [] -> Forall2 (entry (nodes d)) (titles (nodes d) b) es -> render_contents order rst d = (d', Ok html) ->
  only_marked (nodes d) (titles (nodes d) b) (nodes d') /\ current d' = current d /\ render_contents order rst d' = (d', Ok html).
Proof. exact again. Qed.
Print Assumptions C100_again_partial.
Example C100_case : let (d, r) := render_contents design_names (fun s => Ok s) book in
  r <> Exc AttributeError /\ render_contents design_names (fun s => Ok s) d = (d, r) /\ nodes d <> nodes book.
Proof. vm_compute. split; [discriminate|]. split; [reflexivity|discriminate]. Qed.

(* C100: a document without a table of contents *)
Theorem C100_no_contents_partial : forall order rst ops d l, d = edit new_doc ops -> in_order (nodes d) root l -> (forall i, In i l -> ~ is_contents (nodes d) i) ->
  render_contents order rst d = (d, render order rst d).
Proof. exact no_contents. Qed.
Print Assumptions C100_no_contents_partial.
Example C100_none : let d := edit new_doc chapters in
  forallb (fun n => match cls n with MacroNode => false | _ => true end) (nodes d) = true /\ fst (render_contents design_names (fun s => Ok s) d) = d.
Proof. split; vm_compute; reflexivity. Qed.
