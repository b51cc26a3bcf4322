(* Properties C60 to C63: documents and their HTML *)
From Verif Require Import Py HtmlModel HtmlSpec TreeModel TreeSpec TreeProofs TreeVisit TreeHtml TreeText.
From Coq Require Import Permutation.
Open Scope nat_scope.

(* C60: a quotation mark ends the value *)
Theorem C60_attributes_refuted : exists n o, cls n = Anchor /\ attrs n = strings [("title"%string, injected)] /\ open [] n = Ok o
  /\ attributes o = Some [(L "title", L "a"); (L "onclick", L "b")].
Proof. exact attributes_refuted. Qed.
Print Assumptions C60_attributes_refuted.

(* C60 *)
Theorem C60_attributes_partial : forall order n e a, writes_attributes (cls n) -> html_element (cls n) = Some e -> attrs n = strings a ->
  (forall k s, In (k, s) a -> good_key k) ->
  exists o, open order n = Ok o
    /\ tags o = Some [if is_single (cls n) then TAlone (L e) else TOpen (L e)]
    /\ ((forall k s, In (k, s) a -> ~ In quote s) -> attributes o = Some (map (fun kv => (L (fst kv), snd kv)) a)).
Proof. exact attributes_partial. Qed.
Print Assumptions C60_attributes_partial.
Definition link : node := mknode Anchor (strings [("class", L "wiki-link"); ("title", L "a<b> & c"); ("href", L "/x?y=1")]%string) [] None (Some 0) [].
Example C60_case : exists o, open [] link = Ok o /\ tags o = Some [TOpen (L "a")]
  /\ attributes o = Some [(L "class", L "wiki-link"); (L "title", L "a<b> & c"); (L "href", L "/x?y=1")].
Proof. eexists. split; [reflexivity|]. split; reflexivity. Qed.
(* even with quotation marks in it the value does not end the tag *)
Example C60_quote : exists o, open [] (mknode Anchor (strings [("title"%string, injected ++ L "><script>")]) [] None (Some 0) []) = Ok o /\ tags o = Some [TOpen (L "a")].
Proof. eexists. split; reflexivity. Qed.

(* C61 *)
Theorem C61_balanced : forall order rst ops, (forall s o, rst s = Ok o -> balanced o = true) -> Forall plain_op ops ->
  let d := edit new_doc ops in
  (exists l, accept (S (fuel d)) (nodes d) root = Ok l /\ in_order (nodes d) root (entered l) /\ NoDup (entered l) /\ forall j, In j (entered l) <-> below (nodes d) root j)
  /\ forall out, render order rst d = Ok out -> balanced out = true.
Proof. exact rendering. Qed.
Print Assumptions C61_balanced.
(* a heading opened inside bold text, a line break, an item, and a preformatted block *)
Definition no_design : list (string * value) := [("star", VStr (L "*")); ("sign", VNone); ("ordered_numeric", VNone); ("ordered_alpha", VNone); ("ordered_roman", VNone)]%string.
Definition some_ops : list op :=
  [Enter Div []; Enter Bold []; AddText (L "a"); Enter H1 []; AddText (L "b"); Leave [H1]; Append BR []; AddText (L "c");
   Leave [Div]; Enter ListEl no_design; Enter Itemize [("style"%string, VNone)]; AddText (L "d"); Done;
   Enter Wrapping []; AddLine 11 (L "x<y"); Done].
Example C61_case : render ["sign"; "star"]%string (fun _ => Exc Unmodelled) (edit new_doc some_ops) =
  Ok (L "<div>" ++ nl ++ L "<strong>" ++ nl ++ L "a" ++ nl ++ L "<br />" ++ nl ++ L "c" ++ nl ++ L "</strong>" ++ nl ++ L "<h1>" ++ nl ++ L "b" ++ nl ++ L "</h1>" ++ nl
      ++ L "</div>" ++ nl ++ L "<ul>" ++ nl ++ L "<li>d" ++ nl ++ L "</li>" ++ nl ++ L "</ul>" ++ nl ++ quoted "<pre class=" "wiki" ">" ++ L "x&lt;y</pre>" ++ nl).
Proof. vm_compute. reflexivity. Qed.
Example C61_plain : Forall plain_op some_ops.
Proof.
  apply Forall_forall. intros o H. cbn in H. repeat (destruct H as [<-|H]; [first [exact Logic.I | apply plain_list; reflexivity |
    intros k v Hk; cbn in Hk; repeat (destruct Hk as [E|Hk]; [injection E as <- _; apply plain_list; reflexivity|]); contradiction]|]). contradiction.
Qed.
(* the reader does tell a document that is not balanced *)
Example C61_reader : balanced (L "<b><i>x</b></i>") = false /\ balanced (L "<b>x") = false /\ balanced (L "x</b>") = false /\ balanced (L "a < b") = false
  /\ balanced (L "<b><br /><i class=x>y</i></b>") = true.
Proof. vm_compute. auto 10. Qed.

(* C62: text in a table row *)
Theorem C62_content_refuted : exists ops i j n m, let ns := nodes (edit new_doc ops) in
  nth_error ns i = Some n /\ In j (children n) /\ nth_error ns j = Some m /\ cls n = TableRow /\ ~ In (cls m) (content (cls n)).
Proof. exact content_refuted. Qed.
Print Assumptions C62_content_refuted.

(* C62 *)
Theorem C62_content_partial : forall ops i j n m, let ns := nodes (edit new_doc ops) in
  nth_error ns i = Some n -> In j (children n) -> nth_error ns j = Some m -> In (cls m) (content (cls n)) \/ cls m = Text.
Proof. exact content_partial. Qed.
Print Assumptions C62_content_partial.
(* the heading was not put into the bold text, and the cell was put into the row *)
Example C62_case : map (fun n => (cls n, children n)) (nodes (edit new_doc [Enter Div []; Enter Bold []; Enter H1 []; Done; Enter Table []; Enter TableRow []; Enter TableCell []]))
  = [(BgRoot, [1; 4]); (Div, [2; 3]); (Bold, []); (H1, []); (Table, [5]); (TableRow, [6]); (TableCell, [])].
Proof. vm_compute. reflexivity. Qed.

(* C63: what is left may not be at the end *)
Theorem C63_text_refuted : exists ops, Forall (fun o => ~ removes o) ops /\ added new_doc ops = L "abc" /\ document_text (edit new_doc ops) = Ok (L "acb").
Proof. exact text_refuted. Qed.
Print Assumptions C63_text_refuted.

(* C63: nothing is lost *)
Theorem C63_text_kept_partial : forall ops, Forall (fun o => ~ removes o) ops -> exists t, document_text (edit new_doc ops) = Ok t /\ Permutation t (added new_doc ops).
Proof. exact text_kept. Qed.
Print Assumptions C63_text_kept_partial.
Example C63_kept_case : document_text (edit new_doc misplaced) = Ok (L "acb") /\ added new_doc misplaced = L "abc" /\ Forall (fun o => ~ removes o) misplaced.
Proof. split; [vm_compute; reflexivity|]. split; [vm_compute; reflexivity|]. repeat constructor; intros []. Qed.

(* C63: in order *)
Theorem C63_text_order_partial : forall ops, orderly new_doc ops -> document_text (edit new_doc ops) = Ok (added new_doc ops).
Proof. exact text_order. Qed.
Print Assumptions C63_text_order_partial.
Example C63_case : orderly new_doc [Enter Div []; AddText (L "a"); Enter Bold []; AddText (L "b"); Append Table []; AddText (L "c"); Leave [Div]; AddText (L "d")]
  /\ document_text (edit new_doc [Enter Div []; AddText (L "a"); Enter Bold []; AddText (L "b"); Append Table []; AddText (L "c"); Leave [Div]; AddText (L "d")]) = Ok (L "abcd").
Proof.
  split; [|vm_compute; reflexivity].
  vm_compute. repeat split; try discriminate; intros c n Hc Hn; injection Hc as <-; injection Hn as <-; reflexivity.
Qed.
