(* From the tokens of a page to what is written, within the elements [base] *)
From Verif Require Import Py PyFacts Re Rx RxFacts HtmlModel HtmlSpec HtmlProofs TreeModel TreeSpec TreeProofs TreeVisit TreeHtml TreeText TreeStream TocModel TocSpec TocProofs WikiModel WikiSpec WikiInv WikiMatch WikiWalk WikiText WikiProofs WikiLink CmpProofs AnalysisPage ShowSpec ShowRead ShowMatch ShowProofs.
Open Scope string_scope.
Open Scope list_scope.
Open Scope nat_scope.

Section Page.
Variables (order : list string) (wikipath now : str) (urlencode : list (string * str) -> str) (analysis : str -> res (list table)) (rst : str -> res str).
Definition mark_klass (m : mark) : klass :=
  match m with
  | MBold => Bold | MItalic => Italic | MUnder => Underline | MStrike => Strike | MSub => Subscript | MSup => Superscript | MMono => Monospace
  | MH1 => H1 | MH2 => H2 | MH3 => H3
  end.
Variable base : list (klass * list (string * value)).
Definition base_top : klass := match base with (c, _) :: _ => c | [] => BgRoot end.
Hypothesis base_span : forall k, is_a k Span = true -> is_acceptable base_top k = true.
Hypothesis base_marks : forall k a m, In (k, a) base -> is_any k [mark_klass m] = false.
Definition stack (o : list mark) : list (klass * list (string * value)) := map (fun m => (mark_klass m, [])) o ++ base.
Definition shows (d : doc) (o : list mark) (s : str) (pend : option str) : Prop := keeps order rst d (stack o) s pend.
Definition moves (m : M unit) (o : list mark) (pend : option str) (o' : list mark) (out : str) (pend' : option str) : Prop :=
  forall d s, shows d o s pend -> exists d', m d = (d', Ok tt) /\ shows d' o' (s ++ out) pend'.
Definition top (o : list mark) : klass := match stack o with (c, _) :: _ => c | [] => BgRoot end.
Lemma top_span : forall o k, is_a k Span = true -> is_acceptable (match stack o with (c, _) :: _ => c | [] => BgRoot end) k = true.
Proof. intros [|m o] k H; [exact (base_span k H)|destruct m]; cbn [stack map app mark_klass]; unfold is_acceptable, is_any; cbn [acceptables existsb]; rewrite H; rewrite ?orb_true_r; reflexivity. Qed.
Notation hg := (handle_group order wikipath now urlencode analysis).
Notation handler := (handle order wikipath now urlencode analysis).
Lemma hg_on : forall g n c r, c <> "!"%char -> hg g (n, c :: r) = handler n (c :: r) g.
Proof. intros g n c r N. unfold handle_group. apply Ascii.eqb_neq in N. rewrite N. reflexivity. Qed.
Lemma hg_off : forall g n r, String.eqb n "_pattern_rest_of_the_world" = false -> hg g (n, "!"%char :: r) = m_text (escape r).
Proof. intros g n r N. unfold handle_group. rewrite N. reflexivity. Qed.
Lemma moves_text : forall t o pend, moves (m_text t) o pend o [] (more pend t).
Proof. intros t o pend d s K. destruct (keeps_text order rst t d _ s pend K) as (d' & E & K'). exists d'. split; [exact E|]. rewrite app_nil_r. exact K'. Qed.
Lemma moves_ret : forall o pend, moves (ret tt) o pend o [] pend.
Proof. intros o pend d s K. exists d. split; [reflexivity|]. rewrite app_nil_r. exact K. Qed.
Lemma moves_then : forall m1 m2 o pend o1 out1 pend1 o2 out2 pend2, moves m1 o pend o1 out1 pend1 -> moves m2 o1 pend1 o2 out2 pend2 -> moves (m1 ;; m2) o pend o2 (out1 ++ out2) pend2.
Proof.
  intros m1 m2 o pend o1 out1 pend1 o2 out2 pend2 H1 H2 d s K. destruct (H1 d s K) as (d1 & E1 & K1). destruct (H2 d1 _ K1) as (d2 & E2 & K2). exists d2. unfold andthen. rewrite E1. split; [exact E2|]. rewrite app_assoc. exact K2.
Qed.
Lemma moves_idle : forall g n c r o pend, c <> "!"%char -> handler n (c :: r) g = ret tt -> moves (hg g (n, c :: r)) o pend o [] pend.
Proof. intros g n c r o pend N H. rewrite hg_on by exact N. rewrite H. apply moves_ret. Qed.
(* ---- links ---- *)
Lemma settled_pended : forall pend, pended pend = settled pend.
Proof. intros []; reflexivity. Qed.
Lemma moves_link2 : forall class title href t o pend, moves (do! a := anchor2 class title in set_url a href ;; m_text t ;; m_leave [Anchor]) o pend o (settled pend ++ link class title href (t ++ ShowSpec.nl)) None.
Proof.
  intros class title href t o pend d s K. destruct (keeps_anchor order rst class title href d _ s pend (top_span o Anchor eq_refl) K) as (d1 & i & d2 & E1 & E2 & K2).
  destruct (keeps_text order rst t d2 _ _ None K2) as (d3 & E3 & K3). destruct (keeps_leave order rst Anchor _ (L "</a>" ++ ShowSpec.nl) d3 _ _ _ eq_refl K3) as (d4 & E4 & K4). exists d4.
  unfold andthen. rewrite E1, E2, E3. split; [exact E4|]. unfold shows. unfold link. rewrite settled_pended in K4. cbn [more pended app] in K4. repeat (rewrite <- app_assoc in K4; cbn [app] in K4). rewrite <- !app_assoc. exact K4.
Qed.
Lemma moves_icon : forall class title href t o pend,
  moves (do! a := anchor2 class title in set_url a href ;; m_push Span [("class", VStr (L "icon"))] ;; m_text t ;; m_leave [Span] ;; m_leave [Anchor]) o pend o (settled pend ++ link class title href (icon t)) None.
Proof.
  intros class title href t o pend d s K. destruct (keeps_anchor order rst class title href d _ s pend (top_span o Anchor eq_refl) K) as (d1 & i & d2 & E1 & E2 & K2).
  destruct (keeps_push order rst Span [("class", VStr (L "icon"))] (L "<span" ++ tag_attr "class" (L "icon") ++ L ">" ++ ShowSpec.nl) d2 ((Anchor, [("class", VStr class); ("title", VStr title); ("href", VStr href)]) :: stack o) _ None eq_refl ltac:(discriminate) ltac:(discriminate) ltac:(discriminate) ltac:(discriminate) eq_refl K2) as (d3 & E3 & K3).
  destruct (keeps_text order rst t d3 _ _ None K3) as (d4 & E4 & K4). destruct (keeps_leave order rst Span _ (L "</span>" ++ ShowSpec.nl) d4 _ _ _ eq_refl K4) as (d5 & E5 & K5).
  destruct (keeps_leave order rst Anchor _ (L "</a>" ++ ShowSpec.nl) d5 _ _ _ eq_refl K5) as (d6 & E6 & K6). exists d6.
  unfold andthen. rewrite E1, E2, E3, E4, E5. split; [exact E6|]. unfold shows. unfold link, icon. rewrite settled_pended in K6. cbn [more pended app] in K6. repeat (rewrite <- app_assoc in K6; cbn [app] in K6). rewrite <- !app_assoc. exact K6.
Qed.
Lemma moves_link : forall class title href t o pend, moves (anchor class title href ;; m_text t ;; m_leave [Anchor]) o pend o (settled pend ++ link class title href (t ++ ShowSpec.nl)) None.
Proof.
  intros class title href t o pend d s K. set (a := [("class", VStr class); ("title", VStr title); ("href", VStr href)]).
  assert (Eo : open order (created Anchor a None) = Ok (L "<a" ++ tag_attr "class" class ++ tag_attr "title" title ++ tag_attr "href" href ++ L ">" ++ ShowSpec.nl)).
  { unfold open, generic_open, created. cbn [cls attrs html_element mapM attr_string fst snd bind a]. f_equal. unfold tag_attr. cbn [join_attrs]. repeat (progress cbn [app L list_ascii_of_string ShowSpec.nl is_single] || rewrite <- app_assoc). reflexivity. }
  destruct (keeps_push order rst Anchor a _ d _ s pend (top_span o Anchor eq_refl) ltac:(discriminate) ltac:(discriminate) ltac:(discriminate) ltac:(discriminate) Eo K) as (d2 & E2 & K2).
  destruct (keeps_text order rst t d2 _ _ None K2) as (d3 & E3 & K3). destruct (keeps_leave order rst Anchor _ (L "</a>" ++ ShowSpec.nl) d3 _ _ _ eq_refl K3) as (d4 & E4 & K4). exists d4.
  split.
  - unfold m_push, andthen, ret in E2. unfold andthen, anchor. fold a. destruct (m_enter Anchor a d) as [d1 [i|e]]; [|discriminate E2]. injection E2 as ->. rewrite E3. exact E4.
  - unfold shows. unfold link. rewrite settled_pended in K4. cbn [more pended app] in K4. repeat (rewrite <- app_assoc in K4; cbn [app] in K4). rewrite <- !app_assoc. exact K4.
Qed.
(* ---- marks ---- *)
Lemma mark_start : forall m s g, handler (mark_pat m) s g = start_or_end (mark_klass m) [].
Proof. intros [] s g; reflexivity. Qed.
Lemma klass_differ : forall m m', m <> m' -> is_any (mark_klass m') [mark_klass m] = false.
Proof. intros m m' N. destruct m, m'; first [reflexivity|elim N; reflexivity]. Qed.
Lemma stack_any : forall o ks, (forall m, In m o -> is_any (mark_klass m) ks = false) -> (forall k a, In (k, a) base -> is_any k ks = false) -> forall k a, In (k, a) (stack o) -> is_any k ks = false.
Proof.
  intros o ks H D k a I. unfold stack in I. apply in_app_or in I. destruct I as [I|I]; [|exact (D k a I)]. apply in_map_iff in I. destruct I as (m & E & Im). injection E as <- _. apply H. exact Im.
Qed.
Lemma open_mark : forall m, open order (created (mark_klass m) [] None) = Ok (mark_open m).
Proof. intros []; reflexivity. Qed.
Lemma close_mark : forall m, close order rst (mknode (mark_klass m) [] [] None None []) = Ok (mark_close m).
Proof. intros []; reflexivity. Qed.
Lemma moves_on : forall m o pend, ~ In m o -> (o = [] /\ is_acceptable base_top (mark_klass m) = true \/ is_heading m = false) -> moves (start_or_end (mark_klass m) []) o pend (m :: o) (settled pend ++ mark_open m) None.
Proof.
  intros m o pend N Hh d s K.
  assert (An : m_ancestor [mark_klass m] d = (d, Ok None)).
  { apply (keeps_none order rst (mark_klass m) d (stack o) s pend K); [destruct m; reflexivity|]. apply stack_any; [|intros k a I; exact (base_marks k a m I)]. intros m' I. apply klass_differ. intros ->. contradiction. }
  assert (Ac : is_acceptable (match stack o with (c, _) :: _ => c | [] => BgRoot end) (mark_klass m) = true).
  { destruct Hh as [[-> Hh]|Hh]; [exact Hh|]. apply top_span. destruct m; first [reflexivity|discriminate Hh]. }
  destruct (keeps_push order rst (mark_klass m) [] (mark_open m) d (stack o) s pend Ac) as (d' & E & K'); [destruct m; discriminate..|apply open_mark|exact K|].
  exists d'. unfold start_or_end. unfold andthen at 1. rewrite An. split; [exact E|]. rewrite <- settled_pended. exact K'.
Qed.
Lemma moves_off : forall m o pend, moves (start_or_end (mark_klass m) []) (m :: o) pend o (settled pend ++ mark_close m) None.
Proof.
  intros m o pend d s K.
  destruct (keeps_some order rst (mark_klass m) d (stack (m :: o)) s pend K) as [p Hp]; [destruct m; reflexivity|exists []; left; reflexivity|].
  destruct (keeps_leave order rst (mark_klass m) [] (mark_close m) d (stack o) s pend (close_mark m) K) as (d' & E & K'). exists d'. unfold start_or_end. unfold andthen at 1. rewrite Hp. split; [exact E|]. rewrite <- settled_pended. exact K'.
Qed.
(* ---- references ---- *)
Lemma slice_mid : forall a n b, slice (List.length a) (List.length b) (a ++ n ++ b) = n.
Proof.
  intros a n b. unfold slice. rewrite skipn_app, skipn_all, Nat.sub_diag. cbn [app skipn]. rewrite !app_length. replace (List.length a + (List.length n + List.length b) - List.length a - List.length b) with (List.length n) by lia.
  rewrite firstn_app, Nat.sub_diag, firstn_all. cbn [firstn]. apply app_nil_r.
Qed.
Lemma digit_prefix : forall n, number n -> prefixed "match:" (L "m" ++ n) = false.
Proof.
  intros n [N D]. destruct n as [|d n]; [congruence|]. cbn [forallb] in D. apply andb_prop in D. destruct D as [D _]. unfold prefixed. destruct (str_eqb _ _) eqn:E; [|reflexivity]. apply str_eqb_eq in E. cbn in E. injection E as E _. subst d. discriminate D.
Qed.
Lemma last_char : forall a (c : ascii), skipn (List.length (a ++ [c]) - 1) (a ++ [c]) = [c].
Proof. intros a c. rewrite app_length. cbn [List.length]. replace (List.length a + 1 - 1) with (List.length a) by lia. rewrite skipn_app, skipn_all, Nat.sub_diag. reflexivity. Qed.
Lemma ref_handler : forall r o pend, good_ref r -> moves (handler (ref_pat r) (ref_text r) ((ref_pat r, ref_text r) :: ref_inner r)) o pend o (settled pend ++ ref_shown wikipath r) None.
Proof.
  intros r o pend G. destruct r; cbn [ref_pat ref_text ref_inner ref_shown good_ref] in *.
  - apply (moves_link (L "entry") (L "#" ++ n) (L "/entry/" ++ n)).
  - apply (moves_link (L "entry") (L "entry:" ++ n) (L "/entry/" ++ n)).
  - apply (moves_link (L "query") (L "query:" ++ n) (L "/query/" ++ n)).
  - change (handler "_pattern_query_link" (L "{" ++ n ++ L "}") [("_pattern_query_link", L "{" ++ n ++ L "}")])
      with (anchor (L "query") (L "{" ++ n ++ L "}") (L "/query/" ++ slice (List.length (L "{")) (List.length (L "}")) (L "{" ++ n ++ L "}")) ;; m_text (L "{" ++ n ++ L "}") ;; m_leave [Anchor]).
    rewrite slice_mid. apply moves_link.
  - change (handler "_pattern_match_link" (L "m" ++ n) [("_pattern_match_link", L "m" ++ n)])
      with (do! a := anchor2 (L "match") (L "title") in (if prefixed "match:" (L "m" ++ n) then set_url a (L "/match/" ++ skipn 6 (L "m" ++ n)) else set_url a (L "/match/" ++ n)) ;; m_text (L "m" ++ n) ;; m_leave [Anchor]).
    rewrite digit_prefix by exact G. apply moves_link2.
  - apply (moves_link2 (L "match") (L "title") (L "/match/" ++ n)).
  - change (handler "_pattern_match_link" (L "[" ++ n ++ L "]") [("_pattern_match_link", L "[" ++ n ++ L "]")])
      with (do! a := anchor2 (L "match") (L "title") in set_url a (L "/match/" ++ slice (List.length (L "[")) (List.length (L "]")) (L "[" ++ n ++ L "]")) ;; m_text (L "[" ++ n ++ L "]") ;; m_leave [Anchor]).
    rewrite slice_mid. apply moves_link2.
  - change (handler "_pattern_scheme_wikiname" (L "[wiki:" ++ name ++ L "]") [("_pattern_scheme_wikiname", L "[wiki:" ++ name ++ L "]")])
      with (ret tt ;; m_assert (str_eqb (skipn (List.length (L "[wiki:" ++ name ++ L "]") - 1) (L "[wiki:" ++ name ++ L "]")) (L "]")) ;;
        (do! a := anchor2 (L "wiki-link") (slice (List.length (L "[wiki:")) (List.length (L "]")) (L "[wiki:" ++ name ++ L "]")) in
         set_url a (wikipath ++ slice (List.length (L "[wiki:")) (List.length (L "]")) (L "[wiki:" ++ name ++ L "]")) ;;
         m_text (slice (List.length (L "[wiki:")) (List.length (L "]")) (L "[wiki:" ++ name ++ L "]")) ;; m_leave [Anchor])).
    rewrite slice_mid. replace (skipn (List.length (L "[wiki:" ++ name ++ L "]") - 1) (L "[wiki:" ++ name ++ L "]")) with (L "]") by (symmetry; rewrite app_assoc; apply (last_char (L "[wiki:" ++ name) "]")).
    apply (moves_link2 (L "wiki-link") name (wikipath ++ name) name).
  - apply (moves_link2 (L "wiki-link") (camel_text words) (wikipath ++ camel_text words)).
  - apply (moves_icon (L "ext-link") (L "title") (escape u)).
  - apply (moves_icon (L "ext-link") (escape label) (escape u)).
Qed.
Lemma ref_head : forall r, good_ref r -> exists c s, ref_text r = c :: s /\ c <> "!"%char.
Proof.
  intros r G. destruct r; cbn [ref_text good_ref] in *; try (do 2 eexists; split; [reflexivity|discriminate]).
  - destruct words as [|[c w] l]; [cbn in G; lia|]. destruct G as [_ G]. destruct (G c w (or_introl eq_refl)) as (Hc & _). exists c, (w ++ camel_text l). split; [reflexivity|]. intros ->. discriminate Hc.
  - destruct G as (scheme & v & -> & [<-|[<-|[]]] & _); do 2 eexists; (split; [reflexivity|discriminate]).
Qed.
Lemma moves_inner : forall r g o pend, good_ref r -> moves (m_each (hg g) (ref_inner r)) o pend o [] pend.
Proof.
  intros r g o pend G. destruct r; cbn [ref_inner m_each]; try apply moves_ret.
  - destruct G as (scheme & v & -> & [<-|[<-|[]]] & _); change (@nil ascii) with (@nil ascii ++ []); (eapply moves_then; [apply moves_idle; [discriminate|reflexivity]|apply moves_ret]).
  - destruct G as [(scheme & v & -> & [<-|[<-|[]]] & _) _]; change (@nil ascii) with (@nil ascii ++ @nil ascii ++ []);
      (eapply moves_then; [apply moves_idle; [discriminate|reflexivity]|eapply moves_then; [apply moves_idle; [discriminate|reflexivity]|apply moves_ret]]).
Qed.
Lemma moves_eq : forall m o pend o' out out' pend', moves m o pend o' out pend' -> out = out' -> moves m o pend o' out' pend'.
Proof. intros. subst. assumption. Qed.
(* ---- one token ---- *)
Definition step (o : list mark) (pend : option str) (t : token) : option (str * list mark * option str) :=
  match t with
  | Ch c => Some ([], o, more pend (escape [c]))
  | OffMark m => Some ([], o, more pend (escape (sign_text m)))
  | OffRef r => Some ([], o, more pend (escape (ref_text r)))
  | Ref r => Some (settled pend ++ ref_shown wikipath r, o, None)
  | Mark m =>
      match o with
      | m' :: o' => if mark_eq m m' then Some (settled pend ++ mark_close m, o', None)
                    else if in_dec mark_eq m o then None
                    else if is_heading m then None else Some (settled pend ++ mark_open m, m :: o, None)
      | [] => Some (settled pend ++ mark_open m, [m], None)
      end
  end.
Lemma line_step : forall o pend t l, line_shown wikipath o pend (t :: l)
  = match step o pend t with
    | Some (out, o1, pend1) => match line_shown wikipath o1 pend1 l with Some (s, o2, pend2) => Some (out ++ s, o2, pend2) | None => None end
    | None => None
    end.
Proof.
  intros o pend t l. destruct t; cbn [line_shown step]; try reflexivity. destruct o as [|m' o]; [reflexivity|]. destruct (mark_eq m m'); [reflexivity|]. destruct (in_dec mark_eq m (m' :: o)); [reflexivity|]. destruct (is_heading m); reflexivity.
Qed.
Lemma char_moves : forall c o pend, moves (m_each (hg (char_caps c)) (char_caps c)) o pend o [] (more pend (escape [c])).
Proof.
  intros c o pend. unfold char_caps, unsafe_name.
  destruct (Ascii.eqb_spec c "<") as [->|N1]; [change (@nil ascii) with (@nil ascii ++ @nil ascii ++ []); eapply moves_then; [apply moves_text|eapply moves_then; apply moves_ret]|].
  destruct (Ascii.eqb_spec c ">") as [->|N2]; [change (@nil ascii) with (@nil ascii ++ @nil ascii ++ []); eapply moves_then; [apply moves_text|eapply moves_then; apply moves_ret]|].
  destruct (Ascii.eqb_spec c "&") as [->|N3]; [change (@nil ascii) with (@nil ascii ++ @nil ascii ++ []); eapply moves_then; [apply moves_text|eapply moves_then; apply moves_ret]|].
  destruct (Ascii.eqb_spec c "?") as [->|N4]; [change (@nil ascii) with (@nil ascii ++ @nil ascii ++ []); eapply moves_then; [apply moves_text|eapply moves_then; apply moves_ret]|].
  assert (E : escape [c] = [c]). { change (escape [c]) with (escape_char c ++ []). destruct (HtmlProofs.escape_char_cases c) as [[-> _]|[[-> _]|[[-> _]|[_ ->]]]]; congruence || reflexivity. }
  rewrite E. apply moves_eq with (out := [] ++ []); [|reflexivity]. cbn [m_each]. eapply moves_then; [|apply moves_ret].
  unfold handle_group. replace (Ascii.eqb c "!" && negb (String.eqb "_pattern_rest_of_the_world" "_pattern_rest_of_the_world")) with false by (symmetry; apply andb_false_r). apply moves_text.
Qed.
Definition heads_fit (t : token) : Prop := forall m, t = Mark m -> is_heading m = true -> is_acceptable base_top (mark_klass m) = true.
Lemma token_moves : forall t rest o pend out o' pend', stands t rest -> heads_fit t -> step o pend t = Some (out, o', pend') -> moves (m_each (hg (token_caps t)) (token_caps t)) o pend o' out pend'.
Proof.
  intros t rest o pend out o' pend' St Hf H. destruct t; cbn [token_caps step stands] in *.
  - injection H as <- <- <-. apply char_moves.
  - cbn [m_each]. assert (Em : hg [(mark_pat m, sign_text m)] (mark_pat m, sign_text m) = start_or_end (mark_klass m) []) by (destruct m; reflexivity). rewrite Em.
    apply moves_eq with (out := out ++ []); [|apply app_nil_r]. eapply moves_then; [|apply moves_ret]. destruct o as [|m' o].
    + injection H as <- <- <-. apply moves_on; auto. destruct (is_heading m) eqn:Hh; [left; split; [reflexivity|exact (Hf m eq_refl Hh)]|right; reflexivity].
    + destruct (mark_eq m m') as [<-|N]; [injection H as <- <- <-; apply moves_off|]. destruct (in_dec mark_eq m (m' :: o)); [discriminate H|]. destruct (is_heading m) eqn:Hh; [discriminate H|]. injection H as <- <- <-. apply moves_on; auto.
  - injection H as <- <- <-. destruct St as [G _]. cbn [m_each]. apply moves_eq with (out := (settled pend ++ ref_shown wikipath r) ++ []); [|apply app_nil_r]. eapply moves_then; [|apply moves_inner; exact G].
    destruct (ref_head r G) as (c & s & E & N). pose proof (ref_handler r o pend G) as R. rewrite E in *. rewrite hg_on by exact N. exact R.
  - injection H as <- <- <-. cbn [m_each]. apply moves_eq with (out := [] ++ []); [|reflexivity]. eapply moves_then; [|apply moves_ret]. rewrite hg_off by (destruct m; reflexivity). apply moves_text.
  - injection H as <- <- <-. destruct St as [G _]. cbn [m_each]. apply moves_eq with (out := [] ++ []); [|reflexivity]. eapply moves_then; [|apply moves_inner; exact G]. rewrite hg_off by (destruct r; reflexivity). apply moves_text.
Qed.
Lemma line_moves : forall l o pend out o' pend', all_stand l -> Forall heads_fit l -> line_shown wikipath o pend l = Some (out, o', pend') -> moves (m_each (fun g => m_each (hg g) g) (map token_caps l)) o pend o' out pend'.
Proof.
  induction l as [|t l IH]; intros o pend out o' pend' A Hf H.
  - injection H as <- <- <-. apply moves_ret.
  - destruct A as [St A]. inversion Hf as [|? ? Hf1 Hf2]; subst. rewrite line_step in H. destruct (step o pend t) as [[[out1 o1] pend1]|] eqn:E1; [|discriminate H].
    destruct (line_shown wikipath o1 pend1 l) as [[[out2 o2] pend2]|] eqn:E2; [|discriminate H]. injection H as <- <- <-. cbn [map m_each]. eapply moves_then; [eapply token_moves; eassumption|apply IH; assumption].
Qed.
End Page.
