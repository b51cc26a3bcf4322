(* What a wiki text with simple markup shows *)
From Verif Require Import Py PyFacts Re Rx RxFacts HtmlModel HtmlSpec HtmlProofs TreeModel TreeSpec TreeProofs TreeVisit TreeHtml TreeText TreeStream TocModel TocSpec TocProofs WikiModel WikiSpec WikiInv WikiMatch WikiWalk WikiText WikiProofs WikiLink CmpProofs AnalysisPage ShowSpec ShowRead ShowMatch.
Open Scope string_scope.
Open Scope list_scope.
Open Scope nat_scope.

(* ---- looking up from the open elements ---- *)
Lemma climb_none : forall d ks, wf d -> is_any BgRoot ks = false -> forall c st, path (nodes d) c st -> (forall k a, In (k, a) st -> is_any k ks = false) ->
  forall f, c + 2 <= f -> climb f (nodes d) (fun n => is_any (cls n) ks) (Some c) = Ok None.
Proof.
  intros d ks W R c st H. induction H as [n Hn K|p q n st Hn Hp Hl K1 K2 K3 K4 H IH]; intros A f Lf.
  - destruct (wf_root d W) as (m & Hm & _ & Pm). assert (m = n) by congruence. subst m. destruct f as [|[|f]]; [lia|lia|]. cbn [climb]. rewrite Hn, K, R, Pm. reflexivity.
  - destruct f as [|f]; [lia|]. cbn [climb]. rewrite Hn, (A (cls n) (attrs n) (or_introl eq_refl)), Hp. apply IH; [intros k a I; apply (A k a); right; exact I|lia].
Qed.
Lemma climb_some : forall ns ks st1 k a st2, (forall k a, In (k, a) st1 -> is_any k ks = false) -> is_any k ks = true -> forall c, path ns c (st1 ++ (k, a) :: st2) ->
  exists p, path ns p ((k, a) :: st2) /\ forall f, c + 2 <= f -> climb f ns (fun n => is_any (cls n) ks) (Some c) = Ok (Some p).
Proof.
  intros ns ks st1 k a st2. induction st1 as [|[k1 a1] st1 IH]; intros A Y c H.
  - exists c. split; [exact H|]. intros f Lf. destruct f as [|f]; [lia|]. cbn [app] in H. inversion H as [|p q n st Hn Hp Hl K1 K2 K3 K4 H' E1 E2]. subst. cbn [climb]. rewrite Hn, Y. reflexivity.
  - cbn [app] in H. inversion H as [|p q n st Hn Hp Hl K1 K2 K3 K4 H' E1 E2]. subst. destruct (IH (fun k a I => A k a (or_intror I)) Y q H') as (p & P & C). exists p. split; [exact P|].
    intros f Lf. destruct f as [|f]; [lia|]. cbn [climb]. rewrite Hn, (A (cls n) (attrs n) (or_introl eq_refl)), Hp. apply C. lia.
Qed.
Section Doc.
Variable order : list string.
Variable rst : str -> res str.
Notation back := (at_back order rst).
Lemma back_path : forall d st s pend, back d st s pend -> exists c, current d = Some c /\ path (nodes d) c st /\ c + 2 <= S (fuel d).
Proof.
  intros d st s pend B. pose proof (ab_wf _ _ _ _ _ _ B) as W. destruct (ab_cur _ _ _ _ _ _ B) as (c & n & Hc & Hn & Hp & _). exists c. split; [exact Hc|]. split; [exact Hp|].
  unfold fuel. pose proof (nth_lt _ _ _ _ Hn). lia.
Qed.
Lemma look_none : forall d st s pend ks, back d st s pend -> is_any BgRoot ks = false -> (forall k a, In (k, a) st -> is_any k ks = false) -> look d (fun n => is_any (cls n) ks) = Ok None.
Proof. intros d st s pend ks B R A. destruct (back_path _ _ _ _ B) as (c & Hc & P & Lf). unfold look. rewrite Hc. eapply climb_none; eauto. exact (ab_wf _ _ _ _ _ _ B). Qed.
Lemma look_some : forall d st1 k a st2 s pend ks, back d (st1 ++ (k, a) :: st2) s pend -> (forall k a, In (k, a) st1 -> is_any k ks = false) -> is_any k ks = true ->
  exists p, look d (fun n => is_any (cls n) ks) = Ok (Some p).
Proof. intros d st1 k a st2 s pend ks B A Y. destruct (back_path _ _ _ _ B) as (c & Hc & P & Lf). destruct (climb_some _ _ _ _ _ _ A Y c P) as (p & _ & C). exists p. unfold look. rewrite Hc. apply C. exact Lf. Qed.
Lemma is_any_self : forall k, is_any k [k] = true.
Proof. intros []; reflexivity. Qed.
(* leaving a number of elements at once *)
Lemma back_leaves : forall st1 d k a st2 s pend ks t, back d (st1 ++ (k, a) :: st2) s pend -> (forall k a, In (k, a) st1 -> is_any k ks = false) -> is_any k ks = true ->
  mapM (fun ka => close order rst (mknode (fst ka) (snd ka) [] None None [])) (st1 ++ [(k, a)]) = Ok t ->
  exists d', exec d (Leave ks) = (d', Ok tt) /\ nodes d' = nodes d /\ back d' st2 (s ++ pended pend ++ List.concat t) None.
Proof.
  induction st1 as [|[k1 a1] st1 IH]; intros d k a st2 s pend ks t B A Y C.
  - cbn [app mapM fst snd] in *. destruct (close order rst (mknode k a [] None None [])) as [c|e] eqn:Ec; [|discriminate C]. injection C as <-. cbn [List.concat]. rewrite app_nil_r.
    destruct (back_leave order rst d k a st2 s pend ks c B Y Ec) as (d' & E & B'). exists d'. split; [exact E|]. split; [|exact B'].
    cbn [exec] in E. replace d' with (fst (leave d ks)) by (rewrite E; reflexivity). apply leave_nodes.
  - cbn [app mapM fst snd] in *. destruct (close order rst (mknode k1 a1 [] None None [])) as [c1|e] eqn:Ec; [|discriminate C].
    destruct (mapM (fun ka => close order rst (mknode (fst ka) (snd ka) [] None None [])) (st1 ++ [(k, a)])) as [t1|e] eqn:Et; [|discriminate C]. cbn [bind] in C. injection C as <-.
    destruct (back_leave order rst d k1 a1 _ s pend [k1] c1 B (is_any_self k1) Ec) as (d1 & E1 & B1).
    destruct (IH d1 k a st2 _ None ks t1 B1 (fun k a I => A k a (or_intror I)) Y Et) as (d2 & E2 & N2 & B2). exists d2.
    assert (N1 : nodes d1 = nodes d) by (cbn [exec] in E1; replace d1 with (fst (leave d [k1])) by (rewrite E1; reflexivity); apply leave_nodes).
    split; [|split; [congruence|cbn [pended app List.concat] in B2 |- *; rewrite <- !app_assoc in B2; exact B2]].
    rewrite <- E2. cbn [exec]. unfold leave.
    assert (Lk : look d (fun n => is_any (cls n) ks) = look d1 (fun n => is_any (cls n) ks)).
    { destruct (back_path _ _ _ _ B) as (c & Hc & P & Lf). destruct (back_path _ _ _ _ B1) as (q & Hq & P1 & Lf1). unfold look. rewrite Hc, Hq.
      inversion P as [|p q' n st Hn Hp Hl K1 K2 K3 K4 H' X1 X2]. subst.
      assert (q' = q). { cbn [exec] in E1. unfold leave, look in E1. rewrite Hc in E1. cbn [climb] in E1. rewrite Hn, is_any_self, Hn, Hp in E1. injection E1 as <-. cbn in Hq. congruence. } subst q'.
      destruct (climb_some _ _ _ _ _ _ (fun k a I => A k a (or_intror I)) Y q H') as (z & _ & C). rewrite N1 in *. rewrite C by exact Lf1.
      cbn [climb]. rewrite Hn, (A (cls n) (attrs n) (or_introl eq_refl)), Hp. apply C. lia. }
    rewrite Lk. destruct (look d1 (fun n => is_any (cls n) ks)) as [[p|]|e] eqn:El; [rewrite N1; unfold goto; rewrite N1; reflexivity| |].
    + exfalso. destruct (look_some d1 st1 k a st2 _ _ ks B1 (fun k a I => A k a (or_intror I)) Y) as [p Hp]. congruence.
    + exfalso. destruct (look_some d1 st1 k a st2 _ _ ks B1 (fun k a I => A k a (or_intror I)) Y) as [p Hp]. congruence.
Qed.
(* ---- the state while a page is read ---- *)
Definition keeps (d : doc) (st : list (klass * list (string * value))) (s : str) (pend : option str) : Prop := back d st s pend /\ no_contents d.
Lemma keeps_push : forall k a o d st s pend, is_acceptable (match st with (c, _) :: _ => c | [] => BgRoot end) k = true -> k <> BgRoot -> k <> Text -> k <> MacroNode -> k <> Wrapping ->
  open order (created k a None) = Ok o -> keeps d st s pend -> exists d', m_push k a d = (d', Ok tt) /\ keeps d' ((k, a) :: st) (s ++ pended pend ++ o) None.
Proof.
  intros k a o d st s pend Ac K1 K2 K3 K4 Eo [B N]. destruct (back_enter order rst d st s pend k a o B Ac K1 K2 Eo) as (d' & E & B'). exists d'. split.
  - unfold m_push, andthen, m_enter, ret. cbn [exec] in E. destruct (enter d k a) as [d1 [x|e]]; cbn [fst snd] in E; [injection E as <-; reflexivity|discriminate E].
  - split; [|replace d' with (fst (exec d (Enter k a))) by (rewrite E; reflexivity); apply enter_none; assumption].
    replace (match k with Wrapping => [] | _ => a end) with a in B' by (destruct k; try reflexivity; congruence). exact B'.
Qed.
Lemma keeps_leave : forall k a c d st s pend, close order rst (mknode k a [] None None []) = Ok c -> keeps d ((k, a) :: st) s pend ->
  exists d', m_leave [k] d = (d', Ok tt) /\ keeps d' st (s ++ pended pend ++ c) None.
Proof.
  intros k a c d st s pend Ec [B N]. destruct (back_leave order rst d k a st s pend [k] c B (is_any_self k) Ec) as (d' & E & B'). exists d'. split; [exact E|]. split; [exact B'|].
  replace d' with (fst (exec d (Leave [k]))) by (rewrite E; reflexivity). apply leave_none. exact N.
Qed.
Lemma keeps_text : forall t d st s pend, keeps d st s pend -> exists d', m_text t d = (d', Ok tt) /\ keeps d' st s (more pend t).
Proof.
  intros t d st s pend [B N]. destruct (back_text order rst d st s pend t B) as (d' & E & B'). exists d'. split; [exact E|]. split; [exact B'|].
  replace d' with (fst (exec d (AddText t))) by (rewrite E; reflexivity). apply text_none. exact N.
Qed.
Lemma keeps_same : forall ks d st s pend, keeps d st s pend -> is_any BgRoot ks = false -> (forall k a, In (k, a) st -> is_any k ks = false) -> m_leave ks d = (d, Ok tt).
Proof. intros ks d st s pend [B N] R A. unfold m_leave, run_op. cbn [exec]. unfold leave. rewrite (look_none d st s pend ks B R A). reflexivity. Qed.
Lemma keeps_none : forall k d st s pend, keeps d st s pend -> is_any BgRoot [k] = false -> (forall k' a, In (k', a) st -> is_any k' [k] = false) -> m_ancestor [k] d = (d, Ok None).
Proof. intros k d st s pend [B N] R A. unfold m_ancestor, ancestor. rewrite (look_none d st s pend [k] B R A). reflexivity. Qed.
Lemma keeps_some : forall k d st s pend, keeps d st s pend -> is_any BgRoot [k] = false -> (exists a, In (k, a) st) -> exists p, m_ancestor [k] d = (d, Ok (Some p)).
Proof.
  intros k d st s pend [B N] R [a I].
  assert (G : forall st, In (k, a) st -> exists st1 k1 a1 st2, st = st1 ++ (k1, a1) :: st2 /\ (forall k2 a2, In (k2, a2) st1 -> is_any k2 [k] = false) /\ is_any k1 [k] = true).
  { clear. induction st as [|[k1 a1] st IH]; intros I; [destruct I|]. destruct (is_any k1 [k]) eqn:E.
    - exists [], k1, a1, st. split; [reflexivity|]. split; [intros ? ? []|exact E].
    - destruct I as [H|I]; [injection H as -> ->; rewrite is_any_self in E; discriminate E|]. destruct (IH I) as (st1 & k2 & a2 & st2 & -> & P & Q). exists ((k1, a1) :: st1), k2, a2, st2. split; [reflexivity|]. split; [|exact Q].
      intros k3 a3 [H|H]; [injection H as <- <-; exact E|eapply P; exact H]. }
  destruct (G st I) as (st1 & k1 & a1 & st2 & -> & P & Q). destruct (look_some d st1 k1 a1 st2 s pend [k] B P Q) as [p Hp]. exists p. unfold m_ancestor, ancestor. rewrite Hp. reflexivity.
Qed.
(* a link whose target is set afterwards *)
Lemma set_last : forall ns n f i cur, i = List.length ns -> update (mkdoc (ns ++ [n]) cur) i f = mkdoc (ns ++ [f n]) cur.
Proof.
  intros ns n f i cur ->. unfold update. cbn [nodes current]. rewrite nth_error_app2, Nat.sub_diag by lia. cbn [nth_error]. f_equal. unfold set_node.
  rewrite firstn_app, Nat.sub_diag, firstn_all. cbn [firstn]. rewrite app_nil_r. f_equal. f_equal. apply skipn_all2. rewrite app_length. cbn. lia.
Qed.
Lemma update_length : forall d i f, List.length (nodes (update d i f)) = List.length (nodes d).
Proof.
  intros d i f. unfold update. destruct (nth_error (nodes d) i) as [n|] eqn:E; [|reflexivity]. cbn [nodes]. unfold set_node. pose proof (nth_lt _ _ _ _ E). rewrite app_length, firstn_length. cbn [List.length]. rewrite skipn_length. lia.
Qed.
Lemma keeps_anchor : forall class title href d st s pend, is_acceptable (match st with (c, _) :: _ => c | [] => BgRoot end) Anchor = true -> keeps d st s pend ->
  exists d1 i d2, anchor2 class title d = (d1, Ok i) /\ set_url i href d1 = (d2, Ok tt)
    /\ keeps d2 ((Anchor, [("class", VStr class); ("title", VStr title); ("href", VStr href)]) :: st)
         (s ++ pended pend ++ L "<a" ++ tag_attr "class" class ++ tag_attr "title" title ++ tag_attr "href" href ++ L ">" ++ ShowSpec.nl) None.
Proof.
  intros class title href d st s pend Ac Kp. set (a3 := [("class", VStr class); ("title", VStr title); ("href", VStr href)]).
  assert (Eo : open order (created Anchor a3 None) = Ok (L "<a" ++ tag_attr "class" class ++ tag_attr "title" title ++ tag_attr "href" href ++ L ">" ++ ShowSpec.nl)).
  { unfold open, generic_open, created. cbn [cls attrs html_element mapM attr_string fst snd bind a3]. f_equal. unfold tag_attr. cbn [join_attrs]. repeat (progress cbn [app L list_ascii_of_string ShowSpec.nl is_single] || rewrite <- app_assoc). reflexivity. }
  destruct (keeps_push Anchor a3 _ d st s pend Ac ltac:(discriminate) ltac:(discriminate) ltac:(discriminate) ltac:(discriminate) Eo Kp) as (d2 & E2 & K2).
  unfold m_push, andthen, m_enter, ret in E2. unfold anchor2, m_enter, set_url, run_op. cbn [exec]. unfold enter, append in E2 |- *.
  destruct (look d (fun n => is_acceptable (cls n) Anchor)) as [[c|]|e]; [|discriminate E2|discriminate E2]. cbn [goto nodes] in E2 |- *. do 3 eexists. split; [reflexivity|]. split; [reflexivity|].
  injection E2 as <-. unfold set_attr, goto in *. cbn [nodes current] in *. rewrite set_last by (symmetry; apply update_length). exact K2.
Qed.
End Doc.
