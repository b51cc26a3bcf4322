(* Whole pages with simple markup *)
From Verif Require Import Py PyFacts Re Rx RxFacts HtmlModel HtmlSpec HtmlProofs TreeModel TreeSpec TreeProofs TreeVisit TreeHtml TreeText TreeStream TocModel TocSpec TocProofs WikiModel WikiSpec WikiInv WikiMatch WikiWalk WikiText WikiProofs WikiLink CmpProofs AnalysisPage ShowSpec ShowRead ShowMatch ShowProofs ShowPage.
Open Scope string_scope.
Open Scope list_scope.
Open Scope nat_scope.

Section Whole.
Variables (order : list string) (wikipath now : str) (urlencode : list (string * str) -> str) (analysis : str -> res (list table)) (rst : str -> res str).
Notation in_div := [(Div, @nil (string * value))].
Notation stack := (ShowPage.stack in_div).
Lemma div_span : forall k, is_a k Span = true -> is_acceptable (base_top in_div) k = true.
Proof. intros k H. unfold base_top, is_acceptable, is_any. cbn [acceptables existsb]. rewrite H, ?orb_true_r. reflexivity. Qed.
Lemma div_marks : forall k (a : list (string * value)) m, In (k, a) in_div -> is_any k [mark_klass m] = false.
Proof. intros k a m [I|[]]. injection I as <- _. destruct m; reflexivity. Qed.
Lemma div_heads : forall l, Forall (heads_fit in_div) l.
Proof. intros l. apply Forall_forall. intros t _ m _ H. destruct m; try discriminate H; reflexivity. Qed.
Definition page_at (d : doc) (st : option (list mark * option str)) (s : str) : Prop :=
  match st with Some (o, pend) => shows order rst in_div d o s pend | None => keeps order rst d [] s None end.
Definition finished (st : option (list mark * option str)) : str := match st with Some (o, pend) => ended o pend | None => [] end.
Definition begun (st : option (list mark * option str)) : str := match st with Some _ => [] | None => L "<div>" ++ ShowSpec.nl end.
Lemma not_wrapped : forall d st s line, page_at d st s -> parse_line order wikipath now urlencode analysis line d = line_parse order wikipath now urlencode analysis line d.
Proof.
  intros d st s line H. unfold parse_line.
  assert (G : exists stk pend, keeps order rst d stk s pend /\ (forall k a, In (k, a) stk -> k <> Wrapping)).
  { destruct st as [[o pend]|]; [|exists [], None; split; [exact H|intros k a []]]. exists (stack o), pend. split; [exact H|]. intros k a I ->. unfold ShowPage.stack in I. apply in_app_or in I. destruct I as [I|[I|[]]]; [|discriminate I].
    apply in_map_iff in I. destruct I as (m & E & _). injection E as E _. destruct m; discriminate E. }
  destruct G as (stk & pend & [B _] & N). destruct (back_path order rst d stk s pend B) as (c & -> & P & _). inversion P as [n Hn K|p q n st' Hn Hp Hl K1 K2 K3 K4 P' E1 E2]; subst.
  - rewrite Hn, K. reflexivity.
  - rewrite Hn. specialize (N (cls n) (attrs n) (or_introl eq_refl)). destruct (cls n); try reflexivity. congruence.
Qed.
Lemma close_all : forall o, mapM (fun ka => close order rst (mknode (fst ka) (snd ka) [] None None [])) (stack o) = Ok (map mark_close o ++ [L "</div>" ++ ShowSpec.nl]).
Proof.
  unfold ShowPage.stack. induction o as [|m o IH]; [reflexivity|]. cbn [map app mapM fst snd]. rewrite close_mark. cbn [bind]. rewrite IH. reflexivity.
Qed.
Lemma concat_closed : forall o, List.concat (map mark_close o ++ [L "</div>" ++ ShowSpec.nl]) = flat_map mark_close o ++ L "</div>" ++ ShowSpec.nl.
Proof. intro o. rewrite concat_app, <- flat_map_concat_map. cbn [List.concat]. rewrite app_nil_r. reflexivity. Qed.
(* an empty line *)
Lemma empty_line : forall d st s, page_at d st s -> exists d', line_parse order wikipath now urlencode analysis [] d = (d', Ok tt) /\ page_at d' None (s ++ finished st).
Proof.
  intros d st s H. unfold line_parse, andthen, m_leave, run_op.
  assert (G : exists d', exec d (Leave [Div]) = (d', Ok tt) /\ keeps order rst d' [] (s ++ finished st) None).
  { destruct st as [[o pend]|].
    - destruct H as [B N]. destruct (back_leaves order rst (map (fun m => (mark_klass m, [])) o) d Div [] [] s pend [Div] (map mark_close o ++ [L "</div>" ++ ShowSpec.nl]) B) as (d' & E & Nd & B').
      + intros k a I. apply in_map_iff in I. destruct I as (m & X & _). injection X as <- _. destruct m; reflexivity.
      + reflexivity.
      + apply close_all.
      + exists d'. split; [exact E|]. split; [|unfold no_contents; rewrite Nd; exact N]. cbn [finished]. unfold ended. rewrite concat_closed in B'. rewrite settled_pended in B'. exact B'.
    - exists d. split; [apply (keeps_same order rst [Div] d [] s None H); [reflexivity|intros k a []]|]. cbn [finished]. rewrite app_nil_r. exact H. }
  destruct G as (d' & E & K). rewrite E. cbn [exec]. unfold done. eexists. split; [reflexivity|]. destruct K as [B N]. destruct (back_path order rst d' [] _ None B) as (c & Hc & P & _).
  inversion P as [n Hn Kn|]; subst. unfold goto. assert (X : mkdoc (nodes d') (Some root) = d') by (destruct d'; cbn in *; congruence). rewrite X. split; assumption.
Qed.
(* a line with something in it *)
Lemma ends_false : forall l, (forall s, l <> s ++ L "::") -> ends_with "::" l = false.
Proof.
  intros l H. unfold ends_with, prefixed. destruct (str_eqb _ _) eqn:E; [|reflexivity]. apply str_eqb_eq in E. exfalso. change (List.length (L "::")) with 2 in E.
  assert (Ht : List.length (skipn (List.length l - 2) l) <= 2) by (rewrite skipn_length; lia). rewrite firstn_all2 in E by exact Ht. apply (H (firstn (List.length l - 2) l)). rewrite <- E. symmetry. apply firstn_skipn.
Qed.
Lemma some_line : forall l d st s out o' pend', page_at d st s -> good_line l -> l <> [] ->
  line_shown wikipath (match st with Some (o, _) => o | None => [] end) (match st with Some (_, p) => p | None => None end) l = Some (out, o', pend') ->
  exists d', line_parse order wikipath now urlencode analysis (line_text l) d = (d', Ok tt) /\ page_at d' (Some (o', pend')) (s ++ begun st ++ out).
Proof.
  intros l d st s out o' pend' H G N Hl. pose proof (line_matches l G) as Ms. destruct G as (A & Hh & Nd & O). pose proof (ends_false _ Nd) as Ew.
  assert (E0 : exists d0 o pend, start_on_not_exist Div [] d = (d0, Ok tt) /\ shows order rst in_div d0 o (s ++ begun st) pend /\ line_shown wikipath o pend l = Some (out, o', pend')).
  { destruct st as [[o pend]|].
    - exists d, o, pend. split; [|split; [cbn [begun]; rewrite app_nil_r; exact H|exact Hl]]. destruct (keeps_some order rst Div d (stack o) s pend H eq_refl) as [p Hp]; [exists []; unfold ShowPage.stack; apply in_or_app; right; left; reflexivity|].
      unfold start_on_not_exist, andthen. rewrite Hp. reflexivity.
    - destruct (keeps_push order rst Div [] (L "<div>" ++ ShowSpec.nl) d [] s None eq_refl ltac:(discriminate) ltac:(discriminate) ltac:(discriminate) ltac:(discriminate) eq_refl H) as (d0 & E & K).
      exists d0, [], None. split; [|split; [exact K|exact Hl]]. unfold start_on_not_exist, andthen. rewrite (keeps_none order rst Div d [] s None H eq_refl); [exact E|intros k a []]. }
  destruct E0 as (d0 & o & pend & E0 & K0 & Hl'). destruct (line_moves order wikipath now urlencode analysis rst in_div div_span div_marks l o pend out o' pend' A (div_heads l) Hl' d0 _ K0) as (d1 & E1 & K1).
  exists d1. split; [|rewrite <- app_assoc in K1; exact K1].
  assert (Lv : forall ks, is_any BgRoot ks = false -> is_any Div ks = false -> (forall m, is_any (mark_klass m) ks = false) -> m_leave ks d0 = (d0, Ok tt)).
  { intros ks H1 H2 H3. apply (keeps_same order rst ks d0 (stack o) _ pend K0 H1). apply stack_any; [intros m _; apply H3|intros k a [I|[]]; injection I as <- _; exact H2]. }
  destruct (line_text l) as [|c r] eqn:El.
  { exfalso. destruct l as [|t l]; [congruence|]. change (token_text t ++ line_text l = []) in El. apply app_eq_nil in El. destruct A as [A _]. exact (token_some t _ A (proj1 El)). }
  cbn [head_is] in Hh. apply orb_false_iff in Hh. destruct Hh as [H1 H2]. unfold line_parse. rewrite Ew, Ms, H1, H2. unfold andthen at 1. rewrite E0. unfold andthen at 1. rewrite Lv by (reflexivity || (intros []; reflexivity)).
  unfold andthen at 1. rewrite Lv by (reflexivity || (intros []; reflexivity)). unfold andthen at 1, ret at 1. unfold andthen at 1. rewrite E1. reflexivity.
Qed.
Lemma page_lines : forall ls d st s out, page_at d st s -> Forall good_line ls -> page_shown wikipath st ls = Some out ->
  exists d' st' s', m_each (parse_line order wikipath now urlencode analysis) (map line_text ls) d = (d', Ok tt) /\ page_at d' st' s' /\ s' ++ finished st' = s ++ out.
Proof.
  induction ls as [|l ls IH]; intros d st s out H F P.
  - injection P as <-. exists d, st, s. split; [reflexivity|]. split; [exact H|]. reflexivity.
  - inversion F as [|? ? G F']; subst. cbn [map m_each]. unfold andthen at 1. rewrite (not_wrapped d st s _ H). destruct l as [|t l].
    + cbn [page_shown] in P. destruct (page_shown wikipath None ls) as [out2|] eqn:E2; [|discriminate P]. injection P as <-. destruct (empty_line d st s H) as (d1 & E1 & H1). cbn [line_text flat_map]. rewrite E1.
      destruct (IH d1 None _ out2 H1 F' E2) as (d' & st' & s' & E & H' & Q). exists d', st', s'. split; [exact E|]. split; [exact H'|]. rewrite Q. rewrite <- app_assoc. reflexivity.
    + cbn [page_shown] in P. remember (t :: l) as l1. assert (N : l1 <> []) by (subst; discriminate). clear Heql1 t l.
      destruct (match st with Some x => x | None => ([], None) end) as [o pend] eqn:Est. destruct (line_shown wikipath o pend l1) as [[[out1 o1] pend1]|] eqn:El; [|discriminate P].
      destruct (page_shown wikipath (Some (o1, pend1)) ls) as [out2|] eqn:E2; [|discriminate P]. injection P as <-.
      destruct (some_line l1 d st s out1 o1 pend1 H G N) as (d1 & E1 & H1). { destruct st as [[o0 p0]|]; injection Est as -> ->; exact El. } rewrite E1.
      destruct (IH d1 (Some (o1, pend1)) _ out2 H1 F' E2) as (d' & st' & s' & E & H' & Q). exists d', st', s'. split; [exact E|]. split; [exact H'|]. rewrite Q. unfold begun. rewrite <- !app_assoc. reflexivity.
Qed.
Lemma page_html : forall d st s, page_at d st s -> make_html order rst d = Ok (s ++ finished st).
Proof.
  intros d st s H. assert (G : forall stk pend t, keeps order rst d stk s pend -> mapM (fun ka => close order rst (mknode (fst ka) (snd ka) [] None None [])) stk = Ok t -> make_html order rst d = Ok (s ++ pended pend ++ List.concat t)).
  { intros stk pend t [B N] Ht. pose proof (back_whole order rst d stk s pend t B Ht) as R. rewrite make_html_contents. unfold render_contents. unfold render in R.
    destruct (visit_ok d (ab_wf _ _ _ _ _ _ B)) as (vs & A & _). rewrite A in R |- *.
    rewrite write_plain; [exact R|]. intros i _ (n & Hn & K). unfold no_contents in N. rewrite Forall_forall in N. apply nth_error_In in Hn. exact (N n Hn K). }
  destruct st as [[o pend]|].
  - rewrite (G _ _ _ H (close_all o)). cbn [finished]. unfold ended. rewrite concat_closed, settled_pended. reflexivity.
  - apply (G _ _ [] H). reflexivity.
Qed.
Lemma page_is_shown : forall ls out, Forall good_line ls -> page_shown wikipath None ls = Some out ->
  html order wikipath now urlencode analysis rst (lines_text (map line_text ls)) = Ok out.
Proof.
  intros ls out F P. unfold html, parse. rewrite splitlines_text.
  - assert (H0 : page_at new_doc None []) by (split; [apply back_new|constructor; [discriminate|constructor]]).
    destruct (page_lines ls new_doc None [] out H0 F P) as (d & st & s & E & H & Q). rewrite E. rewrite (page_html d st s H). rewrite Q. reflexivity.
  - intros s I. apply in_map_iff in I. destruct I as (l & <- & I). rewrite Forall_forall in F. apply (F l I).
Qed.
End Whole.
