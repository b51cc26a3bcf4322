(* Pages with definitions *)
From Verif Require Import Py PyFacts Re Rx RxFacts HtmlModel HtmlSpec HtmlProofs TreeModel TreeSpec TreeProofs TreeVisit TreeHtml TreeText TreeStream TocModel TocSpec TocProofs WikiModel WikiSpec WikiInv WikiMatch WikiWalk WikiText WikiProofs WikiLink CmpProofs AnalysisPage ShowSpec ShowRead ShowMatch ShowProofs ShowPage ShowWhole ListSpec ListMatch QuoteSpec QuoteMatch DefSpec DefMatch.
Open Scope string_scope.
Open Scope list_scope.
Open Scope nat_scope.

Section Defs.
Variables (order : list string) (wikipath now : str) (urlencode : list (string * str) -> str) (analysis : str -> res (list table)) (rst : str -> res str).
Notation keeps := (ShowProofs.keeps order rst).
Notation back := (at_back order rst).
Notation attrs_t := (list (string * value)).
Notation hg := (handle_group order wikipath now urlencode analysis).
Notation closes := (mapM (fun ka => close order rst (mknode (fst ka) (snd ka) [] None None []))).
(* ---- going back to an element ---- *)
Lemma back_returns : forall st1 d k a st2 s pend ks t, back d (st1 ++ (k, a) :: st2) s pend -> (forall k a, In (k, a) st1 -> is_any k ks = false) -> is_any k ks = true -> closes st1 = Ok t ->
  exists p, look d (fun n => is_any (cls n) ks) = Ok (Some p) /\ p < List.length (nodes d) /\ back (goto d (Some p)) ((k, a) :: st2) (match st1 with [] => s | _ => s ++ pended pend ++ List.concat t end) (match st1 with [] => pend | _ => None end).
Proof.
  induction st1 as [|[k1 a1] st1 IH]; intros d k a st2 s pend ks t B A Y C.
  - destruct (back_path _ _ _ _ _ _ B) as (c & Hc & P & Lf). exists c. cbn [app] in P. inversion P as [|p q n st Hn Hp Hl K1 K2 K3 K4 H' E1 E2]; subst. split; [|split].
    + unfold look. rewrite Hc. cbn [climb]. rewrite Hn, Y. reflexivity.
    + exact (nth_lt _ _ _ _ Hn).
    + unfold goto. replace (mkdoc (nodes d) (Some c)) with d by (destruct d; cbn in *; congruence). exact B.
  - cbn [app mapM fst snd] in *. destruct (close order rst (mknode k1 a1 [] None None [])) as [c1|e] eqn:Ec; [|discriminate C]. destruct (closes st1) as [t1|e] eqn:Et; [|discriminate C]. cbn [bind] in C. injection C as <-.
    destruct (back_leave order rst d k1 a1 _ s pend [k1] c1 B (is_any_self k1) Ec) as (d1 & E1 & B1).
    destruct (IH d1 k a st2 _ None ks t1 B1 (fun k a I => A k a (or_intror I)) Y eq_refl) as (p & Lp & Np & Bp).
    assert (N1 : nodes d1 = nodes d) by (cbn [exec] in E1; replace d1 with (fst (leave d [k1])) by (rewrite E1; reflexivity); apply leave_nodes).
    exists p. split; [|split].
    + destruct (back_path _ _ _ _ _ _ B) as (c & Hc & P & Lf). destruct (back_path _ _ _ _ _ _ B1) as (q & Hq & P1 & Lf1). rewrite <- Lp. unfold look. rewrite Hc, Hq.
      inversion P as [|p' q' n st Hn Hp Hl K1 K2 K3 K4 H' X1 X2]. subst.
      assert (q' = q). { cbn [exec] in E1. unfold leave, look in E1. rewrite Hc in E1. cbn [climb] in E1. rewrite Hn, is_any_self, Hn, Hp in E1. injection E1 as <-. cbn in Hq. congruence. } subst q'.
      destruct (climb_some _ _ _ _ _ _ (fun k a I => A k a (or_intror I)) Y q H') as (z & _ & C). rewrite N1 in *. rewrite C by exact Lf1.
      cbn [climb]. rewrite Hn, (A (cls n) (attrs n) (or_introl eq_refl)), Hp. apply C. lia.
    + rewrite <- N1. exact Np.
    + unfold goto in *. rewrite N1 in Bp. cbn [List.concat]. destruct st1 as [|x st1]; [injection Et as <-; cbn [List.concat]; rewrite app_nil_r; exact Bp|]. cbn [pended app] in Bp. rewrite <- !app_assoc in Bp. exact Bp.
Qed.
(* ---- the elements that are open ---- *)
Inductive spot_d := At (a : dplace) | Head.
Definition base_of (w : spot_d) : list (klass * attrs_t) :=
  match w with At NoList => [(Div, [])] | At Quoted => [(BlockQuote, []); (Div, [])] | At InList => [(DefList, []); (Div, [])] | At InBody => [(DefBody, []); (DefList, []); (Div, [])] | Head => [(DefHeader, []); (DefList, []); (Div, [])] end.
Notation at_ d w o s pend := (shows order rst (base_of w) d o s pend).
Lemma base_in : forall w k a, In (k, a) (base_of w) -> k = Div \/ k = BlockQuote \/ k = DefList \/ k = DefBody \/ k = DefHeader.
Proof. intros [[]|] k a I; cbn in I; repeat (destruct I as [I|I]; [injection I as <- _; auto|]); destruct I. Qed.
Lemma base_span : forall w k, is_a k Span = true -> is_acceptable (base_top (base_of w)) k = true.
Proof. intros [[]|] k H; unfold base_top, is_acceptable, is_any, base_of; cbn [acceptables existsb]; rewrite H, ?orb_true_r; reflexivity. Qed.
Lemma base_marks : forall w k a m, In (k, a) (base_of w) -> is_any k [mark_klass m] = false.
Proof. intros w k a m I. apply base_in in I. destruct I as [->|[->|[->|[->| ->]]]]; destruct m; reflexivity. Qed.
Definition w_fits (w : spot_d) (l : list token) : bool := match w with At a => d_fits a l | Head => no_headings l end.
Lemma base_heads : forall w l, w_fits w l = true -> Forall (heads_fit (base_of w)) l.
Proof.
  intros w l H. assert (D : w = At NoList \/ no_headings l = true) by (destruct w as [[]|]; auto). destruct D as [->|D]; [exact (div_heads l)|].
  apply Forall_forall. intros t I m -> Hm. unfold no_headings in D. rewrite forallb_forall in D. specialize (D _ I). cbn in D. rewrite Hm in D. discriminate D.
Qed.
Lemma close_marks : forall o rest t, closes rest = Ok t -> closes (map (fun m => (mark_klass m, @nil (string * value))) o ++ rest) = Ok (map mark_close o ++ t).
Proof. intros o rest t H. induction o as [|m o IH]; [exact H|]. cbn [map app mapM fst snd]. rewrite close_mark. cbn [bind]. rewrite IH. reflexivity. Qed.
Lemma leave_to : forall ks k d o a base s pend cl, keeps d (map (fun m => (mark_klass m, [])) o ++ (k, a) :: base) s pend -> is_any k ks = true -> (forall m, is_any (mark_klass m) ks = false) ->
  close order rst (mknode k a [] None None []) = Ok cl -> exists d', m_leave ks d = (d', Ok tt) /\ keeps d' base (s ++ finished o pend ++ cl) None.
Proof.
  intros ks k d o a base s pend cl [B N] Hk Hm Hc.
  destruct (back_leaves order rst _ d k a base s pend ks (map mark_close o ++ [cl]) B) as (d' & E & Nd & B').
  - intros k' a' I. apply in_map_iff in I. destruct I as (m & X & _). injection X as <- _. apply Hm.
  - exact Hk.
  - apply close_marks. cbn [mapM fst snd]. rewrite Hc. reflexivity.
  - exists d'. split; [exact E|]. split; [|unfold no_contents; rewrite Nd; exact N]. rewrite concat_app, <- flat_map_concat_map, settled_pended in B'. cbn [List.concat] in B'. rewrite app_nil_r in B'. unfold finished. rewrite <- app_assoc. exact B'.
Qed.
Lemma start_new : forall k a o_text d st s pend, keeps d st s pend -> is_any BgRoot [k] = false -> (forall k' a', In (k', a') st -> is_any k' [k] = false) -> is_acceptable (match st with (c, _) :: _ => c | [] => BgRoot end) k = true ->
  k <> Text -> k <> MacroNode -> k <> Wrapping -> k <> BgRoot -> open order (created k a None) = Ok o_text -> exists d', start_on_not_exist k a d = (d', Ok tt) /\ keeps d' ((k, a) :: st) (s ++ settled pend ++ o_text) None.
Proof.
  intros k a ot d st s pend K H1 H2 H3 N1 N2 N3 N4 Ho. destruct (keeps_push order rst k a ot d st s pend) as (d' & E & K'); try assumption. exists d'. unfold start_on_not_exist, andthen. rewrite (keeps_none order rst k d st s pend K H1 H2). split; [exact E|].
  rewrite settled_pended in K'. exact K'.
Qed.
Lemma start_there : forall k a d st s pend, keeps d st s pend -> is_any BgRoot [k] = false -> (exists a', In (k, a') st) -> start_on_not_exist k a d = (d, Ok tt).
Proof. intros k a d st s pend K H1 H2. destruct (keeps_some order rst k d st s pend K H1 H2) as [p Hp]. unfold start_on_not_exist, andthen. rewrite Hp. reflexivity. Qed.
Lemma push_new : forall k o_text d st s pend, keeps d st s pend -> is_acceptable (match st with (c, _) :: _ => c | [] => BgRoot end) k = true -> k <> Text -> k <> MacroNode -> k <> Wrapping -> k <> BgRoot -> open order (created k [] None) = Ok o_text ->
  exists d', m_push k [] d = (d', Ok tt) /\ keeps d' ((k, []) :: st) (s ++ settled pend ++ o_text) None.
Proof. intros k ot d st s pend K H N1 N2 N3 N4 Ho. destruct (keeps_push order rst k [] ot d st s pend) as (d' & E & K'); try assumption. exists d'. rewrite settled_pended in K'. split; assumption. Qed.
Ltac no_marks := intros []; reflexivity.
Ltac not_among := let I := fresh in intros ? ? I; cbn in I; repeat (destruct I as [I|I]; [injection I as <- _; reflexivity|]); destruct I.
Lemma leave_same : forall ks d w o s pend, at_ d w o s pend -> is_any BgRoot ks = false -> (forall m, is_any (mark_klass m) ks = false) -> (forall k a, In (k, a) (base_of w) -> is_any k ks = false) -> m_leave ks d = (d, Ok tt).
Proof. intros ks d w o s pend K H1 H2 H3. apply (keeps_same order rst ks d _ s pend K H1). apply stack_any; [intros m _; apply H2|exact H3]. Qed.
Notation leave_block := (m_leave [BlockQuote; DefBody]).
(* ---- how lines begin ---- *)
Lemma words_move : forall a d o s pend b out o1 pend1, at_ d (At a) o s pend -> words_begin a o pend = (b, (out, o1, pend1)) -> exists d', leave_block d = (d', Ok tt) /\ at_ d' (At b) o1 (s ++ out) pend1.
Proof.
  intros a d o s pend b out o1 pend1 K H. destruct a; cbn [words_begin] in H; injection H as <- <- <- <-.
  - exists d. rewrite app_nil_r. split; [|exact K]. apply (leave_same [BlockQuote; DefBody] d (At NoList) o s pend K eq_refl); [no_marks|not_among].
  - destruct (leave_to [BlockQuote; DefBody] BlockQuote d o [] [(Div, [])] s pend (frame_close FQuote) K eq_refl) as (d' & E & K'); [no_marks|reflexivity|]. exists d'. split; [exact E|exact K'].
  - exists d. rewrite app_nil_r. split; [|exact K]. apply (leave_same [BlockQuote; DefBody] d (At InList) o s pend K eq_refl); [no_marks|not_among].
  - destruct (leave_to [BlockQuote; DefBody] DefBody d o [] [(DefList, []); (Div, [])] s pend dd_close K eq_refl) as (d' & E & K'); [no_marks|reflexivity|]. exists d'. split; [exact E|exact K'].
Qed.
Lemma cite_same : forall d w o s pend, at_ d w o s pend -> m_leave [TreeModel.Citation] d = (d, Ok tt).
Proof. intros d w o s pend K. apply (leave_same [TreeModel.Citation] d w o s pend K eq_refl); [no_marks|]. intros k a I. apply base_in in I. destruct I as [->|[->|[->|[->| ->]]]]; reflexivity. Qed.
Lemma term_starts : forall a d o s pend out, at_ d (At a) o s pend -> term_begins a o pend = Some out ->
  exists d', (leave_block ;; m_leave [TreeModel.Citation] ;; start_on_not_exist DefList [] ;; m_push DefHeader []) d = (d', Ok tt) /\ at_ d' Head [] (s ++ out) None.
Proof.
  intros a d o s pend out K H. destruct (words_begin a o pend) as [b [[out0 o1] pend1]] eqn:Ew. destruct (words_move a d o s pend b out0 o1 pend1 K Ew) as (d1 & E1 & K1). unfold andthen at 1. rewrite E1. unfold andthen at 1. rewrite (cite_same d1 _ _ _ _ K1).
  assert (Fin : forall d2 s2 pend2, keeps d2 [(DefList, []); (Div, [])] s2 pend2 -> exists d', m_push DefHeader [] d2 = (d', Ok tt) /\ at_ d' Head [] (s2 ++ settled pend2 ++ dt_open) None).
  { intros d2 s2 pend2 K2. destruct (push_new DefHeader dt_open d2 _ s2 pend2 K2 eq_refl ltac:(discriminate) ltac:(discriminate) ltac:(discriminate) ltac:(discriminate) eq_refl) as (d' & E & K'). exists d'. split; [exact E|exact K']. }
  assert (New : forall s2 pend2, at_ d1 (At NoList) [] s2 pend2 -> exists d', (start_on_not_exist DefList [] ;; m_push DefHeader []) d1 = (d', Ok tt) /\ at_ d' Head [] (s2 ++ settled pend2 ++ dl_open ++ dt_open) None).
  { intros s2 pend2 K2. destruct (start_new DefList [] dl_open d1 [(Div, [])] s2 pend2 K2 eq_refl ltac:(not_among) eq_refl ltac:(discriminate) ltac:(discriminate) ltac:(discriminate) ltac:(discriminate) eq_refl) as (d2 & E2 & K3). destruct (Fin d2 _ _ K3) as (d3 & E3 & K4).
    exists d3. unfold andthen. rewrite E2. split; [exact E3|]. cbn [settled app] in K4. rewrite <- !app_assoc in K4. exact K4. }
  assert (Old : forall s2 pend2, at_ d1 (At InList) [] s2 pend2 -> exists d', (start_on_not_exist DefList [] ;; m_push DefHeader []) d1 = (d', Ok tt) /\ at_ d' Head [] (s2 ++ settled pend2 ++ dt_open) None).
  { intros s2 pend2 K2. destruct (Fin d1 _ _ K2) as (d3 & E3 & K4). exists d3. unfold andthen. rewrite (start_there DefList [] d1 _ _ _ K2 eq_refl) by (eexists; left; reflexivity). split; [exact E3|exact K4]. }
  destruct a; cbn [words_begin] in Ew; injection Ew as <- <- <- <-; cbn [term_begins] in H.
  - destruct o; [|discriminate H]. injection H as <-. rewrite app_nil_r in K1. exact (New _ _ K1).
  - injection H as <-. destruct (New _ _ K1) as (d' & E & K'). exists d'. split; [exact E|]. cbn [settled app] in K'. rewrite <- !app_assoc in K'. exact K'.
  - destruct o; [|discriminate H]. injection H as <-. rewrite app_nil_r in K1. exact (Old _ _ K1).
  - injection H as <-. destruct (Old _ _ K1) as (d' & E & K'). exists d'. split; [exact E|]. cbn [settled app] in K'. rewrite <- !app_assoc in K'. exact K'.
Qed.
Lemma term_ends : forall d o s pend, at_ d Head o s pend -> exists d', (m_leave [DefHeader] ;; m_push DefBody []) d = (d', Ok tt) /\ at_ d' (At InBody) [] (s ++ finished o pend ++ dt_close ++ dd_open) None.
Proof.
  intros d o s pend K. destruct (leave_to [DefHeader] DefHeader d o [] [(DefList, []); (Div, [])] s pend dt_close K eq_refl) as (d1 & E1 & K1); [no_marks|reflexivity|].
  destruct (push_new DefBody dd_open d1 _ _ _ K1 eq_refl ltac:(discriminate) ltac:(discriminate) ltac:(discriminate) ltac:(discriminate) eq_refl) as (d2 & E2 & K2). exists d2. unfold andthen. rewrite E1. split; [exact E2|].
  cbn [settled app] in K2. rewrite <- !app_assoc in K2. exact K2.
Qed.
Lemma inset_moves : forall a d o s pend b out o1 pend1, at_ d (At a) o s pend -> inset_begins a o pend = Some (b, (out, o1, pend1)) -> exists d', handle_quote d = (d', Ok tt) /\ at_ d' (At b) o1 (s ++ out) pend1.
Proof.
  intros a d o s pend b out o1 pend1 K H.
  assert (None_ : (a = NoList \/ a = Quoted) -> m_ancestor [DefList] d = (d, Ok None)).
  { intros D. apply (keeps_none order rst DefList d _ s pend K eq_refl). apply stack_any; [no_marks|]. destruct D as [-> | ->]; not_among. }
  assert (Some_ : (a = InList \/ a = InBody) -> exists p, m_ancestor [DefList] d = (d, Ok (Some p))).
  { intros D. apply (keeps_some order rst DefList d _ s pend K eq_refl). exists []. apply in_or_app. right. destruct D as [-> | ->]; cbn; tauto. }
  unfold handle_quote. unfold andthen at 1. destruct a; cbn [inset_begins] in H.
  - destruct o; [|discriminate H]. injection H as <- <- <- <-. rewrite None_ by auto.
    destruct (start_new BlockQuote [] (frame_open FQuote) d [(Div, [])] s pend K eq_refl ltac:(not_among) eq_refl ltac:(discriminate) ltac:(discriminate) ltac:(discriminate) ltac:(discriminate) eq_refl) as (d2 & E2 & K2). exists d2. split; [exact E2|exact K2].
  - injection H as <- <- <- <-. rewrite None_ by auto. exists d. rewrite app_nil_r. split; [|exact K]. apply (start_there BlockQuote [] d _ s pend K eq_refl). exists []. apply in_or_app. right. cbn. tauto.
  - destruct o; [|discriminate H]. injection H as <- <- <- <-. destruct (Some_ (or_introl eq_refl)) as [p ->]. unfold andthen at 1.
    rewrite (keeps_none order rst DefBody d [(DefList, []); (Div, [])] s pend K eq_refl ltac:(not_among)).
    destruct (push_new DefBody dd_open d _ s pend K eq_refl ltac:(discriminate) ltac:(discriminate) ltac:(discriminate) ltac:(discriminate) eq_refl) as (d2 & E2 & K2). exists d2. split; [exact E2|exact K2].
  - destruct (Some_ (or_intror eq_refl)) as [p ->]. unfold andthen at 1. destruct K as [B N].
    destruct (back_returns (map (fun m => (mark_klass m, [])) o) d DefBody [] [(DefList, []); (Div, [])] s pend [DefBody] (map mark_close o) B) as (q & Lq & Nq & Bq).
    + intros k' a' I. apply in_map_iff in I. destruct I as (m & X & _). injection X as <- _. destruct m; reflexivity.
    + reflexivity.
    + pose proof (close_marks o [] [] eq_refl) as X. rewrite !app_nil_r in X. exact X.
    + unfold m_ancestor, ancestor. rewrite Lq. unfold run_op. cbn [exec]. destruct (Nat.ltb_spec q (List.length (nodes d))); [|lia]. exists (goto d (Some q)). split; [reflexivity|].
      destruct o as [|m o]; injection H as <- <- <- <-; (split; [|exact N]).
      * cbn [map] in Bq. rewrite app_nil_r. exact Bq.
      * cbn [map] in Bq. change (mark_close m :: map mark_close o) with (map mark_close (m :: o)) in Bq. rewrite <- flat_map_concat_map, settled_pended in Bq. exact Bq.
Qed.
Lemma before_stand : forall l, all_stand l -> stand_before l [].
Proof. induction l as [|t l IH]; intros A; [exact Logic.I|]. destruct A as [St A]. split; [rewrite app_nil_r; exact St|apply IH; exact A]. Qed.
Lemma tokens_move : forall w l rest d o s pend out o1 pend1, stand_before l rest -> w_fits w l = true -> at_ d w o s pend -> line_shown wikipath o pend l = Some (out, o1, pend1) ->
  exists d', m_each (fun g => m_each (hg g) g) (map token_caps l) d = (d', Ok tt) /\ at_ d' w o1 (s ++ out) pend1.
Proof.
  intros w l rest d o s pend out o1 pend1 A Hf. pose proof (base_heads w l Hf) as Hh. clear Hf. revert d o s pend out o1 pend1. induction l as [|t l IH]; intros d o s pend out o1 pend1 K H.
  - injection H as <- <- <-. exists d. split; [reflexivity|]. rewrite app_nil_r. exact K.
  - destruct A as [St A]. inversion Hh as [|? ? H1 H2]; subst. rewrite line_step in H. destruct (step wikipath o pend t) as [[[s1 o2] pend2]|] eqn:E1; [|discriminate H]. destruct (line_shown wikipath o2 pend2 l) as [[[s2 o3] pend3]|] eqn:E2; [|discriminate H]. injection H as <- <- <-.
    destruct (token_moves order wikipath now urlencode analysis rst (base_of w) (base_span w) (base_marks w) t _ o pend s1 o2 pend2 St H1 E1 d s K) as (d1 & Em & K1). destruct (IH A H2 d1 o2 _ pend2 s2 o3 pend3 K1 E2) as (d2 & E & K2).
    exists d2. cbn [map m_each]. unfold andthen. rewrite Em. split; [exact E|]. rewrite <- app_assoc in K2. exact K2.
Qed.
(* ---- whole pages ---- *)
Definition defs_at (d : doc) (st : def_state) (s : str) : Prop := match st with Some (a, o, pend) => at_ d (At a) o s pend | None => keeps d [] s None end.
Lemma defs_unwrapped : forall d st s line, defs_at d st s -> parse_line order wikipath now urlencode analysis line d = line_parse order wikipath now urlencode analysis line d.
Proof.
  intros d st s line H. unfold parse_line.
  assert (X : exists stk pend, keeps d stk s pend /\ forall k a, In (k, a) stk -> k <> Wrapping).
  { destruct st as [[[w o] pend]|]; [|exists [], None; split; [exact H|intros k a []]]. exists (ShowPage.stack (base_of (At w)) o), pend. split; [exact H|]. intros k a I. unfold ShowPage.stack in I. apply in_app_or in I. destruct I as [I|I].
    - apply in_map_iff in I. destruct I as (m & E & _). injection E as <- _. destruct m; discriminate.
    - apply base_in in I. destruct I as [->|[->|[->|[->| ->]]]]; discriminate. }
  destruct X as (stk & pend & [B _] & N). destruct (back_path order rst d stk s pend B) as (c & -> & P & _). inversion P as [n Hn K|p q n st' Hn Hp Hl K1 K2 K3 K4 P' E1 E2]; subst.
  - rewrite Hn, K. reflexivity.
  - rewrite Hn. specialize (N (cls n) (attrs n) (or_introl eq_refl)). destruct (cls n); try reflexivity. congruence.
Qed.
Definition ends (a : dplace) : list str := match a with NoList => [L "</div>" ++ ShowSpec.nl] | Quoted => [frame_close FQuote; L "</div>" ++ ShowSpec.nl] | InList => [dl_close; L "</div>" ++ ShowSpec.nl] | InBody => [dd_close; dl_close; L "</div>" ++ ShowSpec.nl] end.
Lemma close_all : forall a o, closes (ShowPage.stack (base_of (At a)) o) = Ok (map mark_close o ++ ends a).
Proof. intros a o. apply close_marks. destruct a; reflexivity. Qed.
Lemma concat_ends : forall a o, List.concat (map mark_close o ++ ends a) = flat_map mark_close o ++ d_ends a ++ L "</div>" ++ ShowSpec.nl.
Proof. intros a o. rewrite concat_app, <- flat_map_concat_map. f_equal. destruct a; reflexivity. Qed.
Lemma defs_empty_line : forall d st s, defs_at d st s -> exists d', line_parse order wikipath now urlencode analysis [] d = (d', Ok tt) /\ defs_at d' None (s ++ d_ended st).
Proof.
  intros d st s H. unfold line_parse, andthen, run_op.
  assert (G : exists d', m_leave [Div] d = (d', Ok tt) /\ keeps d' [] (s ++ d_ended st) None).
  { destruct st as [[[a o] pend]|].
    - destruct H as [B N]. unfold shows in B.
      assert (Es : ShowPage.stack (base_of (At a)) o = (map (fun m => (mark_klass m, [])) o ++ removelast (base_of (At a))) ++ (Div, []) :: []) by (unfold ShowPage.stack; rewrite <- app_assoc; f_equal; destruct a; reflexivity). rewrite Es in B.
      destruct (back_leaves order rst _ d Div [] [] s pend [Div] (map mark_close o ++ ends a) B) as (d' & E & Nd & B').
      + intros k' a' I. apply in_app_or in I. destruct I as [I|I]; [apply in_map_iff in I; destruct I as (m & X & _); injection X as <- _; destruct m; reflexivity|]. destruct a; cbn in I; repeat (destruct I as [I|I]; [injection I as <- _; reflexivity|]); destruct I.
      + reflexivity.
      + rewrite <- app_assoc. apply close_marks. destruct a; reflexivity.
      + exists d'. split; [exact E|]. split; [|unfold no_contents; rewrite Nd; exact N]. rewrite concat_ends, settled_pended in B'. cbn [d_ended]. unfold finished. rewrite <- app_assoc. exact B'.
    - exists d. split; [apply (keeps_same order rst [Div] d [] s None H eq_refl); intros k a []|]. cbn [d_ended]. rewrite app_nil_r. exact H. }
  destruct G as (d' & E & K). rewrite E. cbn [exec]. unfold done. eexists. split; [reflexivity|]. destruct K as [B N]. destruct (back_path order rst d' [] _ None B) as (c & Hc & P & _).
  inversion P as [n Hn Kn|]; subst. unfold goto. assert (X : mkdoc (nodes d') (Some root) = d') by (destruct d'; cbn in *; congruence). rewrite X. split; assumption.
Qed.
Lemma begin_line : forall d st s a o pend, defs_at d st s -> d_div st = (a, o, pend) -> exists d0, start_on_not_exist Div [] d = (d0, Ok tt) /\ at_ d0 (At a) o (s ++ d_begun st) pend.
Proof.
  intros d st s a o pend H E. destruct st as [[[w' o'] pend']|]; cbn [d_div d_begun] in *; injection E as <- <- <-.
  - exists d. split; [|rewrite app_nil_r; exact H]. apply (start_there Div [] d _ s pend' H eq_refl). exists []. apply in_or_app. right. destruct w'; cbn; tauto.
  - destruct (start_new Div [] (L "<div>" ++ ShowSpec.nl) d [] s None H eq_refl ltac:(intros k a []) eq_refl ltac:(discriminate) ltac:(discriminate) ltac:(discriminate) ltac:(discriminate) eq_refl) as (d0 & Ep & K). exists d0. split; [exact Ep|exact K].
Qed.
Lemma each_app : forall {X} (f : X -> M unit) a b d, m_each f (a ++ b) d = (m_each f a ;; m_each f b) d.
Proof.
  intros X f a b. induction a as [|x a IH]; intros d; [reflexivity|]. cbn [app m_each]. unfold andthen. destruct (f x d) as [d1 [[]|e]]; [|reflexivity]. rewrite IH. reflexivity.
Qed.
Lemma prefix_ends : forall c n t, c <> ":"%char -> (forall s, t <> s ++ L "::") -> ends_with "::" (repeat c n ++ t) = false.
Proof.
  intros c n t Nc Nd. apply (ends_false analysis rst). intros s E. change (s ++ L "::") with (s ++ [":"%char] ++ [":"%char]) in E. rewrite app_assoc in E.
  destruct t as [|x t _] using rev_ind.
  - rewrite app_nil_r in E. assert (I : In ":"%char (repeat c n)) by (rewrite E; apply in_or_app; right; left; reflexivity). apply repeat_spec in I. congruence.
  - rewrite app_assoc in E. apply app_inj_tail in E. destruct E as [E ->]. destruct t as [|x2 t _] using rev_ind.
    + rewrite app_nil_r in E. assert (I : In ":"%char (repeat c n)) by (rewrite E; apply in_or_app; right; left; reflexivity). apply repeat_spec in I. congruence.
    + rewrite app_assoc in E. apply app_inj_tail in E. destruct E as [_ ->]. apply (Nd t). rewrite <- app_assoc. reflexivity.
Qed.
Lemma ends_true : forall t, ends_with "::" (t ++ L "::") = true.
Proof.
  intros t. unfold ends_with. rewrite app_length. change (List.length (L "::")) with 2. replace (List.length t + 2 - 2) with (List.length t) by lia. rewrite skipn_app, skipn_all, Nat.sub_diag. reflexivity.
Qed.
Lemma rest_of_line : forall a l d s y b out o pend, all_stand l -> (let '(out1, o1, pend1) := y in at_ d (At a) o1 (s ++ out1) pend1) -> rest_shown wikipath a y l = Some (b, (out, o, pend)) ->
  exists d', m_each (fun g => m_each (hg g) g) (map token_caps l) d = (d', Ok tt) /\ at_ d' (At b) o (s ++ out) pend.
Proof.
  intros a l d s [[out1 o1] pend1] b out o pend A K H. unfold rest_shown in H. destruct (d_fits a l) eqn:Hf; [|discriminate H]. destruct (line_shown wikipath o1 pend1 l) as [[[out2 o2] pend2]|] eqn:E; [|discriminate H]. injection H as <- <- <- <-.
  destruct (tokens_move (At a) l [] d o1 _ pend1 out2 o2 pend2 (before_stand l A) Hf K E) as (d' & Em & K'). exists d'. split; [exact Em|]. rewrite <- app_assoc in K'. exact K'.
Qed.
Lemma def_line : forall x d st s a o pend b out o1 pend1, defs_at d st s -> d_good x -> x <> Words [] -> d_div st = (a, o, pend) -> dline_shown wikipath a o pend x = Some (b, (out, o1, pend1)) ->
  exists d', line_parse order wikipath now urlencode analysis (d_written x) d = (d', Ok tt) /\ defs_at d' (Some (b, o1, pend1)) (s ++ d_begun st ++ out).
Proof.
  intros x d st s a o pend b out o1 pend1 H G N Ei Hx. destruct (begin_line d st s a o pend H Ei) as (d0 & E0 & K0). destruct x as [l|l|n l]; cbn [dline_shown] in Hx.
  - pose proof (term_matches l G) as Ms. destruct G as (A & Hh & O). destruct (term_begins a o pend) as [out1|] eqn:Et; [|discriminate Hx]. destruct (no_headings l) eqn:Hn; [|discriminate Hx]. destruct (line_shown wikipath [] None l) as [[[out2 o2] pend2]|] eqn:El; [|discriminate Hx]. injection Hx as <- <- <- <-.
    destruct (term_starts a d0 o _ pend out1 K0 Et) as (d1 & E1 & K1). destruct (tokens_move Head l (L "::") d1 [] _ None out2 o2 pend2 A Hn K1 El) as (d2 & E2 & K2). destruct (term_ends d2 o2 _ pend2 K2) as (d3 & E3 & K3).
    exists d3. split; [|cbn [defs_at]; rewrite <- !app_assoc in K3; rewrite <- ?app_assoc; exact K3].
    pose proof (ends_true (line_text l)) as Ew. cbn [d_written] in Ms |- *.
    assert (Hc : exists c r, line_text l ++ L "::" = c :: r /\ Ascii.eqb c " " = false /\ Ascii.eqb c ">" = false).
    { destruct (line_text l) as [|c r]; [do 2 eexists; split; [reflexivity|split; reflexivity]|]. cbn [head_is] in Hh. apply orb_false_iff in Hh. destruct Hh. do 2 eexists. split; [reflexivity|]. split; assumption. }
    destruct Hc as (c & r & Er & H1 & H2). rewrite Er in *. unfold line_parse. rewrite Ew, Ms, H1, H2. unfold andthen at 1. rewrite E0.
    unfold andthen in E1. destruct (leave_block d0) as [dq [[]|e]] eqn:Eq; [|discriminate E1]. unfold andthen at 1. rewrite Eq. destruct (m_leave [TreeModel.Citation] dq) as [dr [[]|e]] eqn:Eq2; [|discriminate E1]. unfold andthen at 1. rewrite Eq2.
    unfold andthen at 1. unfold andthen at 1. destruct (start_on_not_exist DefList [] dr) as [ds [[]|e]] eqn:Eq3; [|discriminate E1]. rewrite E1. unfold andthen at 1. rewrite each_app. unfold andthen at 1. rewrite E2. cbn [m_each]. exact E3.
  - destruct (words_begin a o pend) as [b1 y] eqn:Ew. pose proof (line_matches l G) as Ms. destruct G as (A & Hh & Nd & O). pose proof (ends_false analysis rst _ Nd) as Ee. destruct y as [[out1 o2] pend2].
    destruct (words_move a d0 o _ pend b1 out1 o2 pend2 K0 Ew) as (d1 & E1 & K1). destruct (rest_of_line b1 l d1 _ (out1, o2, pend2) b out o1 pend1 A K1 Hx) as (d2 & E2 & K2).
    exists d2. split; [|rewrite <- app_assoc in K2; exact K2]. cbn [d_written]. destruct (line_text l) as [|c r] eqn:El.
    { exfalso. destruct l as [|t l]; [congruence|]. change (token_text t ++ line_text l = []) in El. apply app_eq_nil in El. destruct A as [A _]. exact (token_some t _ A (proj1 El)). }
    cbn [head_is] in Hh. apply orb_false_iff in Hh. destruct Hh as [H1 H2]. unfold line_parse. rewrite Ee, Ms, H1, H2. unfold andthen at 1. rewrite E0. unfold andthen at 1. rewrite E1. unfold andthen at 1. rewrite (cite_same d1 _ _ _ _ K1). unfold andthen at 1, ret at 1. unfold andthen at 1. rewrite E2. reflexivity.
  - destruct (inset_begins a o pend) as [[b1 y]|] eqn:Ew; [|discriminate Hx]. destruct G as (Hn & A & Hh & Ni & Nd & O). pose proof (indent_matches n l Hn A Hh Ni Nd O) as Ms. pose proof (prefix_ends " "%char n (line_text l) ltac:(discriminate) Nd) as Ee. destruct y as [[out1 o2] pend2].
    destruct (inset_moves a d0 o _ pend b1 out1 o2 pend2 K0 Ew) as (d1 & E1 & K1). destruct (rest_of_line b1 l d1 _ (out1, o2, pend2) b out o1 pend1 A K1 Hx) as (d2 & E2 & K2).
    exists d2. split; [|rewrite <- app_assoc in K2; exact K2]. cbn [d_written q_written] in Ms |- *. unfold line_parse. rewrite Ms, Ee. destruct n as [|n]; [lia|]. cbn [repeat app]. unfold andthen at 1. rewrite E0.
    unfold andthen at 1. change (Ascii.eqb " " " ") with true. change (Ascii.eqb " " ">") with false. cbn match. unfold ret at 1. unfold andthen at 1. rewrite (cite_same d0 _ _ _ _ K0). unfold andthen at 1, ret at 1. unfold andthen at 1. cbn [m_each]. unfold andthen at 1. unfold andthen at 1.
    change (hg [("_pattern_quote_or_definition_body", " "%char :: repeat " "%char n)] ("_pattern_quote_or_definition_body", " "%char :: repeat " "%char n)) with handle_quote. rewrite E1. unfold ret at 1. rewrite E2. reflexivity.
Qed.
Lemma def_lines : forall xs d st s out, defs_at d st s -> Forall d_good xs -> def_page wikipath st xs = Some out ->
  exists d' st' s', m_each (parse_line order wikipath now urlencode analysis) (map d_written xs) d = (d', Ok tt) /\ defs_at d' st' s' /\ s' ++ d_ended st' = s ++ out.
Proof.
  induction xs as [|x xs IH]; intros d st s out H F P.
  - injection P as <-. exists d, st, s. split; [reflexivity|]. split; [exact H|]. reflexivity.
  - inversion F as [|? ? G F']; subst. cbn [map m_each]. unfold andthen at 1. rewrite (defs_unwrapped d st s _ H).
    assert (D : x = Words [] \/ x <> Words []) by (destruct x as [|[|]|]; [right; discriminate|left; reflexivity|right; discriminate|right; discriminate]). destruct D as [->|N].
    + cbn [def_page] in P. destruct (def_page wikipath None xs) as [out2|] eqn:E2; [|discriminate P]. injection P as <-. destruct (defs_empty_line d st s H) as (d1 & E1 & H1). cbn [d_written line_text flat_map]. rewrite E1.
      destruct (IH d1 None _ out2 H1 F' E2) as (d' & st' & s' & E & H' & Q). exists d', st', s'. split; [exact E|]. split; [exact H'|]. rewrite Q. rewrite <- app_assoc. reflexivity.
    + assert (P1 : (let '(a, o, pend) := d_div st in match dline_shown wikipath a o pend x with Some (b, (out, o, pend)) => match def_page wikipath (Some (b, o, pend)) xs with Some s => Some (d_begun st ++ out ++ s) | None => None end | None => None end) = Some out) by (rewrite <- P; destruct x as [|[|]|]; [reflexivity|congruence|reflexivity|reflexivity]).
      clear P. destruct (d_div st) as [[a o] pend] eqn:Est. destruct (dline_shown wikipath a o pend x) as [[b [[out1 o1] pend1]]|] eqn:Ex; [|discriminate P1]. destruct (def_page wikipath (Some (b, o1, pend1)) xs) as [out3|] eqn:E3; [|discriminate P1]. injection P1 as <-.
      destruct (def_line x d st s a o pend b out1 o1 pend1 H G N Est Ex) as (d1 & E1 & H1). rewrite E1.
      destruct (IH d1 (Some (b, o1, pend1)) _ out3 H1 F' E3) as (d' & st' & s' & E & H' & Q). exists d', st', s'. split; [exact E|]. split; [exact H'|]. rewrite Q. rewrite <- !app_assoc. reflexivity.
Qed.
Lemma defs_html : forall d st s, defs_at d st s -> make_html order rst d = Ok (s ++ d_ended st).
Proof.
  intros d st s H. assert (G : forall stk pend t, keeps d stk s pend -> closes stk = Ok t -> make_html order rst d = Ok (s ++ pended pend ++ List.concat t)).
  { intros stk pend t [B N] Ht. pose proof (back_whole order rst d stk s pend t B Ht) as R. rewrite make_html_contents. unfold render_contents. unfold render in R.
    destruct (visit_ok d (ab_wf _ _ _ _ _ _ B)) as (vs & A & _). rewrite A in R |- *.
    rewrite write_plain; [exact R|]. intros i _ (n & Hn & K). unfold no_contents in N. rewrite Forall_forall in N. apply nth_error_In in Hn. exact (N n Hn K). }
  destruct st as [[[a o] pend]|].
  - rewrite (G _ _ _ H (close_all a o)). cbn [d_ended]. unfold finished. rewrite concat_ends, settled_pended, <- app_assoc. reflexivity.
  - apply (G _ _ [] H). reflexivity.
Qed.
Lemma d_line : forall x, d_good x -> one_line (d_written x).
Proof.
  intros [l|l|n l] G; cbn [d_written].
  - destruct G as (_ & _ & O). intros c I. apply in_app_or in I. destruct I as [I|I]; [exact (O c I)|]. destruct I as [<-|[<-|[]]]; split; discriminate.
  - apply G.
  - intros c I; apply in_app_or in I; (destruct I as [I|I]; [apply repeat_spec in I; subst c; split; discriminate|]). destruct G as (_ & _ & _ & _ & _ & O). exact (O c I).
Qed.
Lemma defs_shown : forall xs out, Forall d_good xs -> def_page wikipath None xs = Some out -> html order wikipath now urlencode analysis rst (lines_text (map d_written xs)) = Ok out.
Proof.
  intros xs out F P. unfold html, parse. rewrite splitlines_text.
  - assert (H0 : defs_at new_doc None []) by (split; [apply back_new|constructor; [discriminate|constructor]]).
    destruct (def_lines xs new_doc None [] out H0 F P) as (d & st & s & E & H & Q). rewrite E. rewrite (defs_html d st s H). rewrite Q. reflexivity.
  - intros s I. apply in_map_iff in I. destruct I as (l & <- & I). rewrite Forall_forall in F. apply d_line. exact (F l I).
Qed.
End Defs.
Lemma defs_partial : forall order wikipath now urlencode analysis rst xs out, Forall d_good xs -> def_page wikipath None xs = Some out ->
  html order wikipath now urlencode analysis rst (lines_text (map d_written xs)) = Ok out.
Proof. intros. apply defs_shown; assumption. Qed.
(* the line after definitions *)
Lemma still_in_list : exists out before after, html design_names [] [] (fun _ => []) (fun _ => Exc KeyError) (fun s => Ok s) (lines_text [L "a::"; L "  b"; L "c"]) = Ok out
  /\ out = before ++ L "c" ++ after /\ lists_around before = 1 /\ occurrences (L "<dd>") before = occurrences (L "</dd>") before /\ occurrences (L "<dt>") before = occurrences (L "</dt>") before.
Proof.
  destruct (html design_names [] [] (fun _ => []) (fun _ => Exc KeyError) (fun s => Ok s) (lines_text [L "a::"; L "  b"; L "c"])) as [out|e] eqn:E; [|vm_compute in E; discriminate E].
  exists out, (firstn 37 out), (skipn 38 out). split; [reflexivity|]. vm_compute in E. injection E as <-. split; [|split; [|split]]; vm_compute; reflexivity.
Qed.
(* ---- lists of definitions ---- *)
Definition an_inset (x : nat * list token) : dline := Inset (fst x) (snd x).
Definition over (o : list mark) (pend : option str) : str * option str := match o with [] => ([], pend) | _ => (finished o pend, None) end.
Lemma body_page : forall w bs o pend s, forallb (fun x => no_headings (snd x)) bs = true -> body_shown w (snd (over o pend)) (map snd bs) = Some s ->
  exists x o1 p1, x ++ finished o1 p1 = fst (over o pend) ++ s /\ forall ys r, def_page w (Some (InBody, o1, p1)) ys = Some r -> def_page w (Some (InBody, o, pend)) (map an_inset bs ++ ys) = Some (x ++ r).
Proof.
  intros w. induction bs as [|[n l] bs IH]; intros o pend s Hd H.
  - injection H as <-. exists [], o, pend. split; [|intros ys r Hr; exact Hr]. destruct o; cbn [over fst snd app]; unfold finished; cbn [flat_map settled]; rewrite ?app_nil_r; reflexivity.
  - cbn [forallb snd] in Hd. apply andb_prop in Hd. destruct Hd as [Hl Hd]. cbn [map snd body_shown] in H. destruct (line_shown w [] (snd (over o pend)) l) as [[[out o2] p2]|] eqn:El; [|discriminate H].
    assert (Hs : exists t, body_shown w (snd (over o2 p2)) (map snd bs) = Some t /\ s = out ++ fst (over o2 p2) ++ t).
    { destruct o2 as [|m o2]; cbn [over fst snd app]; [destruct (body_shown w p2 (map snd bs)) as [t|]; [|discriminate H]|destruct (body_shown w None (map snd bs)) as [t|]; [|discriminate H]]; injection H as <-; exists t; split; reflexivity. }
    destruct Hs as (t & Ht & ->). destruct (IH o2 p2 t Hd Ht) as (x & o1 & p1 & Q & P). exists (fst (over o pend) ++ out ++ x), o1, p1. split; [rewrite <- !app_assoc, Q; reflexivity|].
    intros ys r Hr. specialize (P ys r Hr). cbn [map app def_page an_inset fst snd d_div dline_shown].
    assert (Ei : inset_begins InBody o pend = Some (InBody, (fst (over o pend), [], snd (over o pend)))) by (destruct o; reflexivity). rewrite Ei. cbn [rest_shown d_fits]. rewrite Hl, El, P. cbn [d_begun app]. rewrite <- !app_assoc. reflexivity.
Qed.
Definition entry_dlines (e : entry) : list dline := Term (fst e) :: map an_inset (snd e).
Lemma entry_page : forall w a o pend out0 e s, term_begins a o pend = Some (out0 ++ dt_open) -> entry_plain e = true -> entry_shown w e = Some s ->
  exists x o1 p1, x ++ finished o1 p1 ++ dd_close = out0 ++ s /\ forall st ys r, d_div st = (a, o, pend) -> def_page w (Some (InBody, o1, p1)) ys = Some r -> def_page w st (entry_dlines e ++ ys) = Some (d_begun st ++ x ++ r).
Proof.
  intros w a o pend out0 [l bs] s Ht He Hs. unfold entry_plain in He. cbn [fst snd] in He. apply andb_prop in He. destruct He as [Hl Hb]. unfold entry_shown in Hs. cbn [fst snd] in Hs.
  destruct (line_shown w [] None l) as [[[out o2] p2]|] eqn:El; [|discriminate Hs]. destruct (body_shown w None (map snd bs)) as [t|] eqn:Eb; [|discriminate Hs]. injection Hs as <-.
  destruct (body_page w bs [] None t Hb Eb) as (x & o1 & p1 & Q & P). cbn [over fst app] in Q. exists ((out0 ++ dt_open) ++ (out ++ finished o2 p2 ++ dt_close ++ dd_open) ++ x), o1, p1. split; [rewrite <- !app_assoc; rewrite (app_assoc x), Q; reflexivity|].
  intros st ys r Hst Hr. specialize (P ys r Hr). unfold entry_dlines. cbn [fst snd app def_page]. rewrite Hst. cbn [dline_shown]. rewrite Ht, Hl, El, P. rewrite <- !app_assoc. reflexivity.
Qed.
Lemma entries_page : forall w es o pend s, forallb entry_plain es = true -> entries_shown w es = Some s ->
  def_page w (Some (InBody, o, pend)) (flat_map entry_dlines es) = Some (finished o pend ++ dd_close ++ s ++ dl_close ++ L "</div>" ++ ShowSpec.nl).
Proof.
  intros w. induction es as [|e es IH]; intros o pend s Hp Hs.
  - injection Hs as <-. cbn [flat_map def_page d_ended d_ends app]. rewrite <- !app_assoc. reflexivity.
  - cbn [forallb] in Hp. apply andb_prop in Hp. destruct Hp as [He Hp]. cbn [entries_shown] in Hs. destruct (entry_shown w e) as [s1|] eqn:E1; [|discriminate Hs]. destruct (entries_shown w es) as [s2|] eqn:E2; [|discriminate Hs]. injection Hs as <-.
    destruct (entry_page w InBody o pend (finished o pend ++ dd_close) e s1) as (x & o1 & p1 & Q & P); [cbn [term_begins]; rewrite <- app_assoc; reflexivity|exact He|exact E1|].
    cbn [flat_map]. rewrite (P (Some (InBody, o, pend)) _ _ eq_refl (IH o1 p1 s2 Hp eq_refl)). cbn [d_begun app]. f_equal. transitivity ((x ++ finished o1 p1 ++ dd_close) ++ s2 ++ dl_close ++ L "</div>" ++ ShowSpec.nl); [rewrite <- !app_assoc; reflexivity|]. rewrite Q, <- !app_assoc. reflexivity.
Qed.
(* terms with their definitions are one list *)
Lemma list_of_definitions : forall order wikipath now urlencode analysis rst es out, es <> [] -> Forall entry_good es -> forallb entry_plain es = true -> entries_shown wikipath es = Some out ->
  html order wikipath now urlencode analysis rst (lines_text (flat_map entry_lines es)) = Ok (L "<div>" ++ ShowSpec.nl ++ dl_open ++ out ++ dl_close ++ L "</div>" ++ ShowSpec.nl).
Proof.
  intros order wikipath now urlencode analysis rst es out N F Hp Hs.
  assert (Et : flat_map entry_lines es = map d_written (flat_map entry_dlines es)).
  { clear. induction es as [|e es IH]; [reflexivity|]. cbn [flat_map]. rewrite map_app, <- IH. f_equal. unfold entry_lines, entry_dlines. cbn [map d_written]. rewrite map_map. reflexivity. }
  rewrite Et. apply defs_shown.
  - clear - F. induction F as [|e es [G1 G2] F IH]; [constructor|]. cbn [flat_map]. apply Forall_app. split; [|exact IH]. constructor; [exact G1|]. apply Forall_map. exact G2.
  - destruct es as [|e es]; [congruence|]. cbn [forallb] in Hp. apply andb_prop in Hp. destruct Hp as [He Hp]. cbn [entries_shown] in Hs. destruct (entry_shown wikipath e) as [s1|] eqn:E1; [|discriminate Hs]. destruct (entries_shown wikipath es) as [s2|] eqn:E2; [|discriminate Hs]. injection Hs as <-.
    destruct (entry_page wikipath NoList [] None dl_open e s1 eq_refl He E1) as (x & o1 & p1 & Q & P). cbn [flat_map]. rewrite (P None _ _ eq_refl (entries_page wikipath es o1 p1 s2 Hp E2)). cbn [d_begun]. f_equal.
    transitivity ((L "<div>" ++ ShowSpec.nl) ++ (x ++ finished o1 p1 ++ dd_close) ++ s2 ++ dl_close ++ L "</div>" ++ ShowSpec.nl); [rewrite <- !app_assoc; reflexivity|]. rewrite Q, <- !app_assoc. reflexivity.
Qed.
