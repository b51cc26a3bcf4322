(* Pages with tables *)
From Verif Require Import Py PyFacts Re Rx RxFacts HtmlModel HtmlSpec HtmlProofs TreeModel TreeSpec TreeProofs TreeVisit TreeHtml TreeText TreeStream TocModel TocSpec TocProofs WikiModel WikiSpec WikiInv WikiMatch WikiWalk WikiText WikiProofs WikiLink CmpProofs AnalysisPage ShowSpec ShowRead ShowMatch ShowProofs ShowPage ShowWhole ListSpec ListMatch TableSpec TableMatch.
Open Scope string_scope.
Open Scope list_scope.
Open Scope nat_scope.

Section Tables.
Variables (order : list string) (wikipath now : str) (urlencode : list (string * str) -> str) (analysis : str -> res (list table)) (rst : str -> res str).
Notation keeps := (ShowProofs.keeps order rst).
Notation attrs_t := (list (string * value)).
Notation hg := (handle_group order wikipath now urlencode analysis).
Definition wiki_class : attrs_t := [("class", VStr (L "wiki"))].
Definition base_of (w : spot_in) : list (klass * attrs_t) :=
  match w with OutOf => [(Div, [])] | InTable => [(Table, wiki_class); (Div, [])] | InCell => [(TableCell, []); (TableRow, []); (Table, wiki_class); (Div, [])] end.
Notation at_ d w o s pend := (shows order rst (base_of w) d o s pend).
Lemma base_in : forall w k a, In (k, a) (base_of w) -> k = Div \/ k = Table \/ k = TableRow \/ k = TableCell.
Proof. intros w k a I. destruct w; cbn in I; repeat (destruct I as [I|I]; [injection I as <- _; auto|]); destruct I. Qed.
Lemma base_span : forall w k, is_a k Span = true -> is_acceptable (base_top (base_of w)) k = true.
Proof. intros w k H. destruct w; unfold base_top, is_acceptable, is_any, base_of; cbn [acceptables existsb]; rewrite H, ?orb_true_r; reflexivity. Qed.
Lemma base_marks : forall w k a m, In (k, a) (base_of w) -> is_any k [mark_klass m] = false.
Proof. intros w k a m I. apply base_in in I. destruct I as [->|[->|[->| ->]]]; destruct m; reflexivity. Qed.
Lemma base_heads : forall w t, fits_in w t = true -> heads_fit (base_of w) t.
Proof.
  intros w t H m -> Hm. destruct w; [destruct m; try discriminate Hm; reflexivity| |]; cbn in H; rewrite Hm in H; discriminate H.
Qed.
Lemma close_marks : forall o rest t, mapM (fun ka => close order rst (mknode (fst ka) (snd ka) [] None None [])) rest = Ok t ->
  mapM (fun ka => close order rst (mknode (fst ka) (snd ka) [] None None [])) (map (fun m => (mark_klass m, @nil (string * value))) o ++ rest) = Ok (map mark_close o ++ t).
Proof. intros o rest t H. induction o as [|m o IH]; [exact H|]. cbn [map app mapM fst snd]. rewrite close_mark. cbn [bind]. rewrite IH. reflexivity. Qed.
(* leaving the first element of a class that is no mark *)
Lemma leave_to : forall k d o inner a base s pend cl, keeps d (map (fun m => (mark_klass m, [])) o ++ inner ++ (k, a) :: base) s pend -> is_any k [k] = true -> (forall m, is_any (mark_klass m) [k] = false) -> (forall k' a', In (k', a') inner -> is_any k' [k] = false) ->
  mapM (fun ka => close order rst (mknode (fst ka) (snd ka) [] None None [])) (inner ++ [(k, a)]) = Ok cl ->
  exists d', m_leave [k] d = (d', Ok tt) /\ keeps d' base (s ++ settled pend ++ flat_map mark_close o ++ List.concat cl) None.
Proof.
  intros k d o inner a base s pend cl [B N] Hk Hm Hi Hc. rewrite app_assoc in B.
  destruct (back_leaves order rst _ d k a base s pend [k] (map mark_close o ++ cl) B) as (d' & E & Nd & B').
  - intros k' a' I. apply in_app_or in I. destruct I as [I|I]; [apply in_map_iff in I; destruct I as (m & X & _); injection X as <- _; apply Hm|exact (Hi k' a' I)].
  - exact Hk.
  - rewrite <- app_assoc. apply close_marks. exact Hc.
  - exists d'. split; [exact E|]. split; [|unfold no_contents; rewrite Nd; exact N]. rewrite concat_app, <- flat_map_concat_map, settled_pended in B'. exact B'.
Qed.
Lemma leave_none : forall k d st s pend, keeps d st s pend -> is_any BgRoot [k] = false -> (forall k' a', In (k', a') st -> is_any k' [k] = false) -> m_leave [k] d = (d, Ok tt).
Proof. intros k d st s pend K H1 H2. apply (keeps_same order rst [k] d st s pend K H1 H2). Qed.
Lemma start_new : forall k a o_text d st s pend, keeps d st s pend -> is_any BgRoot [k] = false -> (forall k' a', In (k', a') st -> is_any k' [k] = false) -> is_acceptable (match st with (c, _) :: _ => c | [] => BgRoot end) k = true ->
  k <> Text -> k <> MacroNode -> k <> Wrapping -> k <> BgRoot -> open order (created k a None) = Ok o_text -> exists d', start_on_not_exist k a d = (d', Ok tt) /\ keeps d' ((k, a) :: st) (s ++ settled pend ++ o_text) None.
Proof.
  intros k a ot d st s pend K H1 H2 H3 N1 N2 N3 N4 Ho. destruct (keeps_push order rst k a ot d st s pend) as (d' & E & K'); try assumption. exists d'. unfold start_on_not_exist, andthen. rewrite (keeps_none order rst k d st s pend K H1 H2). split; [exact E|].
  rewrite settled_pended in K'. exact K'.
Qed.
Lemma start_there : forall k a d st s pend, keeps d st s pend -> is_any BgRoot [k] = false -> (exists a', In (k, a') st) -> start_on_not_exist k a d = (d, Ok tt).
Proof. intros k a d st s pend K H1 H2. destruct (keeps_some order rst k d st s pend K H1 H2) as [p Hp]. unfold start_on_not_exist, andthen. rewrite Hp. reflexivity. Qed.
Lemma stack_none : forall o w k, (forall m, is_any (mark_klass m) [k] = false) -> (forall k' a', In (k', a') (base_of w) -> is_any k' [k] = false) -> forall k' a', In (k', a') (ShowPage.stack (base_of w) o) -> is_any k' [k] = false.
Proof. intros o w k H1 H2. apply stack_any; [intros m _; apply H1|exact H2]. Qed.
Ltac no_marks := intros []; reflexivity.
Ltac not_among := let I := fresh in intros ? ? I; cbn in I; repeat (destruct I as [I|I]; [injection I as <- _; reflexivity|]); destruct I.
Lemma bar_moves : forall d w o s pend out, at_ d w o s pend -> cell_begun w o pend = Some out ->
  exists d', (start_on_not_exist Table wiki_class ;; start_on_not_exist TableRow [] ;; m_leave [TableCell] ;; m_push TableCell []) d = (d', Ok tt) /\ at_ d' InCell [] (s ++ out) None.
Proof.
  intros d w o s pend out K H. unfold shows in K.
  assert (Fin : forall d1 s1 pend1, keeps d1 [(TableRow, []); (Table, wiki_class); (Div, [])] s1 pend1 -> exists d', m_push TableCell [] d1 = (d', Ok tt) /\ at_ d' InCell [] (s1 ++ settled pend1 ++ cell_open) None).
  { intros d1 s1 pend1 K1. destruct (keeps_push order rst TableCell [] cell_open d1 [(TableRow, []); (Table, wiki_class); (Div, [])] s1 pend1 eq_refl ltac:(discriminate) ltac:(discriminate) ltac:(discriminate) ltac:(discriminate) eq_refl K1) as (d' & E & K'). exists d'. split; [exact E|]. rewrite settled_pended in K'. exact K'. }
  assert (Row : forall d1 s1 pend1, keeps d1 [(Table, wiki_class); (Div, [])] s1 pend1 -> exists d', (start_on_not_exist TableRow [] ;; m_leave [TableCell] ;; m_push TableCell []) d1 = (d', Ok tt) /\ at_ d' InCell [] (s1 ++ settled pend1 ++ row_open ++ cell_open) None).
  { intros d1 s1 pend1 K1. destruct (start_new TableRow [] row_open d1 _ s1 pend1 K1 eq_refl ltac:(not_among) eq_refl ltac:(discriminate) ltac:(discriminate) ltac:(discriminate) ltac:(discriminate) eq_refl) as (d2 & E2 & K2).
    destruct (Fin d2 _ _ K2) as (d3 & E3 & K3). exists d3. unfold andthen. rewrite E2. rewrite (leave_none TableCell d2 _ _ _ K2 eq_refl ltac:(not_among)). split; [exact E3|]. cbn [settled app] in K3. rewrite <- !app_assoc in K3. exact K3. }
  destruct w.
  - destruct o; [|discriminate H]. injection H as <-. change (ShowPage.stack (base_of OutOf) []) with [(Div, @nil (string * value))] in K.
    destruct (start_new Table wiki_class table_open d _ s pend K eq_refl ltac:(not_among) eq_refl ltac:(discriminate) ltac:(discriminate) ltac:(discriminate) ltac:(discriminate) eq_refl) as (d2 & E2 & K2).
    destruct (Row d2 _ _ K2) as (d3 & E3 & K3). exists d3. unfold andthen at 1. rewrite E2. split; [exact E3|]. cbn [settled app] in K3. rewrite <- !app_assoc in K3. exact K3.
  - destruct o; [|discriminate H]. injection H as <-. change (ShowPage.stack (base_of InTable) []) with [(Table, wiki_class); (Div, @nil (string * value))] in K.
    destruct (Row d _ _ K) as (d3 & E3 & K3). exists d3. unfold andthen at 1. rewrite (start_there Table wiki_class d _ s pend K eq_refl) by (eexists; left; reflexivity). split; [exact E3|exact K3].
  - injection H as <-. unfold andthen at 1. rewrite (start_there Table wiki_class d _ s pend K eq_refl) by (exists wiki_class; apply in_or_app; right; cbn; tauto). unfold andthen at 1. rewrite (start_there TableRow [] d _ s pend K eq_refl) by (exists []; apply in_or_app; right; cbn; tauto).
    destruct (leave_to TableCell d o [] [] [(TableRow, []); (Table, wiki_class); (Div, [])] s pend [cell_close] K eq_refl ltac:(no_marks) ltac:(intros ? ? []) eq_refl) as (d1 & E1 & K1).
    destruct (Fin d1 _ _ K1) as (d2 & E2 & K2). exists d2. unfold andthen. rewrite E1. split; [exact E2|]. cbn [settled app List.concat] in K2. rewrite app_nil_r, <- !app_assoc in K2. exact K2.
Qed.
Lemma shut_moves : forall e d w o s pend, at_ d w o s pend -> exists d', m_each (fun g => m_each (hg g) g) (shut_caps e) d = (d', Ok tt) /\ let '(out, w', o', pend') := row_ended e w o pend in at_ d' w' o' (s ++ out) pend'.
Proof.
  intros e d w o s pend K. destruct e as [n|]; [|exists d; split; [reflexivity|]; cbn [row_ended]; rewrite app_nil_r; exact K].
  assert (Eh : m_each (fun g => m_each (hg g) g) (shut_caps (Some n)) d = m_leave [TableRow] d).
  { cbn [shut_caps m_each]. change (hg [("_pattern_table_end", L "||" ++ repeat " "%char n)] ("_pattern_table_end", L "||" ++ repeat " "%char n)) with (m_leave [TableRow]). unfold andthen, ret. destruct (m_leave [TableRow] d) as [d1 [[]|x]]; reflexivity. }
  rewrite Eh. destruct w; cbn [row_ended].
  - exists d. split; [|rewrite app_nil_r; exact K]. apply (leave_none TableRow d _ s pend K eq_refl). apply stack_none; [no_marks|not_among].
  - exists d. split; [|rewrite app_nil_r; exact K]. apply (leave_none TableRow d _ s pend K eq_refl). apply stack_none; [no_marks|not_among].
  - destruct (leave_to TableRow d o [(TableCell, [])] [] [(Table, wiki_class); (Div, [])] s pend [cell_close; row_close] K eq_refl ltac:(no_marks) ltac:(not_among) eq_refl) as (d1 & E1 & K1).
    exists d1. split; [exact E1|]. cbn [List.concat] in K1. rewrite app_nil_r in K1. exact K1.
Qed.
Lemma pieces_move : forall ps rest d w o s pend out w' o' pend', pieces_stand ps rest -> at_ d w o s pend -> pieces_shown wikipath w o pend ps = Some (out, w', o', pend') ->
  exists d', m_each (fun g => m_each (hg g) g) (map piece_caps ps) d = (d', Ok tt) /\ at_ d' w' o' (s ++ out) pend'.
Proof.
  induction ps as [|p ps IH]; intros rest d w o s pend out w' o' pend' A K H.
  - injection H as <- <- <- <-. exists d. split; [reflexivity|]. rewrite app_nil_r. exact K.
  - destruct A as [St A]. cbn [pieces_shown] in H.
    assert (G : forall s1 w1 o1 pend1 d1, at_ d1 w1 o1 (s ++ s1) pend1 -> m_each (hg (piece_caps p)) (piece_caps p) d = (d1, Ok tt) ->
      match pieces_shown wikipath w1 o1 pend1 ps with Some (s2, w, o, pend) => Some (s1 ++ s2, w, o, pend) | None => None end = Some (out, w', o', pend') ->
      exists d', m_each (fun g => m_each (hg g) g) (map piece_caps (p :: ps)) d = (d', Ok tt) /\ at_ d' w' o' (s ++ out) pend').
    { intros s1 w1 o1 pend1 d1 K1 E1 H1. destruct (pieces_shown wikipath w1 o1 pend1 ps) as [[[[s2 w2] o2] pend2]|] eqn:E2; [|discriminate H1]. injection H1 as <- <- <- <-.
      destruct (IH rest d1 w1 o1 (s ++ s1) pend1 s2 w2 o2 pend2 A K1 E2) as (d' & E & K'). exists d'. cbn [map m_each]. unfold andthen. rewrite E1. split; [exact E|]. rewrite <- app_assoc in K'. exact K'. }
    destruct p as [t| |].
    + destruct (fits_in w t) eqn:Hf; [|discriminate H]. rewrite line_step in H. destruct (step wikipath o pend t) as [[[s1 o1] pend1]|] eqn:E1; [|discriminate H]. cbn [line_shown] in H. rewrite app_nil_r in H.
      destruct (token_moves order wikipath now urlencode analysis rst (base_of w) (base_span w) (base_marks w) t _ o pend s1 o1 pend1 St (base_heads w t Hf) E1 d s K) as (d1 & Em & K1). exact (G s1 w o1 pend1 d1 K1 Em H).
    + destruct (cell_begun w o pend) as [s1|] eqn:E1; [|discriminate H]. destruct (bar_moves d w o s pend s1 K E1) as (d1 & Em & K1). apply (G s1 InCell [] None d1 K1); [|exact H].
      cbn [piece_caps m_each]. change (hg [("_pattern_table_cell", L "||")] ("_pattern_table_cell", L "||")) with (start_on_not_exist Table wiki_class ;; start_on_not_exist TableRow [] ;; m_leave [TableCell] ;; m_push TableCell []).
      unfold andthen at 1. rewrite Em. reflexivity.
    + destruct (moves_text order rst (base_of w) (L "||") o pend d s K) as (d1 & Em & K1). apply (G [] w o (more pend (L "||")) d1 K1); [|exact H].
      cbn [piece_caps m_each]. change (hg [("_pattern_table_cell", L "!||")] ("_pattern_table_cell", L "!||")) with (m_text (L "||")). unfold andthen at 1. rewrite Em. reflexivity.
Qed.
(* ---- whole pages ---- *)
Definition tables_at (d : doc) (st : table_state) (s : str) : Prop := match st with Some (w, o, pend) => at_ d w o s pend | None => keeps d [] s None end.
Lemma tables_unwrapped : forall d st s line, tables_at d st s -> parse_line order wikipath now urlencode analysis line d = line_parse order wikipath now urlencode analysis line d.
Proof.
  intros d st s line H. unfold parse_line.
  assert (X : exists stk pend, keeps d stk s pend /\ forall k a, In (k, a) stk -> k <> Wrapping).
  { destruct st as [[[w o] pend]|]; [|exists [], None; split; [exact H|intros k a []]]. exists (ShowPage.stack (base_of w) o), pend. split; [exact H|]. intros k a I. unfold ShowPage.stack in I. apply in_app_or in I. destruct I as [I|I].
    - apply in_map_iff in I. destruct I as (m & E & _). injection E as <- _. destruct m; discriminate.
    - apply base_in in I. destruct I as [->|[->|[->| ->]]]; discriminate. }
  destruct X as (stk & pend & [B _] & N). destruct (back_path order rst d stk s pend B) as (c & -> & P & _). inversion P as [n Hn K|p q n st' Hn Hp Hl K1 K2 K3 K4 P' E1 E2]; subst.
  - rewrite Hn, K. reflexivity.
  - rewrite Hn. specialize (N (cls n) (attrs n) (or_introl eq_refl)). destruct (cls n); try reflexivity. congruence.
Qed.
Definition ends (w : spot_in) : list str := match w with OutOf => [L "</div>" ++ ShowSpec.nl] | InTable => [table_close; L "</div>" ++ ShowSpec.nl] | InCell => [cell_close; row_close; table_close; L "</div>" ++ ShowSpec.nl] end.
Lemma close_all : forall w o, mapM (fun ka => close order rst (mknode (fst ka) (snd ka) [] None None [])) (ShowPage.stack (base_of w) o) = Ok (map mark_close o ++ ends w).
Proof. intros w o. apply close_marks. destruct w; reflexivity. Qed.
Lemma concat_ends : forall w o, List.concat (map mark_close o ++ ends w) = flat_map mark_close o ++ ended_in w ++ L "</div>" ++ ShowSpec.nl.
Proof. intros w o. rewrite concat_app, <- flat_map_concat_map. f_equal. destruct w; reflexivity. Qed.
Lemma tables_empty_line : forall d st s, tables_at d st s -> exists d', line_parse order wikipath now urlencode analysis [] d = (d', Ok tt) /\ tables_at d' None (s ++ t_ended st).
Proof.
  intros d st s H. unfold line_parse, andthen, run_op.
  assert (G : exists d', m_leave [Div] d = (d', Ok tt) /\ keeps d' [] (s ++ t_ended st) None).
  { destruct st as [[[w o] pend]|].
    - destruct (leave_to Div d o (removelast (base_of w)) [] [] s pend (ends w)) as (d' & E & K').
      + destruct w; exact H.
      + reflexivity.
      + no_marks.
      + destruct w; not_among.
      + destruct w; reflexivity.
      + exists d'. split; [exact E|]. cbn [t_ended]. pose proof (concat_ends w []) as X. cbn [map flat_map app] in X. rewrite X in K'. exact K'.
    - exists d. split; [apply (leave_none Div d [] s None H eq_refl); intros k a []|]. cbn [t_ended]. rewrite app_nil_r. exact H. }
  destruct G as (d' & E & K). rewrite E. cbn [exec]. unfold done. eexists. split; [reflexivity|]. destruct K as [B N]. destruct (back_path order rst d' [] _ None B) as (c & Hc & P & _).
  inversion P as [n Hn Kn|]; subst. unfold goto. assert (X : mkdoc (nodes d') (Some root) = d') by (destruct d'; cbn in *; congruence). rewrite X. split; assumption.
Qed.
Lemma begin_line : forall d st s w o pend, tables_at d st s -> t_div st = (w, o, pend) -> exists d0, start_on_not_exist Div [] d = (d0, Ok tt) /\ at_ d0 w o (s ++ t_begun st) pend.
Proof.
  intros d st s w o pend H E. destruct st as [[[w' o'] pend']|]; cbn [t_div t_begun] in *; injection E as <- <- <-.
  - exists d. split; [|rewrite app_nil_r; exact H]. apply (start_there Div [] d _ s pend' H eq_refl). exists []. apply in_or_app. right. destruct w'; cbn; tauto.
  - destruct (start_new Div [] (L "<div>" ++ ShowSpec.nl) d [] s None H eq_refl ltac:(intros k a []) eq_refl ltac:(discriminate) ltac:(discriminate) ltac:(discriminate) ltac:(discriminate) eq_refl) as (d0 & Ep & K). exists d0. split; [exact Ep|exact K].
Qed.
Lemma leave_same : forall ks d w o s pend, at_ d w o s pend -> is_any BgRoot ks = false -> is_any Div ks = false -> is_any Table ks = false -> is_any TableRow ks = false -> is_any TableCell ks = false -> (forall m, is_any (mark_klass m) ks = false) -> m_leave ks d = (d, Ok tt).
Proof.
  intros ks d w o s pend K H1 H2 H3 H4 H5 H6. apply (keeps_same order rst ks d _ s pend K H1). apply stack_any; [intros m _; apply H6|]. intros k a I. apply base_in in I. destruct I as [->|[->|[->| ->]]]; assumption.
Qed.
Lemma each_app : forall {X} (f : X -> M unit) a b d, m_each f (a ++ b) d = (m_each f a ;; m_each f b) d.
Proof.
  intros X f a b. induction a as [|x a IH]; intros d; [reflexivity|]. cbn [app m_each]. unfold andthen. destruct (f x d) as [d1 [[]|e]]; [|reflexivity]. rewrite IH. reflexivity.
Qed.
Lemma row_line : forall r d st s w o pend out1 w1 o1 pend1 out2 w2 o2 pend2, tables_at d st s -> row_good r -> row_text r <> [] -> t_div st = (w, o, pend) ->
  pieces_shown wikipath w o pend (pieces r) = Some (out1, w1, o1, pend1) -> row_ended (shut r) w1 o1 pend1 = (out2, w2, o2, pend2) ->
  exists d', line_parse order wikipath now urlencode analysis (row_text r) d = (d', Ok tt) /\ tables_at d' (Some (w2, o2, pend2)) (s ++ t_begun st ++ out1 ++ out2).
Proof.
  intros r d st s w o pend out1 w1 o1 pend1 out2 w2 o2 pend2 H G N Ei Hp He. pose proof (row_matches r G) as Ms. destruct G as (A & Hh & Nd & O). pose proof (ends_false analysis rst _ Nd) as Ew.
  destruct (begin_line d st s w o pend H Ei) as (d0 & E0 & K0). destruct (pieces_move _ _ d0 w o _ pend out1 w1 o1 pend1 A K0 Hp) as (d1 & E1 & K1). destruct (shut_moves (shut r) d1 w1 o1 _ pend1 K1) as (d2 & E2 & K2). rewrite He in K2.
  exists d2. split; [|rewrite <- !app_assoc in K2; exact K2]. destruct (row_text r) as [|c t] eqn:El; [congruence|]. cbn [head_is] in Hh. apply orb_false_iff in Hh. destruct Hh as [H1 H2]. unfold line_parse. rewrite Ew, Ms, H1, H2. unfold andthen at 1. rewrite E0.
  unfold andthen at 1. rewrite (leave_same [BlockQuote; DefBody] d0 w o _ pend K0) by (reflexivity || (intros []; reflexivity)). unfold andthen at 1. rewrite (leave_same [Citation] d0 w o _ pend K0) by (reflexivity || (intros []; reflexivity)).
  unfold andthen at 1, ret at 1. unfold andthen at 1. rewrite each_app. unfold andthen at 1. rewrite E1, E2. reflexivity.
Qed.
Lemma table_lines : forall rs d st s out, tables_at d st s -> Forall row_good rs -> table_page wikipath st rs = Some out ->
  exists d' st' s', m_each (parse_line order wikipath now urlencode analysis) (map row_text rs) d = (d', Ok tt) /\ tables_at d' st' s' /\ s' ++ t_ended st' = s ++ out.
Proof.
  induction rs as [|r rs IH]; intros d st s out H F P.
  - injection P as <-. exists d, st, s. split; [reflexivity|]. split; [exact H|]. reflexivity.
  - inversion F as [|? ? G F']; subst. cbn [map m_each]. unfold andthen at 1. rewrite (tables_unwrapped d st s _ H).
    destruct (row_text r) as [|c t] eqn:Er.
    + cbn [table_page] in P. rewrite Er in P. destruct (table_page wikipath None rs) as [out2|] eqn:E2; [|discriminate P]. injection P as <-. destruct (tables_empty_line d st s H) as (d1 & E1 & H1). rewrite E1.
      destruct (IH d1 None _ out2 H1 F' E2) as (d' & st' & s' & E & H' & Q). exists d', st', s'. split; [exact E|]. split; [exact H'|]. rewrite Q. rewrite <- app_assoc. reflexivity.
    + cbn [table_page] in P. rewrite Er in P. destruct (t_div st) as [[w o] pend] eqn:Est. destruct (pieces_shown wikipath w o pend (pieces r)) as [[[[out1 w1] o1] pend1]|] eqn:Ep; [|discriminate P].
      destruct (row_ended (shut r) w1 o1 pend1) as [[[out2 w2] o2] pend2] eqn:Ee. destruct (table_page wikipath (Some (w2, o2, pend2)) rs) as [out3|] eqn:E3; [|discriminate P]. injection P as <-.
      assert (N : row_text r <> []) by (rewrite Er; discriminate). destruct (row_line r d st s w o pend out1 w1 o1 pend1 out2 w2 o2 pend2 H G N Est Ep Ee) as (d1 & E1 & H1). rewrite <- Er, E1.
      destruct (IH d1 (Some (w2, o2, pend2)) _ out3 H1 F' E3) as (d' & st' & s' & E & H' & Q). exists d', st', s'. split; [exact E|]. split; [exact H'|]. rewrite Q. rewrite <- !app_assoc. reflexivity.
Qed.
Lemma tables_html : forall d st s, tables_at d st s -> make_html order rst d = Ok (s ++ t_ended st).
Proof.
  intros d st s H. assert (G : forall stk pend t, keeps d stk s pend -> mapM (fun ka => close order rst (mknode (fst ka) (snd ka) [] None None [])) stk = Ok t -> make_html order rst d = Ok (s ++ pended pend ++ List.concat t)).
  { intros stk pend t [B N] Ht. pose proof (back_whole order rst d stk s pend t B Ht) as R. rewrite make_html_contents. unfold render_contents. unfold render in R.
    destruct (visit_ok d (ab_wf _ _ _ _ _ _ B)) as (vs & A & _). rewrite A in R |- *.
    rewrite write_plain; [exact R|]. intros i _ (n & Hn & K). unfold no_contents in N. rewrite Forall_forall in N. apply nth_error_In in Hn. exact (N n Hn K). }
  destruct st as [[[w o] pend]|].
  - rewrite (G _ _ _ H (close_all w o)). cbn [t_ended]. rewrite concat_ends, settled_pended. reflexivity.
  - apply (G _ _ [] H). reflexivity.
Qed.
Lemma tables_shown : forall rs out, Forall row_good rs -> table_page wikipath None rs = Some out -> html order wikipath now urlencode analysis rst (lines_text (map row_text rs)) = Ok out.
Proof.
  intros rs out F P. unfold html, parse. rewrite splitlines_text.
  - assert (H0 : tables_at new_doc None []) by (split; [apply back_new|constructor; [discriminate|constructor]]).
    destruct (table_lines rs new_doc None [] out H0 F P) as (d & st & s & E & H & Q). rewrite E. rewrite (tables_html d st s H). rewrite Q. reflexivity.
  - intros s I. apply in_map_iff in I. destruct I as (l & <- & I). rewrite Forall_forall in F. apply (F l I).
Qed.
End Tables.
Lemma tables_partial : forall order wikipath now urlencode analysis rst rs out, Forall row_good rs -> table_page wikipath None rs = Some out ->
  html order wikipath now urlencode analysis rst (lines_text (map row_text rs)) = Ok out.
Proof. intros. apply tables_shown; assumption. Qed.
(* the line after a table *)
Lemma still_in_table : exists out before after, html design_names [] [] (fun _ => []) (fun _ => Exc KeyError) (fun s => Ok s) (lines_text [L "||a||"; L "b"]) = Ok out
  /\ out = before ++ L "b" ++ after /\ tables_around before = 1 /\ occurrences (L "<td>") before = occurrences (L "</td>") before.
Proof.
  destruct (html design_names [] [] (fun _ => []) (fun _ => Exc KeyError) (fun s => Ok s) (lines_text [L "||a||"; L "b"])) as [out|e] eqn:E; [|vm_compute in E; discriminate E].
  exists out, (firstn 51 out), (skipn 52 out). split; [reflexivity|]. vm_compute in E. injection E as <-. split; [|split]; vm_compute; reflexivity.
Qed.
(* ---- tables of cells ---- *)
Definition cell_pieces (cells : list (list token)) : list piece := flat_map (fun l => Bar :: map Tok l) cells.
Lemma tokens_shown : forall w l ps o pend s o1 p1, no_headings l = true -> line_shown w o pend l = Some (s, o1, p1) ->
  pieces_shown w InCell o pend (map Tok l ++ ps) = match pieces_shown w InCell o1 p1 ps with Some (s2, w2, o2, p2) => Some (s ++ s2, w2, o2, p2) | None => None end.
Proof.
  intros w. induction l as [|t l IH]; intros ps o pend s o1 p1 Hd H.
  - injection H as <- <- <-. cbn [map app]. destruct (pieces_shown w InCell o pend ps) as [[[[? ?] ?] ?]|]; reflexivity.
  - assert (Ht : no_headings [t] = true /\ no_headings l = true) by (unfold no_headings in *; cbn [forallb] in *; apply andb_prop in Hd; destruct Hd as [X Y]; rewrite X; split; [reflexivity|exact Y]). destruct Ht as [Ht Hl].
    rewrite line_step in H. cbn [map app pieces_shown fits_in]. rewrite Ht, line_step. destruct (step w o pend t) as [[[s1 o2] p2]|]; [|discriminate H]. cbn [line_shown]. rewrite app_nil_r.
    destruct (line_shown w o2 p2 l) as [[[s2 o3] p3]|] eqn:E2; [|discriminate H]. injection H as <- <- <-. rewrite (IH ps o2 p2 s2 o3 p3 Hl E2). destruct (pieces_shown w InCell o3 p3 ps) as [[[[s3 w3] o4] p4]|]; [|reflexivity]. rewrite app_assoc. reflexivity.
Qed.
Lemma cells_go_on : forall w cells o pend s, forallb no_headings cells = true -> all_shown (cell_shown w) cells = Some s ->
  exists x o' p', pieces_shown w InCell o pend (cell_pieces cells) = Some (x, InCell, o', p') /\ x ++ settled p' ++ flat_map mark_close o' ++ cell_close = settled pend ++ flat_map mark_close o ++ cell_close ++ s.
Proof.
  intros w. induction cells as [|l cells IH]; intros o pend s Hd H.
  - injection H as <-. exists [], o, pend. split; [reflexivity|]. rewrite app_nil_r. reflexivity.
  - cbn [forallb] in Hd. apply andb_prop in Hd. destruct Hd as [Hl Hd]. cbn [all_shown] in H. unfold cell_shown at 1 in H. destruct (line_shown w [] None l) as [[[sl ol] pl]|] eqn:El; [|discriminate H]. destruct (all_shown (cell_shown w) cells) as [t|] eqn:Et; [|discriminate H]. injection H as <-.
    destruct (IH ol pl t Hd eq_refl) as (x & o' & p' & E & Q). cbn [cell_pieces flat_map app pieces_shown cell_begun]. fold (cell_pieces cells). rewrite (tokens_shown w l (cell_pieces cells) [] None sl ol pl Hl El), E.
    eexists _, o', p'. split; [reflexivity|]. rewrite <- ?app_assoc. rewrite Q. cbn [settled]. rewrite <- ?app_assoc. reflexivity.
Qed.
Lemma cells_begin : forall w cells p s, p <> InCell -> cells <> [] -> forallb no_headings cells = true -> row_shown w cells = Some s ->
  exists x o' p', pieces_shown w p [] None (cell_pieces cells) = Some (x, InCell, o', p') /\ x ++ settled p' ++ flat_map mark_close o' ++ cell_close ++ row_close = match p with OutOf => table_open | _ => [] end ++ s.
Proof.
  intros w [|l cells] p s Np Nc Hd H; [congruence|]. cbn [forallb] in Hd. apply andb_prop in Hd. destruct Hd as [Hl Hd]. unfold row_shown in H. cbn [all_shown] in H. unfold cell_shown at 1 in H.
  destruct (line_shown w [] None l) as [[[sl ol] pl]|] eqn:El; [|discriminate H]. destruct (all_shown (cell_shown w) cells) as [t|] eqn:Et; [|discriminate H]. injection H as <-.
  destruct (cells_go_on w cells ol pl t Hd Et) as (x & o' & p' & E & Q). cbn [cell_pieces flat_map app pieces_shown]. fold (cell_pieces cells).
  assert (Q' : forall y, x ++ settled p' ++ flat_map mark_close o' ++ cell_close ++ y = settled pl ++ flat_map mark_close ol ++ cell_close ++ t ++ y) by (intro y; rewrite !app_assoc; rewrite !app_assoc in Q; rewrite Q; reflexivity).
  destruct p; [| |congruence]; cbn [cell_begun]; rewrite (tokens_shown w l (cell_pieces cells) [] None sl ol pl Hl El), E; eexists _, o', p'; (split; [reflexivity|]); cbn [settled app]; rewrite <- ?app_assoc; rewrite Q'; rewrite <- ?app_assoc; reflexivity.
Qed.
Definition a_row (x : list (list token) * nat) : trow := cells_row (fst x) (snd x).
Lemma rows_page : forall w rows p s, p <> InCell -> (p = OutOf -> rows <> []) -> Forall (fun x => fst x <> []) rows -> forallb (fun x => forallb no_headings (fst x)) rows = true -> all_shown (row_shown w) (map fst rows) = Some s ->
  table_page w (Some (p, [], None)) (map a_row rows) = Some (match p with OutOf => table_open | _ => [] end ++ s ++ table_close ++ L "</div>" ++ ShowSpec.nl).
Proof.
  intros w. induction rows as [|[cells n] rows IH]; intros p s Np Hp F Hd H.
  - injection H as <-. destruct p; [elim (Hp eq_refl); reflexivity|reflexivity|congruence].
  - inversion F as [|? ? Nc F']; subst. cbn [fst] in Nc. cbn [forallb fst] in Hd. apply andb_prop in Hd. destruct Hd as [Hc Hd]. cbn [map fst all_shown] in H. destruct (row_shown w cells) as [s1|] eqn:E1; [|discriminate H]. destruct (all_shown (row_shown w) (map fst rows)) as [s2|] eqn:E2; [|discriminate H]. injection H as <-.
    destruct (cells_begin w cells p s1 Np Nc Hc E1) as (x & o' & p' & E & Q). cbn [map table_page].
    assert (Nt : exists c t, row_text (a_row (cells, n)) = c :: t) by (destruct cells; [congruence|]; do 2 eexists; reflexivity). destruct Nt as (c & t & ->). cbn [t_div]. change (pieces (a_row (cells, n))) with (cell_pieces cells). rewrite E. change (shut (a_row (cells, n))) with (Some n). cbn [row_ended].
    rewrite (IH InTable s2 ltac:(discriminate) ltac:(discriminate) F' Hd eq_refl). cbn [t_begun app]. f_equal. rewrite <- !app_assoc in *. rewrite !app_assoc. rewrite !app_assoc in Q. rewrite Q. reflexivity.
Qed.
Lemma toks_text : forall l, pieces_text (map Tok l) = line_text l.
Proof. induction l as [|t l IH]; [reflexivity|]. change (token_text t ++ pieces_text (map Tok l) = token_text t ++ line_text l). rewrite IH. reflexivity. Qed.
Lemma cells_text : forall cells, flat_map (fun l => L "||" ++ line_text l) cells = pieces_text (flat_map (fun l => Bar :: map Tok l) cells).
Proof.
  induction cells as [|l cells IH]; [reflexivity|]. cbn [flat_map]. rewrite IH. unfold pieces_text at 2. change (flat_map piece_text ((Bar :: map Tok l) ++ ?r)) with (L "||" ++ pieces_text (map Tok l ++ r)).
  unfold pieces_text at 2. rewrite flat_map_app. change (flat_map piece_text (map Tok l)) with (pieces_text (map Tok l)). rewrite toks_text, <- app_assoc. reflexivity.
Qed.
Lemma table_of_cells : forall order wikipath now urlencode analysis rst rows out, rows <> [] -> Forall (fun x => fst x <> []) rows -> Forall (fun x => row_good (cells_row (fst x) (snd x))) rows -> forallb (fun x => forallb no_headings (fst x)) rows = true ->
  all_shown (row_shown wikipath) (map fst rows) = Some out ->
  html order wikipath now urlencode analysis rst (lines_text (map (fun x => flat_map (fun l => L "||" ++ line_text l) (fst x) ++ L "||" ++ repeat " "%char (snd x)) rows))
  = Ok (L "<div>" ++ ShowSpec.nl ++ table_open ++ out ++ table_close ++ L "</div>" ++ ShowSpec.nl).
Proof.
  intros order wikipath now urlencode analysis rst rows out N F G Hd H.
  assert (Et : map (fun x => flat_map (fun l => L "||" ++ line_text l) (fst x) ++ L "||" ++ repeat " "%char (snd x)) rows = map row_text (map a_row rows)).
  { rewrite map_map. apply map_ext. intros [cells n]. unfold row_text, a_row, cells_row. cbn [fst snd pieces shut shut_text]. f_equal. apply cells_text. }
  rewrite Et. apply tables_shown.
  - apply Forall_map. exact G.
  - pose proof (rows_page wikipath rows OutOf out ltac:(discriminate) (fun _ => N) F Hd H) as P. destruct rows as [|[cells n] rows]; [congruence|]. inversion F as [|? ? Nc F']; subst. cbn [fst] in Nc. cbn [map table_page] in P |- *.
    assert (Nt : exists c t, row_text (a_row (cells, n)) = c :: t) by (destruct cells; [congruence|]; do 2 eexists; reflexivity). destruct Nt as (c & t & Er). rewrite Er in P |- *. cbn [t_div] in P |- *.
    destruct (pieces_shown wikipath OutOf [] None (pieces (a_row (cells, n)))) as [[[[out1 w1] o1] p1]|]; [|discriminate P]. destruct (row_ended (shut (a_row (cells, n))) w1 o1 p1) as [[[out2 w2] o2] p2]. destruct (table_page wikipath (Some (w2, o2, p2)) (map a_row rows)) as [s|]; [|discriminate P]. injection P as P. cbn [t_begun app] in P |- *. rewrite P. reflexivity.
Qed.
