(* Pages with citations and quotes *)
From Verif Require Import Py PyFacts Re Rx RxFacts HtmlModel HtmlSpec HtmlProofs TreeModel TreeSpec TreeProofs TreeVisit TreeHtml TreeText TreeStream TocModel TocSpec TocProofs WikiModel WikiSpec WikiInv WikiMatch WikiWalk WikiText WikiProofs WikiLink CmpProofs AnalysisPage ShowSpec ShowRead ShowMatch ShowProofs ShowPage ShowWhole ListSpec ListMatch QuoteSpec QuoteMatch.
Open Scope string_scope.
Open Scope list_scope.
Open Scope nat_scope.

Section Quotes.
Variables (order : list string) (wikipath now : str) (urlencode : list (string * str) -> str) (analysis : str -> res (list table)) (rst : str -> res str).
Notation keeps := (ShowProofs.keeps order rst).
Notation attrs_t := (list (string * value)).
(* ---- the elements that are open ---- *)
Definition fklass (f : frame) : klass := match f with FCite => TreeModel.Citation | FPara => CitationContent | FQuote => BlockQuote end.
Definition frames (fs : list frame) : list (klass * attrs_t) := map (fun f => (fklass f, [])) (rev fs).
Definition base_of (fs : list frame) : list (klass * attrs_t) := frames fs ++ [(Div, [])].
Notation at_ d fs o s pend := (shows order rst (base_of fs) d o s pend).
Lemma frames_app : forall a b, frames (a ++ b) = frames b ++ frames a.
Proof. intros a b. unfold frames. rewrite rev_app_distr, map_app. reflexivity. Qed.
Lemma base_app : forall a b, base_of (a ++ b) = frames b ++ base_of a.
Proof. intros a b. unfold base_of. rewrite frames_app, <- app_assoc. reflexivity. Qed.
Lemma base_snoc : forall a f, base_of (a ++ [f]) = (fklass f, []) :: base_of a.
Proof. intros a f. rewrite base_app. reflexivity. Qed.
Lemma base_in : forall fs k a, In (k, a) (base_of fs) -> k = Div \/ exists f, k = fklass f /\ In f fs.
Proof.
  intros fs k a I. unfold base_of, frames in I. apply in_app_or in I. destruct I as [I|[I|[]]]; [|injection I as <- _; left; reflexivity].
  apply in_map_iff in I. destruct I as (f & E & I). injection E as <- _. right. exists f. split; [reflexivity|apply in_rev; exact I].
Qed.
Lemma base_span : forall fs k, is_a k Span = true -> is_acceptable (base_top (base_of fs)) k = true.
Proof.
  intros fs k H. destruct fs as [|f fs _] using rev_ind; [apply div_span; exact H|]. rewrite base_snoc. unfold base_top, is_acceptable, is_any. destruct f; cbn [fklass acceptables existsb]; rewrite H, ?orb_true_r; reflexivity.
Qed.
Lemma base_marks : forall fs k a m, In (k, a) (base_of fs) -> is_any k [mark_klass m] = false.
Proof. intros fs k a m I. apply base_in in I. destruct I as [->|(f & -> & _)]; [destruct m; reflexivity|destruct f, m; reflexivity]. Qed.
Lemma base_heads : forall fs l, fs = [] \/ no_headings l = true -> Forall (heads_fit (base_of fs)) l.
Proof.
  intros fs l [->|H]; [exact (div_heads l)|]. apply Forall_forall. intros t I m -> Hm. unfold no_headings in H. rewrite forallb_forall in H. specialize (H _ I). cbn in H. rewrite Hm in H. discriminate H.
Qed.
Lemma open_frame : forall f, open order (created (fklass f) [] None) = Ok (frame_open f).
Proof. intros []; reflexivity. Qed.
Lemma close_frame : forall f, close order rst (mknode (fklass f) [] [] None None []) = Ok (frame_close f).
Proof. intros []; reflexivity. Qed.
Lemma close_frames : forall fs rest t, mapM (fun ka => close order rst (mknode (fst ka) (snd ka) [] None None [])) rest = Ok t ->
  mapM (fun ka => close order rst (mknode (fst ka) (snd ka) [] None None [])) (frames fs ++ rest) = Ok (map frame_close (rev fs) ++ t).
Proof.
  intros fs rest t H. unfold frames. induction (rev fs) as [|f l IH]; [exact H|]. cbn [map app mapM fst snd]. rewrite close_frame. cbn [bind]. rewrite IH. reflexivity.
Qed.
Lemma close_marks : forall o rest t, mapM (fun ka => close order rst (mknode (fst ka) (snd ka) [] None None [])) rest = Ok t ->
  mapM (fun ka => close order rst (mknode (fst ka) (snd ka) [] None None [])) (map (fun m => (mark_klass m, @nil (string * value))) o ++ rest) = Ok (map mark_close o ++ t).
Proof. intros o rest t H. induction o as [|m o IH]; [exact H|]. cbn [map app mapM fst snd]. rewrite close_mark. cbn [bind]. rewrite IH. reflexivity. Qed.
(* ---- leaving ---- *)
Definition no_mark (ks : list klass) : Prop := forall m, is_any (mark_klass m) ks = false.
Lemma leave_nothing : forall ks d fs o s pend, at_ d fs o s pend -> is_any BgRoot ks = false -> is_any Div ks = false -> no_mark ks -> (forall f, In f fs -> is_any (fklass f) ks = false) -> m_leave ks d = (d, Ok tt).
Proof.
  intros ks d fs o s pend K H1 H2 H3 H4. apply (keeps_same order rst ks d _ s pend K H1). apply stack_any; [intros m _; apply H3|]. intros k a I. apply base_in in I. destruct I as [->|(f & -> & I)]; [exact H2|exact (H4 f I)].
Qed.
Lemma leave_frames : forall ks d fs f inner o s pend, at_ d (fs ++ f :: inner) o s pend -> is_any (fklass f) ks = true -> no_mark ks -> (forall g, In g inner -> is_any (fklass g) ks = false) ->
  exists d', m_leave ks d = (d', Ok tt) /\ at_ d' fs [] (s ++ settled pend ++ flat_map mark_close o ++ flat_map frame_close (rev (f :: inner))) None.
Proof.
  intros ks d fs f inner o s pend [B N] Hf Hm Hi.
  assert (Es : ShowPage.stack (base_of (fs ++ f :: inner)) o = (map (fun m => (mark_klass m, [])) o ++ frames inner) ++ (fklass f, []) :: base_of fs).
  { unfold ShowPage.stack. rewrite <- app_assoc. f_equal. replace (fs ++ f :: inner) with ((fs ++ [f]) ++ inner) by (rewrite <- app_assoc; reflexivity). rewrite base_app, base_snoc. reflexivity. }
  rewrite Es in B. destruct (back_leaves order rst _ d (fklass f) [] (base_of fs) s pend ks (map mark_close o ++ map frame_close (rev inner) ++ [frame_close f]) B) as (d' & E & Nd & B').
  - intros k a I. apply in_app_or in I. destruct I as [I|I].
    + apply in_map_iff in I. destruct I as (m & X & _). injection X as <- _. apply Hm.
    + unfold frames in I. apply in_map_iff in I. destruct I as (g & X & I). injection X as <- _. apply Hi. apply in_rev. exact I.
  - exact Hf.
  - rewrite <- app_assoc. apply close_marks. apply close_frames. cbn [mapM fst snd]. rewrite close_frame. reflexivity.
  - exists d'. split; [exact E|]. split; [|unfold no_contents; rewrite Nd; exact N].
    rewrite !concat_app, <- !flat_map_concat_map in B'. cbn [List.concat] in B'. rewrite app_nil_r, settled_pended in B'. cbn [rev]. rewrite flat_map_app. cbn [flat_map]. rewrite app_nil_r. exact B'.
Qed.
Notation leave_cite := (m_leave [TreeModel.Citation]).
Lemma cites_snoc : forall n, repeat FCite (S n) = repeat FCite n ++ [FCite].
Proof. induction n as [|n IH]; [reflexivity|]. cbn [repeat app] in *. rewrite <- IH. reflexivity. Qed.
Lemma rev_cites : forall n, rev (repeat FCite n) = repeat FCite n.
Proof. induction n as [|n IH]; [reflexivity|]. rewrite cites_snoc at 2. cbn [repeat rev]. rewrite IH. reflexivity. Qed.
(* a part of what is shown: what has been written, what is on, the text being written *)
Definition went (d : doc) (fs : list frame) (s : str) (x : str * list mark * option str) : Prop := let '(out, o, pend) := x in at_ d fs o (s ++ out) pend.
Definition andclosed (x : str * list mark * option str) (fs : list frame) : str * list mark * option str :=
  let '(out, o, pend) := x in let '(out2, o2, pend2) := closed fs o pend in (out ++ out2, o2, pend2).
Lemma closed_nil : forall x, andclosed x [] = x.
Proof. intros [[out o] pend]. cbn. rewrite app_nil_r. reflexivity. Qed.
Lemma closed_app : forall x a b, andclosed (andclosed x b) a = andclosed x (a ++ b).
Proof.
  intros [[out o] pend] a b. destruct b as [|g b]; [rewrite closed_nil, app_nil_r; reflexivity|]. destruct a as [|f a]; [rewrite closed_nil; reflexivity|].
  assert (Ea : forall l, l <> [] -> forall o pend, closed l o pend = (settled pend ++ flat_map mark_close o ++ flat_map frame_close (rev l), [], None)) by (intros [|? l] H; [congruence|reflexivity]).
  unfold andclosed. rewrite !Ea by discriminate. rewrite (rev_app_distr (f :: a) (g :: b)), flat_map_app. cbn [settled]. change (flat_map mark_close []) with (@nil ascii). cbn [app]. rewrite <- !app_assoc. reflexivity.
Qed.
Lemma leave_one : forall d fs inner s x, went d (fs ++ FCite :: inner) s x -> ~ In FCite inner -> exists d', leave_cite d = (d', Ok tt) /\ went d' fs s (andclosed x (FCite :: inner)).
Proof.
  intros d fs inner s [[out o] pend] K N. destruct (leave_frames [TreeModel.Citation] d fs FCite inner o (s ++ out) pend K eq_refl) as (d' & E & K').
  - intros []; reflexivity.
  - intros [] I; [contradiction|reflexivity|reflexivity].
  - exists d'. split; [exact E|]. unfold went, andclosed, closed. rewrite <- app_assoc in K'. exact K'.
Qed.
Lemma leave_cites : forall k d fs s x, went d (fs ++ repeat FCite k) s x -> exists d', m_each m_leave (repeat [TreeModel.Citation] k) d = (d', Ok tt) /\ went d' fs s (andclosed x (repeat FCite k)).
Proof.
  induction k as [|k IH]; intros d fs s x K.
  - exists d. split; [reflexivity|]. rewrite closed_nil. cbn [repeat] in K. rewrite app_nil_r in K. exact K.
  - rewrite cites_snoc, app_assoc in K. destruct (leave_one d (fs ++ repeat FCite k) [] s x K) as (d1 & E1 & K1); [intros []|]. destruct (IH d1 fs s _ K1) as (d2 & E2 & K2). exists d2.
    split; [cbn [repeat m_each]; unfold andthen; rewrite E1; exact E2|]. rewrite closed_app, <- cites_snoc in K2. exact K2.
Qed.
Lemma each_app : forall {X} (f : X -> M unit) a b d, m_each f (a ++ b) d = (m_each f a ;; m_each f b) d.
Proof.
  intros X f a b. induction a as [|x a IH]; intros d; [reflexivity|]. cbn [app m_each]. unfold andthen. destruct (f x d) as [d1 [[]|e]]; [|reflexivity]. rewrite IH. reflexivity.
Qed.
(* ---- going on ---- *)
Definition andopened (x : str * list mark * option str) (fs : list frame) : option (str * list mark * option str) :=
  let '(out, o, pend) := x in match opened fs o pend with Some (out2, o2, pend2) => Some (out ++ out2, o2, pend2) | None => None end.
Definition takes (fs : list frame) (f : frame) : bool := match f with FCite => match rev fs with FQuote :: _ => false | _ => true end | FPara => match rev fs with (FCite | FPara) :: _ => true | _ => false end | FQuote => match fs with [] => true | _ => false end end.
Lemma enter_frame : forall f d fs s x y, went d fs s x -> takes fs f = true -> andopened x [f] = Some y -> exists d', m_push (fklass f) [] d = (d', Ok tt) /\ went d' (fs ++ [f]) s y.
Proof.
  intros f d fs s [[out o] pend] y K T H. cbn [andopened opened] in H. destruct o; [|discriminate H]. injection H as <-.
  destruct (keeps_push order rst (fklass f) [] (frame_open f) d (base_of fs) (s ++ out) pend) as (d' & E & K').
  - destruct fs as [|g fs _] using rev_ind; [destruct f; try reflexivity; discriminate T|]. rewrite base_snoc. unfold takes in T. rewrite rev_app_distr in T. destruct f, g; try reflexivity; try discriminate T; destruct fs; discriminate T.
  - destruct f; discriminate.
  - destruct f; discriminate.
  - destruct f; discriminate.
  - destruct f; discriminate.
  - apply open_frame.
  - exact K.
  - exists d'. split; [exact E|]. unfold went. cbn [flat_map]. rewrite app_nil_r. unfold shows, ShowPage.stack. cbn [map app]. rewrite base_snoc. rewrite settled_pended, <- app_assoc in K'. exact K'.
Qed.
Lemma opened_app : forall x a b y, andopened x (a ++ b) = Some y -> exists z, andopened x a = Some z /\ andopened z b = Some y.
Proof.
  intros [[out o] pend] a b y H. destruct a as [|f a]; [eexists; split; [cbn; rewrite app_nil_r; reflexivity|exact H]|]. cbn [app andopened opened] in H. destruct o; [|discriminate H]. injection H as <-.
  eexists. split; [reflexivity|]. destruct b as [|g b]; cbn [andopened opened settled]; [rewrite !app_nil_r; reflexivity|]. cbn [flat_map]. rewrite flat_map_app. cbn [flat_map]. rewrite <- !app_assoc. reflexivity.
Qed.
Lemma enter_cites : forall k d fs s x y, went d fs s x -> ~ In FQuote fs -> andopened x (repeat FCite k) = Some y ->
  exists d', m_each (fun k => m_push k []) (repeat TreeModel.Citation k) d = (d', Ok tt) /\ went d' (fs ++ repeat FCite k) s y.
Proof.
  induction k as [|k IH]; intros d fs s x y K N H.
  - exists d. split; [reflexivity|]. rewrite app_nil_r. destruct x as [[out o] pend]. cbn in H. injection H as <-. rewrite app_nil_r. exact K.
  - change (repeat FCite (S k)) with ([FCite] ++ repeat FCite k) in *. apply opened_app in H. destruct H as (z & H1 & H2).
    destruct (enter_frame FCite d fs s x z K) as (d1 & E1 & K1); [|exact H1|].
    { unfold takes. destruct (rev fs) as [|[] r] eqn:E; try reflexivity. exfalso. apply N. apply in_rev. rewrite E. left. reflexivity. }
    destruct (IH d1 (fs ++ [FCite]) s z y K1) as (d2 & E2 & K2); [intros I; apply in_app_or in I; destruct I as [I|[I|[]]]; [contradiction|discriminate I]|exact H2|].
    exists d2. split; [cbn [repeat m_each]; unfold andthen; change (fklass FCite) with TreeModel.Citation in E1; rewrite E1; exact E2|]. rewrite app_assoc. exact K2.
Qed.
(* ---- from one place to the next ---- *)
Lemma turned_app : forall k a b o pend, turned (k ++ a) (k ++ b) o pend = turned a b o pend.
Proof. induction k as [|f k IH]; intros a b o pend; [reflexivity|]. cbn [app turned]. destruct f; apply IH. Qed.
Lemma turned_close : forall a o pend, turned a [] o pend = Some (closed a o pend).
Proof. intros a o pend. destruct a as [|f a]; [reflexivity|]. cbn [turned]. destruct (closed (f :: a) o pend) as [[s1 o1] p1]. cbn. rewrite app_nil_r. reflexivity. Qed.
Lemma turned_open : forall a o pend, turned [] a o pend = opened a o pend.
Proof. intros a o pend. cbn [turned closed]. destruct (opened a o pend) as [[[s2 o2] p2]|]; reflexivity. Qed.
Lemma turned_split : forall f g a b o pend, f <> g -> turned (f :: a) (g :: b) o pend = andopened (closed (f :: a) o pend) (g :: b).
Proof. intros f g a b o pend N. destruct f, g; try congruence; reflexivity. Qed.
Lemma opened_start : forall fs o pend y, opened fs o pend = Some y -> andopened ([], o, pend) fs = Some y.
Proof. intros fs o pend [[s o1] p1] H. unfold andopened. rewrite H. reflexivity. Qed.
Lemma closed_start : forall fs o pend, andclosed ([], o, pend) fs = closed fs o pend.
Proof. intros fs o pend. unfold andclosed. destruct (closed fs o pend) as [[s o1] p1]. reflexivity. Qed.
Lemma repeat_plus : forall a b, repeat FCite (a + b) = repeat FCite a ++ repeat FCite b.
Proof. intros a b. apply repeat_app. Qed.
(* counting *)
Fixpoint count_cites (st : list (klass * attrs_t)) : nat := match st with [] => 0 | (k, _) :: st => (if is_any k [TreeModel.Citation] then 1 else 0) + count_cites st end.
Lemma count_path : forall d c st, wf d -> path (nodes d) c st -> forall f, c + 2 <= f -> count_up f (nodes d) (fun n => is_any (cls n) [TreeModel.Citation]) (Some c) = Ok (count_cites st).
Proof.
  intros d c st W H. induction H as [n Hn K|p q n st Hn Hp Hl K1 K2 K3 K4 H IH]; intros f Lf.
  - destruct (wf_root d W) as (m & Hm & _ & Pm). assert (m = n) by congruence. subst m. destruct f as [|[|f]]; [lia|lia|]. cbn [count_up]. rewrite Hn, Pm, K. reflexivity.
  - destruct f as [|f]; [lia|]. cbn [count_up]. rewrite Hn, Hp, IH by lia. cbn [count_cites]. destruct (is_any (cls n) [TreeModel.Citation]); reflexivity.
Qed.
Lemma count_cites_app : forall a b, count_cites (a ++ b) = count_cites a + count_cites b.
Proof. induction a as [|[k x] a IH]; intros b; [reflexivity|]. cbn [app count_cites]. rewrite IH. lia. Qed.
Lemma count_frames : forall fs, count_cites (frames fs) = citations fs.
Proof.
  induction fs as [|f fs IH]; [reflexivity|]. change (f :: fs) with ([f] ++ fs). rewrite frames_app, count_cites_app, IH. destruct f; unfold citations; cbn; lia.
Qed.
Lemma count_marks : forall o, count_cites (map (fun m => (mark_klass m, @nil (string * value))) o) = 0.
Proof. induction o as [|m o IH]; [reflexivity|]. cbn [map count_cites]. rewrite IH. destruct m; reflexivity. Qed.
Lemma went_count : forall d fs s x, went d fs s x -> m_count [TreeModel.Citation] d = (d, Ok (citations fs)).
Proof.
  intros d fs s [[out o] pend] [B _]. destruct (back_path order rst d _ _ pend B) as (c & Hc & P & Lf). unfold m_count, count_nesting. rewrite Hc. rewrite (count_path d c _ (ab_wf _ _ _ _ _ _ B) P) by exact Lf.
  unfold ShowPage.stack. rewrite count_cites_app, count_marks. unfold base_of. rewrite count_cites_app, count_frames. cbn. do 3 f_equal. lia.
Qed.
Lemma citations_app : forall a b, citations (a ++ b) = citations a + citations b.
Proof. intros a b. unfold citations. rewrite filter_app, app_length. reflexivity. Qed.
Lemma citations_repeat : forall n, citations (repeat FCite n) = n.
Proof. induction n as [|n IH]; [reflexivity|]. unfold citations in *. cbn. rewrite IH. reflexivity. Qed.
Lemma para_there : forall d fs s x, went d fs s x -> In FPara fs -> start_on_not_exist CitationContent [] d = (d, Ok tt).
Proof.
  intros d fs s [[out o] pend] K I. destruct (keeps_some order rst CitationContent d _ _ pend K eq_refl) as [p Hp].
  { exists []. unfold ShowPage.stack, base_of, frames. apply in_or_app. right. apply in_or_app. left. apply in_map_iff. exists FPara. split; [reflexivity|]. apply in_rev in I. exact I. }
  unfold start_on_not_exist, andthen. rewrite Hp. reflexivity.
Qed.
Lemma frame_new : forall f d fs s x y, f <> FCite -> went d fs s x -> ~ In f fs -> takes fs f = true -> andopened x [f] = Some y -> exists d', start_on_not_exist (fklass f) [] d = (d', Ok tt) /\ went d' (fs ++ [f]) s y.
Proof.
  intros f d fs s x y Nf K N T H. destruct (enter_frame f d fs s x y K T H) as (d' & E & K'). exists d'. split; [|exact K']. destruct x as [[out o] pend].
  unfold start_on_not_exist, andthen. rewrite (keeps_none order rst (fklass f) d _ _ pend K); [exact E|destruct f; reflexivity|]. apply stack_any.
  - intros m _. destruct f, m; reflexivity.
  - intros k a I. apply base_in in I. destruct I as [->|(g & -> & I)]; [destruct f; reflexivity|]. destruct f, g; try reflexivity; try congruence; contradiction.
Qed.
Lemma cite_indent : forall n rest, calc_indent (repeat ">"%char n ++ L " " ++ rest) ">" = Some n.
Proof. intros n rest. induction n as [|n IH]; cbn [repeat app calc_indent]; [reflexivity|]. rewrite Ascii.eqb_refl, IH. reflexivity. Qed.
Lemma para_in : forall p q, In FPara (repeat FCite (S p) ++ [FPara] ++ repeat FCite q).
Proof. intros p q. apply in_or_app. right. left. reflexivity. Qed.
Lemma no_cite : forall n f, f <> FCite -> ~ In f (repeat FCite n).
Proof. intros n f N I. apply repeat_spec in I. contradiction. Qed.
(* from citations without a paragraph to [n] citations with one *)
Lemma bare_cited : forall m n d s x y, 1 <= n -> went d (repeat FCite m) s x ->
  andopened (andclosed x (repeat FCite (m - n))) (repeat FCite (n - m) ++ [FPara]) = Some y ->
  exists d', (do! nest := m_count [TreeModel.Citation] in do! nest := unnest n nest [TreeModel.Citation] in do! nest := nest_more n nest TreeModel.Citation [] in m_assert (Nat.eqb n nest) ;; start_on_not_exist CitationContent []) d = (d', Ok tt)
    /\ went d' (around (Within (n - 1) 0)) s y.
Proof.
  intros m n d s x y Hn K H. unfold andthen at 1. rewrite (went_count d _ s x K), citations_repeat. unfold andthen at 1. unfold unnest. unfold andthen at 1.
  assert (E0 : repeat FCite m = repeat FCite (min m n) ++ repeat FCite (m - n)) by (rewrite <- repeat_plus; f_equal; lia). rewrite E0 in K.
  destruct (leave_cites (m - n) d (repeat FCite (min m n)) s x K) as (d1 & E1 & K1). rewrite E1. unfold ret at 1. unfold nest_more. unfold andthen at 1. unfold andthen at 1.
  apply opened_app in H. destruct H as (z & H1 & H2). replace (n - min m n) with (n - m) by lia.
  destruct (enter_cites (n - m) d1 (repeat FCite (min m n)) s _ z K1 (no_cite _ FQuote ltac:(discriminate)) H1) as (d2 & E2 & K2). rewrite E2. unfold ret at 1. unfold andthen at 1. replace (Nat.max (min m n) n) with n by lia. unfold m_assert. rewrite Nat.eqb_refl. unfold ret at 1.
  rewrite <- repeat_plus in K2. replace (min m n + (n - m)) with n in K2 by lia.
  destruct (frame_new FPara d2 (repeat FCite n) s z y ltac:(discriminate) K2 (no_cite _ FPara ltac:(discriminate))) as (d3 & E3 & K3).
  - unfold takes. rewrite rev_cites. destruct n; [lia|reflexivity].
  - exact H2.
  - exists d3. split; [exact E3|]. cbn [around]. replace (S (n - 1)) with n by lia. cbn [repeat app]. exact K3.
Qed.
Notation from o pend := ((@nil ascii, o, pend) : str * list mark * option str).
Lemma cited_moves : forall a n d s o pend y, 1 <= n -> a <> InQuote -> went d (around a) s (from o pend) -> turned (around a) (around (cited n a)) o pend = Some y ->
  exists d', handle_citation (cite_start n) d = (d', Ok tt) /\ went d' (around (cited n a)) s y.
Proof.
  intros a n d s o pend y Hn Na K H. unfold handle_citation, cite_start. rewrite <- (app_nil_r (L " ")), cite_indent. destruct a as [|m|p q]; [congruence| |].
  - cbn [cited around] in *. apply (bare_cited m n d s (from o pend) y Hn K). replace (S (n - 1)) with n in H by lia. cbn [repeat app] in H. rewrite closed_start.
    assert (E0 : repeat FCite m = repeat FCite (min m n) ++ repeat FCite (m - n)) by (rewrite <- repeat_plus; f_equal; lia).
    assert (E1 : repeat FCite n = repeat FCite (min m n) ++ repeat FCite (n - m)) by (rewrite <- repeat_plus; f_equal; lia).
    rewrite E0, E1, <- app_assoc, turned_app in H. destruct (Nat.le_gt_cases n m) as [Le|Lt].
    + replace (n - m) with 0 in * by lia. cbn [repeat app] in *. destruct (repeat FCite (m - n)) as [|f r] eqn:Er; [rewrite turned_open in H; exact (opened_start _ _ _ _ H)|].
      assert (f = FCite) by (apply (repeat_spec (m - n)); rewrite Er; left; reflexivity). subst f. rewrite turned_split in H by discriminate. exact H.
    + replace (m - n) with 0 in * by lia. cbn [repeat] in *. rewrite turned_open in H. exact (opened_start _ _ _ _ H).
  - cbn [cited] in *. destruct (Nat.leb_spec (S p) n) as [Le|Lt].
    + cbn [around] in K, H |- *. unfold andthen at 1. rewrite (went_count d _ s _ K), !citations_app, !citations_repeat. change (citations [FPara]) with 0. unfold andthen at 1. unfold unnest. unfold andthen at 1.
      set (c := repeat FCite (S p) ++ [FPara]) in *. rewrite (app_assoc (repeat FCite (S p)) [FPara]) in K. rewrite !(app_assoc (repeat FCite (S p)) [FPara]) in H. rewrite (app_assoc (repeat FCite (S p)) [FPara]). fold c in K, H |- *. set (j := n - S p) in *.
      assert (Eq : repeat FCite q = repeat FCite (min q j) ++ repeat FCite (q - j)) by (rewrite <- repeat_plus; f_equal; lia).
      assert (Ej : repeat FCite j = repeat FCite (min q j) ++ repeat FCite (j - q)) by (rewrite <- repeat_plus; f_equal; lia).
      rewrite Eq, Ej, !turned_app in H. rewrite Eq, app_assoc in K. replace (S p + (0 + q) - n) with (q - j) by lia.
      destruct (leave_cites (q - j) d (c ++ repeat FCite (min q j)) s _ K) as (d1 & E1 & K1). rewrite E1. unfold ret at 1. unfold nest_more. unfold andthen at 1. unfold andthen at 1.
      replace (n - Nat.min (S p + (0 + q)) n) with (j - q) by lia. rewrite closed_start in K1.
      assert (Ho : andopened (closed (repeat FCite (q - j)) o pend) (repeat FCite (j - q)) = Some y).
      { destruct (Nat.le_gt_cases j q).
        - replace (j - q) with 0 in * by lia. cbn [repeat] in *. rewrite turned_close in H. injection H as <-. destruct (closed _ o pend) as [[s1 o1] p1]. cbn. rewrite app_nil_r. reflexivity.
        - replace (q - j) with 0 in * by lia. cbn [repeat] in *. rewrite turned_open in H. exact (opened_start _ _ _ _ H). }
      destruct (enter_cites (j - q) d1 (c ++ repeat FCite (min q j)) s _ y K1) as (d2 & E2 & K2); [|exact Ho|].
      { intros I. unfold c in I. apply in_app_or in I. destruct I as [I|I]; [|exact (no_cite _ FQuote ltac:(discriminate) I)]. apply in_app_or in I. destruct I as [I|[I|[]]]; [exact (no_cite _ FQuote ltac:(discriminate) I)|discriminate I]. }
      rewrite E2. unfold ret at 1. unfold andthen at 1. replace (Nat.max (Nat.min (S p + (0 + q)) n) n) with n by lia. unfold m_assert. rewrite Nat.eqb_refl. unfold ret at 1.
      rewrite <- app_assoc, <- Ej in K2. exists d2. split; [|exact K2]. apply (para_there d2 (c ++ repeat FCite j) s y K2). unfold c. apply in_or_app. left. apply in_or_app. right. left. reflexivity.
    + cbn [around] in K, H. replace (S (n - 1)) with n in H by lia. change ([FPara] ++ repeat FCite 0) with [FPara] in H.
      unfold andthen at 1. rewrite (went_count d _ s _ K), !citations_app, !citations_repeat. change (citations [FPara]) with 0. unfold andthen at 1. unfold unnest. unfold andthen at 1.
      assert (Ec : repeat FCite (S p) = repeat FCite n ++ repeat FCite (S p - n)) by (rewrite <- repeat_plus; f_equal; lia).
      replace (S p + (0 + q) - n) with (q + (1 + (p - n))) by lia. rewrite repeat_app, each_app. rewrite app_assoc in K. destruct (leave_cites q d (repeat FCite (S p) ++ [FPara]) s _ K) as (d1 & E1 & K1). unfold andthen at 1. rewrite E1.
      rewrite cites_snoc, <- app_assoc in K1. cbn [app] in K1. destruct (leave_one d1 (repeat FCite p) [FPara] s _ K1) as (d2 & E2 & K2); [intros [I|[]]; discriminate I|].
      change (repeat [TreeModel.Citation] (1 + (p - n))) with ([TreeModel.Citation] :: repeat [TreeModel.Citation] (p - n)). cbn [m_each]. unfold andthen at 1. rewrite E2. replace p with (n + (p - n)) in K2 at 1 by lia. rewrite repeat_plus in K2. destruct (leave_cites (p - n) d2 (repeat FCite n) s _ K2) as (d3 & E3 & K3). rewrite E3. unfold ret at 1.
      unfold nest_more. unfold andthen at 1. unfold andthen at 1. replace (n - Nat.min (S p + (0 + q)) n) with 0 by lia. cbn [repeat m_each]. unfold ret at 1 2. unfold andthen at 1. replace (Nat.max (Nat.min (S p + (0 + q)) n) n) with n by lia. unfold m_assert. rewrite Nat.eqb_refl. unfold ret at 1.
      rewrite !closed_app, closed_start in K3.
      assert (El : repeat FCite (p - n) ++ (FCite :: [FPara]) ++ repeat FCite q = repeat FCite (S p - n) ++ [FPara] ++ repeat FCite q).
      { replace (S p - n) with (S (p - n)) by lia. rewrite cites_snoc. rewrite <- !app_assoc. reflexivity. }
      rewrite <- ?app_assoc in K3. rewrite El in K3. rewrite Ec, <- app_assoc, turned_app in H. replace (S p - n) with (S (p - n)) in * by lia. cbn [repeat app] in H. rewrite turned_split in H by discriminate.
      destruct (frame_new FPara d3 (repeat FCite n) s _ y ltac:(discriminate) K3 (no_cite _ FPara ltac:(discriminate))) as (d4 & E4 & K4).
      * unfold takes. rewrite rev_cites. destruct n; [lia|reflexivity].
      * exact H.
      * exists d4. split; [exact E4|]. cbn [around]. replace (S (n - 1)) with n by lia. cbn [repeat app]. exact K4.
Qed.
(* ---- whole pages ---- *)
Definition quotes_at (d : doc) (st : quote_state) (s : str) : Prop :=
  match st with Some (a, o, pend) => at_ d (around a) o s pend | None => keeps d [] s None end.
Lemma at_stack : forall d st s, quotes_at d st s -> exists stk pend, keeps d stk s pend /\ (forall k a, In (k, a) stk -> k = Div \/ (exists f, k = fklass f) \/ exists m, k = mark_klass m).
Proof.
  intros d st s H. destruct st as [[[a o] pend]|]; [|exists [], None; split; [exact H|intros k x []]]. exists (ShowPage.stack (base_of (around a)) o), pend. split; [exact H|].
  intros k x I. unfold ShowPage.stack in I. apply in_app_or in I. destruct I as [I|I]; [apply in_map_iff in I; destruct I as (m & E & _); injection E as <- _; eauto|]. apply base_in in I. destruct I as [->|(f & -> & _)]; eauto.
Qed.
Lemma quotes_unwrapped : forall d st s line, quotes_at d st s -> parse_line order wikipath now urlencode analysis line d = line_parse order wikipath now urlencode analysis line d.
Proof.
  intros d st s line H. unfold parse_line. destruct (at_stack d st s H) as (stk & pend & [B _] & N). destruct (back_path order rst d stk s pend B) as (c & -> & P & _). inversion P as [n Hn K|p q n st' Hn Hp Hl K1 K2 K3 K4 P' E1 E2]; subst.
  - rewrite Hn, K. reflexivity.
  - rewrite Hn. specialize (N (cls n) (attrs n) (or_introl eq_refl)). destruct (cls n); try reflexivity. destruct N as [N|[[f N]|[m N]]]; [discriminate N|destruct f; discriminate N|destruct m; discriminate N].
Qed.
Definition all_closed (a : place) (o : list mark) : list str := map mark_close o ++ map frame_close (rev (around a)) ++ [L "</div>" ++ ShowSpec.nl].
Lemma close_all : forall a o, mapM (fun ka => close order rst (mknode (fst ka) (snd ka) [] None None [])) (ShowPage.stack (base_of (around a)) o) = Ok (all_closed a o).
Proof. intros a o. unfold ShowPage.stack, all_closed. apply close_marks. unfold base_of. apply close_frames. reflexivity. Qed.
Lemma concat_closed : forall a o, List.concat (all_closed a o) = flat_map mark_close o ++ flat_map frame_close (rev (around a)) ++ L "</div>" ++ ShowSpec.nl.
Proof. intros a o. unfold all_closed. rewrite !concat_app, <- !flat_map_concat_map. cbn [List.concat]. rewrite app_nil_r. reflexivity. Qed.
Lemma quotes_empty_line : forall d st s, quotes_at d st s -> exists d', line_parse order wikipath now urlencode analysis [] d = (d', Ok tt) /\ quotes_at d' None (s ++ q_ended st).
Proof.
  intros d st s H. unfold line_parse, andthen, m_leave, run_op.
  assert (G : exists d', exec d (Leave [Div]) = (d', Ok tt) /\ keeps d' [] (s ++ q_ended st) None).
  { destruct st as [[[a o] pend]|].
    - destruct H as [B N]. pose proof (close_all a o) as C.
      assert (Es : ShowPage.stack (base_of (around a)) o = (map (fun m => (mark_klass m, [])) o ++ frames (around a)) ++ [(Div, [])]) by (unfold ShowPage.stack, base_of; rewrite <- app_assoc; reflexivity).
      rewrite Es in B, C. destruct (back_leaves order rst _ d Div [] [] s pend [Div] (all_closed a o) B) as (d' & E & Nd & B').
      + intros k x I. apply in_app_or in I. destruct I as [I|I]; [apply in_map_iff in I; destruct I as (m & X & _); injection X as <- _; destruct m; reflexivity|]. unfold frames in I. apply in_map_iff in I. destruct I as (f & X & _). injection X as <- _. destruct f; reflexivity.
      + reflexivity.
      + exact C.
      + exists d'. split; [exact E|]. split; [|unfold no_contents; rewrite Nd; exact N]. cbn [q_ended]. rewrite concat_closed in B'. rewrite settled_pended in B'. exact B'.
    - exists d. split; [apply (keeps_same order rst [Div] d [] s None H); [reflexivity|intros k a []]|]. cbn [q_ended]. rewrite app_nil_r. exact H. }
  destruct G as (d' & E & K). rewrite E. cbn [exec]. unfold done. eexists. split; [reflexivity|]. destruct K as [B N]. destruct (back_path order rst d' [] _ None B) as (c & Hc & P & _).
  inversion P as [n Hn Kn|]; subst. unfold goto. assert (X : mkdoc (nodes d') (Some root) = d') by (destruct d'; cbn in *; congruence). rewrite X. split; assumption.
Qed.
Lemma begin_line : forall d st s a o pend, quotes_at d st s -> q_div st = (a, o, pend) -> exists d0, start_on_not_exist Div [] d = (d0, Ok tt) /\ went d0 (around a) (s ++ q_begun st) (from o pend).
Proof.
  intros d st s a o pend H E. destruct st as [[[a' o'] pend']|]; cbn [q_div q_begun] in *; injection E as <- <- <-; unfold went; rewrite app_nil_r.
  - exists d. split; [|rewrite app_nil_r; exact H]. destruct (keeps_some order rst Div d _ s _ H eq_refl) as [p Hp].
    { exists []. unfold ShowPage.stack, base_of. apply in_or_app. right. apply in_or_app. right. left. reflexivity. }
    unfold start_on_not_exist, andthen. rewrite Hp. reflexivity.
  - destruct (keeps_push order rst Div [] (L "<div>" ++ ShowSpec.nl) d [] s None eq_refl ltac:(discriminate) ltac:(discriminate) ltac:(discriminate) ltac:(discriminate) eq_refl H) as (d0 & Ep & K).
    exists d0. split; [|exact K]. unfold start_on_not_exist, andthen. rewrite (keeps_none order rst Div d [] s None H eq_refl); [exact Ep|intros k a []].
Qed.
(* what a line that is not indented leaves *)
Definition unquoted (a : place) : place := match a with InQuote => Bare 0 | _ => a end.
Lemma leave_quote : forall d a s o pend, went d (around a) s (from o pend) -> exists d' x, m_leave [BlockQuote; DefBody] d = (d', Ok tt) /\ went d' (around (unquoted a)) s x /\ turned (around a) (around (unquoted a)) o pend = Some x.
Proof.
  intros d a s o pend K. destruct a as [|n|p q].
  - destruct (leave_frames [BlockQuote; DefBody] d [] FQuote [] o (s ++ []) pend K eq_refl) as (d' & E & K'); [intros []; reflexivity|intros g []|].
    exists d', (closed [FQuote] o pend). split; [exact E|]. split; [|apply turned_close]. unfold went. cbn [closed]. rewrite <- app_assoc in K'. exact K'.
  - exists d, (from o pend). split; [|split; [exact K|]].
    + apply (leave_nothing [BlockQuote; DefBody] d (around (Bare n)) o _ pend K eq_refl eq_refl); [intros []; reflexivity|]. intros f I. apply repeat_spec in I. subst f. reflexivity.
    + cbn [unquoted]. rewrite <- (app_nil_r (around (Bare n))), turned_app. reflexivity.
  - exists d, (from o pend). split; [|split; [exact K|]].
    + apply (leave_nothing [BlockQuote; DefBody] d (around (Within p q)) o _ pend K eq_refl eq_refl); [intros []; reflexivity|]. intros f I. cbn [around] in I. apply in_app_or in I. destruct I as [I|I]; [apply repeat_spec in I; subst f; reflexivity|]. destruct I as [<-|I]; [reflexivity|]. apply repeat_spec in I. subst f. reflexivity.
    + cbn [unquoted]. rewrite <- (app_nil_r (around (Within p q))), turned_app. reflexivity.
Qed.
Lemma turned_same : forall a o pend, turned a a o pend = Some (from o pend).
Proof. intros a o pend. rewrite <- (app_nil_r a), turned_app. reflexivity. Qed.
(* a line without signs leaves the innermost citation *)
Lemma leave_cited : forall d a s x, went d (around a) s x -> exists d', leave_cite d = (d', Ok tt) /\ 
  match a with InQuote => went d' (around a) s x | _ => went d' (around (said a)) s (andclosed x (match a with Within p 0 => [FCite; FPara] | Bare 0 => [] | _ => [FCite] end)) end.
Proof.
  intros d a s x K. destruct a as [|[|n]|p [|q]].
  - exists d. split; [|exact K]. destruct x as [[out o] pend]. apply (leave_nothing [TreeModel.Citation] d [FQuote] o _ pend K eq_refl eq_refl); [intros []; reflexivity|]. intros f [<-|[]]. reflexivity.
  - exists d. split; [|rewrite closed_nil; exact K]. destruct x as [[out o] pend]. apply (leave_nothing [TreeModel.Citation] d [] o _ pend K eq_refl eq_refl); [intros []; reflexivity|]. intros f [].
  - cbn [around] in K. rewrite cites_snoc in K. destruct (leave_one d (repeat FCite n) [] s x K) as (d' & E & K'); [intros []|]. exists d'. split; [exact E|]. cbn [said around]. replace (S n - 1) with n by lia. exact K'.
  - cbn [around] in K. rewrite cites_snoc, <- app_assoc in K. destruct (leave_one d (repeat FCite p) [FPara] s x K) as (d' & E & K'); [intros [I|[]]; discriminate I|]. exists d'. split; [exact E|exact K'].
  - cbn [around] in K. rewrite (cites_snoc q), !app_assoc in K. destruct (leave_one d _ [] s x K) as (d' & E & K'); [intros []|]. exists d'. split; [exact E|]. cbn [said around]. rewrite !app_assoc. exact K'.
Qed.
Lemma said_turned : forall a, a <> InQuote -> forall o pend, turned (around a) (around (said a)) o pend = Some (andclosed (from o pend) (match a with Within p 0 => [FCite; FPara] | Bare 0 => [] | _ => [FCite] end)).
Proof.
  intros a N o pend. rewrite closed_start. destruct a as [|[|n]|p [|q]]; [congruence| | | |].
  - reflexivity.
  - cbn [said around]. replace (S n - 1) with n by lia. rewrite cites_snoc. rewrite <- (app_nil_r (repeat FCite n)) at 2. rewrite turned_app. apply turned_close.
  - cbn [said around]. rewrite cites_snoc, <- app_assoc. rewrite <- (app_nil_r (repeat FCite p)) at 2. rewrite turned_app. apply turned_close.
  - cbn [said around]. rewrite (cites_snoc q). rewrite !app_assoc. rewrite <- (app_nil_r ((repeat FCite (S p) ++ [FPara]) ++ repeat FCite q)) at 2. rewrite turned_app. apply turned_close.
Qed.
(* a line of text comes to its place *)
Lemma said_moves : forall a d s o pend x, went d (around a) s (from o pend) -> turned (around a) (around (said a)) o pend = Some x ->
  exists d', (m_leave [BlockQuote; DefBody] ;; leave_cite) d = (d', Ok tt) /\ went d' (around (said a)) s x.
Proof.
  intros a d s o pend x K H. destruct (leave_quote d a s o pend K) as (d1 & x1 & E1 & K1 & T1). unfold andthen. rewrite E1. destruct (leave_cited d1 (unquoted a) s x1 K1) as (d2 & E2 & K2). exists d2. split; [exact E2|].
  assert (D : a = InQuote \/ a <> InQuote) by (destruct a; [left; reflexivity|right; discriminate|right; discriminate]). destruct D as [->|N].
  - cbn [unquoted said Nat.sub] in *. rewrite closed_nil in K2. rewrite T1 in H. injection H as <-. exact K2.
  - assert (Eu : unquoted a = a) by (destruct a; [congruence|reflexivity|reflexivity]). rewrite Eu in *. rewrite turned_same in T1. injection T1 as <-. rewrite (said_turned a N) in H. injection H as <-. destruct a; [congruence|exact K2|exact K2].
Qed.
Lemma indented_moves : forall a b d s o pend x, went d (around a) s (from o pend) -> indented a = Some b -> turned (around a) (around b) o pend = Some x ->
  exists d', (leave_cite ;; handle_quote) d = (d', Ok tt) /\ went d' (around b) s x.
Proof.
  intros a b d s o pend x K Hb H. unfold andthen at 1. destruct (leave_cited d a s _ K) as (d1 & E1 & K1). rewrite E1.
  assert (Nd : forall d fs x, went d fs s x -> m_ancestor [DefList] d = (d, Ok None)).
  { clear. intros d fs [[out o] pend] K. apply (keeps_none order rst DefList d _ _ pend K eq_refl). apply stack_any; [intros []; reflexivity|]. intros k a I. apply base_in in I. destruct I as [->|(f & -> & _)]; [reflexivity|destruct f; reflexivity]. }
  unfold handle_quote. unfold andthen at 1.
  assert (D : a = InQuote \/ a <> InQuote) by (destruct a; [left; reflexivity|right; discriminate|right; discriminate]). destruct D as [->|N].
  - injection Hb as <-. rewrite turned_same in H. injection H as <-. rewrite (Nd d1 _ _ K1). exists d1. split; [|exact K1].
    destruct (keeps_some order rst BlockQuote d1 _ _ pend K1 eq_refl) as [p Hp]; [exists []; unfold ShowPage.stack; apply in_or_app; right; left; reflexivity|]. unfold start_on_not_exist, andthen. rewrite Hp. reflexivity.
  - assert (Es : said a = Bare 0 /\ b = InQuote) by (destruct a; [congruence| |]; unfold indented in Hb; destruct (said _) as [|[|]|]; try discriminate Hb; injection Hb as <-; auto). destruct Es as [Es ->].
    pose proof (said_turned a N o pend) as T. rewrite Es in T. destruct a as [|n|p q]; [congruence| |]; rewrite Es in K1; rewrite (Nd d1 _ _ K1); (eapply (frame_new FQuote d1 [] s _ x); [discriminate|exact K1|intros []|reflexivity|]).
    + cbn [said] in Es. destruct n as [|[|n]]; [| |discriminate Es]; [rewrite closed_nil|rewrite closed_start]; cbn [around repeat] in H; [rewrite turned_open in H; exact (opened_start _ _ _ _ H)|]. rewrite turned_split in H by discriminate. exact H.
    + cbn [said] in Es. destruct q; [|discriminate Es]. injection Es as ->. rewrite closed_start. cbn [around repeat app] in H. rewrite turned_split in H by discriminate. exact H.
Qed.
Lemma cited_from : forall a n d s o pend y, 1 <= n -> went d (around a) s (from o pend) -> turned (around a) (around (cited n a)) o pend = Some y ->
  exists d', (m_leave [BlockQuote; DefBody] ;; handle_citation (cite_start n)) d = (d', Ok tt) /\ went d' (around (cited n a)) s y.
Proof.
  intros a n d s o pend y Hn K H. destruct (leave_quote d a s o pend K) as (d1 & x1 & E1 & K1 & T1). unfold andthen. rewrite E1.
  assert (D : a = InQuote \/ a <> InQuote) by (destruct a; [left; reflexivity|right; discriminate|right; discriminate]). destruct D as [->|N].
  - change (turned (around InQuote) (around (unquoted InQuote)) o pend) with (turned [FQuote] [] o pend) in T1. rewrite turned_close in T1. injection T1 as <-.
    change (around (unquoted InQuote)) with (repeat FCite 0) in K1.
    unfold handle_citation, cite_start. rewrite <- (app_nil_r (L " ")), cite_indent. apply (bare_cited 0 n d1 s _ y Hn K1). rewrite closed_nil, Nat.sub_0_r.
    change (cited n InQuote) with (Within (n - 1) 0) in H. cbn [around] in H. replace (S (n - 1)) with n in H by lia. destruct n; [lia|]. cbn [repeat app] in H |- *. rewrite turned_split in H by discriminate. exact H.
  - assert (Eu : unquoted a = a) by (destruct a; [congruence|reflexivity|reflexivity]). rewrite Eu in *. rewrite turned_same in T1. injection T1 as <-. exact (cited_moves a n d1 s o pend y Hn N K1 H).
Qed.
Lemma rest_of_line : forall l d b s out1 o pend out2 o' pend', all_stand l -> (around b = [] \/ no_headings l = true) -> went d (around b) s (out1, o, pend) -> line_shown wikipath o pend l = Some (out2, o', pend') ->
  exists d', m_each (fun g => m_each (handle_group order wikipath now urlencode analysis g) g) (map token_caps l) d = (d', Ok tt) /\ quotes_at d' (Some (b, o', pend')) (s ++ out1 ++ out2).
Proof.
  intros l d b s out1 o pend out2 o' pend' A Hd K Hl. destruct (line_moves order wikipath now urlencode analysis rst (base_of (around b)) (base_span (around b)) (base_marks (around b)) l o pend out2 o' pend' A (base_heads _ l Hd) Hl d _ K) as (d' & E & K').
  exists d'. split; [exact E|]. cbn [quotes_at]. rewrite <- app_assoc in K'. exact K'.
Qed.
Lemma prefix_ends : forall c n t, c <> ":"%char -> (forall s, t <> s ++ L "::") -> ends_with "::" (repeat c n ++ t) = false.
Proof.
  intros c n t Nc Nd. apply (ends_false analysis rst). intros s E. change (s ++ L "::") with (s ++ [":"%char] ++ [":"%char]) in E. rewrite app_assoc in E.
  destruct t as [|x t _] using rev_ind.
  - rewrite app_nil_r in E. assert (I : In ":"%char (repeat c n)) by (rewrite E; apply in_or_app; right; left; reflexivity). apply repeat_spec in I. congruence.
  - rewrite app_assoc in E. apply app_inj_tail in E. destruct E as [E ->]. destruct t as [|x2 t _] using rev_ind.
    + rewrite app_nil_r in E. assert (I : In ":"%char (repeat c n)) by (rewrite E; apply in_or_app; right; left; reflexivity). apply repeat_spec in I. congruence.
    + rewrite app_assoc in E. apply app_inj_tail in E. destruct E as [_ ->]. apply (Nd t). rewrite <- app_assoc. reflexivity.
Qed.
Lemma spaced_ends : forall t, (forall s, t <> s ++ L "::") -> forall s, L " " ++ t <> s ++ L "::".
Proof.
  intros t Nd [|c s] E; cbn in E; [discriminate E|]. injection E as _ E. exact (Nd s E).
Qed.
Lemma quote_line : forall x d st s a o pend b out1 o1 pend1 out2 o2 pend2, quotes_at d st s -> q_good x -> x <> Said [] -> q_div st = (a, o, pend) -> next x a = Some b ->
  turned (around a) (around b) o pend = Some (out1, o1, pend1) -> (around b = [] \/ no_headings (q_tokens x) = true) -> line_shown wikipath o1 pend1 (q_tokens x) = Some (out2, o2, pend2) ->
  exists d', line_parse order wikipath now urlencode analysis (q_written x) d = (d', Ok tt) /\ quotes_at d' (Some (b, o2, pend2)) (s ++ q_begun st ++ out1 ++ out2).
Proof.
  intros x d st s a o pend b out1 o1 pend1 out2 o2 pend2 H G N Ei Hb Ht Hd Hl. destruct (begin_line d st s a o pend H Ei) as (d0 & E0 & K0). destruct x as [l|n l|n l].
  - injection Hb as <-. pose proof (line_matches l G) as Ms. destruct G as (A & Hh & Nd & O). pose proof (ends_false analysis rst _ Nd) as Ew.
    destruct (said_moves a d0 _ o pend _ K0 Ht) as (d1 & E1 & K1). destruct (rest_of_line l d1 (said a) _ out1 o1 pend1 out2 o2 pend2 A Hd K1 Hl) as (d2 & E2 & K2).
    exists d2. split; [|rewrite <- app_assoc in K2; exact K2]. cbn [q_written]. destruct (line_text l) as [|c r] eqn:El.
    { exfalso. destruct l as [|t l]; [congruence|]. change (token_text t ++ line_text l = []) in El. apply app_eq_nil in El. destruct A as [A _]. exact (token_some t _ A (proj1 El)). }
    cbn [head_is] in Hh. apply orb_false_iff in Hh. destruct Hh as [H1 H2]. unfold line_parse. rewrite Ew, Ms, H1, H2. unfold andthen at 1. rewrite E0.
    unfold andthen in E1. destruct (m_leave [BlockQuote; DefBody] d0) as [dq [[]|e]] eqn:Eq; [|discriminate E1]. unfold andthen at 1. rewrite Eq. unfold andthen at 1. rewrite E1. unfold andthen at 1, ret at 1. unfold andthen at 1. rewrite E2. reflexivity.
  - injection Hb as <-. destruct G as (Hn & A & Nd & O). pose proof (cite_matches n l Hn A Nd O) as Ms.
    pose proof (prefix_ends ">"%char n (L " " ++ line_text l) ltac:(discriminate) (spaced_ends _ Nd)) as Ew.
    destruct (cited_from a n d0 _ o pend _ Hn K0 Ht) as (d1 & E1 & K1). destruct (rest_of_line l d1 (cited n a) _ out1 o1 pend1 out2 o2 pend2 A Hd K1 Hl) as (d2 & E2 & K2).
    exists d2. split; [|rewrite <- app_assoc in K2; exact K2]. cbn [q_written] in Ms |- *. unfold line_parse. rewrite Ms, Ew. destruct n as [|n]; [lia|]. cbn [repeat app]. unfold andthen at 1. rewrite E0.
    unfold andthen in E1. destruct (m_leave [BlockQuote; DefBody] d0) as [dq [[]|e]] eqn:Eq; [|discriminate E1]. unfold andthen at 1. change (Ascii.eqb ">" " ") with false. change (Ascii.eqb ">" ">") with true. cbn match. rewrite Eq. unfold andthen at 1, ret at 1. unfold andthen at 1, ret at 1. unfold andthen at 1. cbn [m_each]. unfold andthen at 1. unfold andthen at 1.
    change (handle_group order wikipath now urlencode analysis [("_pattern_citation", cite_start (S n))] ("_pattern_citation", cite_start (S n))) with (handle_citation (cite_start (S n))). rewrite E1. unfold ret at 1. rewrite E2. reflexivity.
  - destruct G as (Hn & A & Hh & Ni & Nd & O). pose proof (indent_matches n l Hn A Hh Ni Nd O) as Ms. pose proof (prefix_ends " "%char n (line_text l) ltac:(discriminate) Nd) as Ew.
    destruct (indented_moves a b d0 _ o pend _ K0 Hb Ht) as (d1 & E1 & K1). destruct (rest_of_line l d1 b _ out1 o1 pend1 out2 o2 pend2 A Hd K1 Hl) as (d2 & E2 & K2).
    exists d2. split; [|rewrite <- app_assoc in K2; exact K2]. cbn [q_written] in Ms |- *. unfold line_parse. rewrite Ms, Ew. destruct n as [|n]; [lia|]. cbn [repeat app]. unfold andthen at 1. rewrite E0.
    unfold andthen in E1. destruct (m_leave [TreeModel.Citation] d0) as [dq [[]|e]] eqn:Eq; [|discriminate E1]. unfold andthen at 1. change (Ascii.eqb " " " ") with true. change (Ascii.eqb " " ">") with false. cbn match. unfold ret at 1. unfold andthen at 1. rewrite Eq. unfold andthen at 1, ret at 1. unfold andthen at 1. cbn [m_each]. unfold andthen at 1. unfold andthen at 1.
    change (handle_group order wikipath now urlencode analysis [("_pattern_quote_or_definition_body", " "%char :: repeat " "%char n)] ("_pattern_quote_or_definition_body", " "%char :: repeat " "%char n)) with handle_quote. rewrite E1. unfold ret at 1. rewrite E2. reflexivity.
Qed.
Lemma quote_lines : forall xs d st s out, quotes_at d st s -> Forall q_good xs -> quote_page wikipath st xs = Some out ->
  exists d' st' s', m_each (parse_line order wikipath now urlencode analysis) (map q_written xs) d = (d', Ok tt) /\ quotes_at d' st' s' /\ s' ++ q_ended st' = s ++ out.
Proof.
  induction xs as [|x xs IH]; intros d st s out H F P.
  - injection P as <-. exists d, st, s. split; [reflexivity|]. split; [exact H|]. reflexivity.
  - inversion F as [|? ? G F']; subst. cbn [map m_each]. unfold andthen at 1. rewrite (quotes_unwrapped d st s _ H).
    assert (D : x = Said [] \/ x <> Said []) by (destruct x as [[|]| |]; [left; reflexivity|right; discriminate|right; discriminate|right; discriminate]). destruct D as [->|N].
    + cbn [quote_page] in P. destruct (quote_page wikipath None xs) as [out2|] eqn:E2; [|discriminate P]. injection P as <-. destruct (quotes_empty_line d st s H) as (d1 & E1 & H1). cbn [q_written line_text flat_map]. rewrite E1.
      destruct (IH d1 None _ out2 H1 F' E2) as (d' & st' & s' & E & H' & Q). exists d', st', s'. split; [exact E|]. split; [exact H'|]. rewrite Q. rewrite <- app_assoc. reflexivity.
    + assert (P' : let '(a, o, pend) := q_div st in exists b out1 o1 pend1 out2 o2 pend2 out3, next x a = Some b /\ turned (around a) (around b) o pend = Some (out1, o1, pend1) /\ (around b = [] \/ no_headings (q_tokens x) = true) /\ line_shown wikipath o1 pend1 (q_tokens x) = Some (out2, o2, pend2)
        /\ quote_page wikipath (Some (b, o2, pend2)) xs = Some out3 /\ out = q_begun st ++ out1 ++ out2 ++ out3).
      { assert (P1 : (let '(a, o, pend) := q_div st in match next x a with None => None | Some b => match turned (around a) (around b) o pend with None => None | Some (out1, o, pend) => if match around b with [] => true | _ => no_headings (q_tokens x) end then match line_shown wikipath o pend (q_tokens x) with None => None | Some (out2, o, pend) => match quote_page wikipath (Some (b, o, pend)) xs with Some s => Some (q_begun st ++ out1 ++ out2 ++ s) | None => None end end else None end end) = Some out) by (rewrite <- P; destruct x as [[|]| |]; [congruence|reflexivity|reflexivity|reflexivity]).
        clear P IH. destruct (q_div st) as [[a o] pend]. destruct (next x a) as [b|] eqn:Hb; [|discriminate P1]. destruct (turned (around a) (around b) o pend) as [[[out1 o1] pend1]|] eqn:Ht; [|discriminate P1]. destruct (match around b with [] => true | _ => no_headings (q_tokens x) end) eqn:Hd; [|discriminate P1].
        destruct (line_shown wikipath o1 pend1 (q_tokens x)) as [[[out2 o2] pend2]|] eqn:Hl; [|discriminate P1]. destruct (quote_page wikipath (Some (b, o2, pend2)) xs) as [out3|] eqn:E3; [|discriminate P1]. injection P1 as <-. exists b, out1, o1, pend1, out2, o2, pend2, out3.
        split; [reflexivity|]. split; [exact Ht|]. split; [destruct (around b); [left; reflexivity|right; exact Hd]|]. split; [exact Hl|]. split; [exact E3|reflexivity]. }
      clear P. destruct (q_div st) as [[a o] pend] eqn:Est. destruct P' as (b & out1 & o1 & pend1 & out2 & o2 & pend2 & out3 & Hb & Ht & Hd & Hl & E3 & ->).
      destruct (quote_line x d st s a o pend b out1 o1 pend1 out2 o2 pend2 H G N Est Hb Ht Hd Hl) as (d1 & E1 & H1). rewrite E1.
      destruct (IH d1 (Some (b, o2, pend2)) _ out3 H1 F' E3) as (d' & st' & s' & E & H' & Q). exists d', st', s'. split; [exact E|]. split; [exact H'|]. rewrite Q. rewrite <- !app_assoc. reflexivity.
Qed.
Lemma quotes_html : forall d st s, quotes_at d st s -> make_html order rst d = Ok (s ++ q_ended st).
Proof.
  intros d st s H. assert (G : forall stk pend t, keeps d stk s pend -> mapM (fun ka => close order rst (mknode (fst ka) (snd ka) [] None None [])) stk = Ok t -> make_html order rst d = Ok (s ++ pended pend ++ List.concat t)).
  { intros stk pend t [B N] Ht. pose proof (back_whole order rst d stk s pend t B Ht) as R. rewrite make_html_contents. unfold render_contents. unfold render in R.
    destruct (visit_ok d (ab_wf _ _ _ _ _ _ B)) as (vs & A & _). rewrite A in R |- *.
    rewrite write_plain; [exact R|]. intros i _ (n & Hn & K). unfold no_contents in N. rewrite Forall_forall in N. apply nth_error_In in Hn. exact (N n Hn K). }
  destruct st as [[[a o] pend]|].
  - rewrite (G _ _ _ H (close_all a o)). cbn [q_ended]. rewrite concat_closed, settled_pended. reflexivity.
  - apply (G _ _ [] H). reflexivity.
Qed.
Lemma q_line : forall x, q_good x -> one_line (q_written x).
Proof.
  intros [l|n l|n l] G; [apply G| |]; cbn [q_written]; intros c I; apply in_app_or in I; (destruct I as [I|I]; [apply repeat_spec in I; subst c; split; discriminate|]).
  - destruct I as [<-|I]; [split; discriminate|]. destruct G as (_ & _ & _ & O). exact (O c I).
  - destruct G as (_ & _ & _ & _ & _ & O). exact (O c I).
Qed.
Lemma quotes_shown : forall xs out, Forall q_good xs -> quote_page wikipath None xs = Some out -> html order wikipath now urlencode analysis rst (lines_text (map q_written xs)) = Ok out.
Proof.
  intros xs out F P. unfold html, parse. rewrite splitlines_text.
  - assert (H0 : quotes_at new_doc None []) by (split; [apply back_new|constructor; [discriminate|constructor]]).
    destruct (quote_lines xs new_doc None [] out H0 F P) as (d & st & s & E & H & Q). rewrite E. rewrite (quotes_html d st s H). rewrite Q. reflexivity.
  - intros s I. apply in_map_iff in I. destruct I as (l & <- & I). rewrite Forall_forall in F. apply q_line. apply F. exact I.
Qed.
End Quotes.
Lemma quotes_partial : forall order wikipath now urlencode analysis rst xs out, Forall q_good xs -> quote_page wikipath None xs = Some out ->
  html order wikipath now urlencode analysis rst (lines_text (map q_written xs)) = Ok out
  /\ (forall n a, 1 <= n -> citations (around (cited n a)) = n) /\ (forall a, citations (around (said a)) = citations (around a) - 1).
Proof.
  intros order wikipath now urlencode analysis rst xs out F H. split; [apply quotes_shown; assumption|]. split.
  - intros n a Hn. assert (B : citations (around (Within (n - 1) 0)) = n) by (cbn [around]; rewrite citations_app, citations_repeat; change (citations ([FPara] ++ repeat FCite 0)) with 0; lia).
    destruct a as [|m|p q]; cbn [cited]; try exact B. destruct (Nat.leb_spec (S p) n); [|exact B]. cbn [around]. rewrite !citations_app, !citations_repeat. change (citations [FPara]) with 0. lia.
  - intros [|m|p [|q]]; cbn [said around]; rewrite ?citations_app, ?citations_repeat; try reflexivity; change (citations [FPara]) with 0; change (citations ([FPara] ++ repeat FCite 0)) with 0; rewrite ?citations_app, ?citations_repeat; change (citations [FPara]) with 0; lia.
Qed.
(* a line without a sign ends one citation only *)
Lemma still_cited : exists out before after, html design_names [] [] (fun _ => []) (fun _ => Exc KeyError) (fun s => Ok s) (lines_text [L ">> a"; L "b"]) = Ok out
  /\ out = before ++ L "b" ++ after /\ citations_around before = 1.
Proof.
  destruct (html design_names [] [] (fun _ => []) (fun _ => Exc KeyError) (fun s => Ok s) (lines_text [L ">> a"; L "b"])) as [out|e] eqn:E; [|vm_compute in E; discriminate E].
  exists out, (firstn 91 out), (skipn 92 out). split; [reflexivity|]. vm_compute in E. injection E as <-. split; vm_compute; reflexivity.
Qed.
(* ---- quotes ---- *)
Lemma shown_app : forall w a b o pend, line_shown w o pend (a ++ b) = match line_shown w o pend a with Some (s1, o1, p1) => match line_shown w o1 p1 b with Some (s2, o2, p2) => Some (s1 ++ s2, o2, p2) | None => None end | None => None end.
Proof.
  intros w a b. induction a as [|t a IH]; intros o pend; [cbn [app line_shown]; destruct (line_shown w o pend b) as [[[? ?] ?]|]; reflexivity|].
  assert (G : forall out o pend, match line_shown w o pend (a ++ b) with Some (s, o, pend) => Some (out ++ s, o, pend) | None => None end
    = match match line_shown w o pend a with Some (s, o, pend) => Some (out ++ s, o, pend) | None => None end with Some (s1, o1, p1) => match line_shown w o1 p1 b with Some (s2, o2, p2) => Some (s1 ++ s2, o2, p2) | None => None end | None => None end).
  { clear o pend. intros out o pend. rewrite IH. destruct (line_shown w o pend a) as [[[s1 o1] p1]|]; [|reflexivity]. destruct (line_shown w o1 p1 b) as [[[s2 o2] p2]|]; [|reflexivity]. rewrite app_assoc. reflexivity. }
  cbn [app line_shown]. destruct t; try apply G; try apply (G []). destruct o as [|m' o']; [apply G|]. destruct (mark_eq m m'); [apply G|]. destruct (in_dec mark_eq m (m' :: o')); [reflexivity|]. destruct (is_heading m); [reflexivity|apply G].
Qed.
Definition an_indented (x : nat * list token) : qline := Indented (fst x) (snd x).
Lemma quote_goes_on : forall w xs ys o pend out o1 p1 s, forallb (fun x => no_headings (snd x)) xs = true -> line_shown w o pend (flat_map snd xs) = Some (out, o1, p1) -> quote_page w (Some (InQuote, o1, p1)) ys = Some s ->
  quote_page w (Some (InQuote, o, pend)) (map an_indented xs ++ ys) = Some (out ++ s).
Proof.
  intros w xs ys. induction xs as [|x xs IH]; intros o pend out o1 p1 s Hd Hl Hp.
  - injection Hl as <- <- <-. exact Hp.
  - cbn [forallb] in Hd. apply andb_prop in Hd. destruct Hd as [Hx Hd]. cbn [flat_map] in Hl. rewrite shown_app in Hl. destruct (line_shown w o pend (snd x)) as [[[s1 o2] p2]|] eqn:E1; [|discriminate Hl].
    destruct (line_shown w o2 p2 (flat_map snd xs)) as [[[s2 o3] p3]|] eqn:E2; [|discriminate Hl]. injection Hl as <- <- <-. pose proof (IH o2 p2 s2 o3 p3 s Hd E2 Hp) as E3.
    cbn [map app quote_page an_indented q_div next indented]. rewrite turned_same. cbn [around]. change (q_tokens (an_indented x)) with (snd x). rewrite Hx, E1, E3. cbn [q_begun app]. rewrite <- app_assoc. reflexivity.
Qed.
Lemma quote_begins : forall w x xs ys out o1 p1 s, forallb (fun x => no_headings (snd x)) (x :: xs) = true -> line_shown w [] None (flat_map snd (x :: xs)) = Some (out, o1, p1) -> quote_page w (Some (InQuote, o1, p1)) ys = Some s ->
  quote_page w None (map an_indented (x :: xs) ++ ys) = Some ((L "<div>" ++ ShowSpec.nl) ++ frame_open FQuote ++ out ++ s).
Proof.
  intros w x xs ys out o1 p1 s Hd Hl Hp. cbn [forallb] in Hd. apply andb_prop in Hd. destruct Hd as [Hx Hd]. cbn [flat_map] in Hl. rewrite shown_app in Hl. destruct (line_shown w [] None (snd x)) as [[[s1 o2] p2]|] eqn:E1; [|discriminate Hl].
  destruct (line_shown w o2 p2 (flat_map snd xs)) as [[[s2 o3] p3]|] eqn:E2; [|discriminate Hl]. injection Hl as <- <- <-. pose proof (quote_goes_on w xs ys o2 p2 s2 o3 p3 s Hd E2 Hp) as E3.
  cbn [map app quote_page an_indented q_div next indented said Nat.sub]. cbn [around repeat]. rewrite turned_open. cbn [opened settled flat_map]. change (q_tokens (an_indented x)) with (snd x). rewrite app_nil_r, Hx, E1, E3. cbn [q_begun]. rewrite <- !app_assoc. reflexivity.
Qed.
(* lines that are indented are one quote; the next line is not in it *)
Lemma quoted_lines : forall order wikipath now urlencode analysis rst xs l out o pend out2 o2 pend2, xs <> [] -> Forall (fun x => q_good (Indented (fst x) (snd x))) xs -> forallb (fun x => no_headings (snd x)) xs = true -> l <> [] -> good_line l ->
  line_shown wikipath [] None (flat_map snd xs) = Some (out, o, pend) -> line_shown wikipath [] None l = Some (out2, o2, pend2) ->
  html order wikipath now urlencode analysis rst (lines_text (map (fun x => repeat " "%char (fst x) ++ line_text (snd x)) xs ++ [line_text l]))
  = Ok (L "<div>" ++ ShowSpec.nl ++ (L "<blockquote>" ++ ShowSpec.nl ++ L "<p>" ++ ShowSpec.nl) ++ out ++ settled pend ++ flat_map mark_close o ++ (L "</p>" ++ ShowSpec.nl ++ L "</blockquote>" ++ ShowSpec.nl) ++ out2 ++ settled pend2 ++ flat_map mark_close o2 ++ L "</div>" ++ ShowSpec.nl).
Proof.
  intros order wikipath now urlencode analysis rst xs l out o pend out2 o2 pend2 N F Hd Nl G Hl Hl2.
  assert (Et : map (fun x => repeat " "%char (fst x) ++ line_text (snd x)) xs ++ [line_text l] = map q_written (map an_indented xs ++ [Said l])) by (rewrite map_app, map_map; reflexivity). rewrite Et.
  assert (Ep : quote_page wikipath (Some (InQuote, o, pend)) [Said l] = Some (settled pend ++ flat_map mark_close o ++ (frame_close FQuote) ++ out2 ++ settled pend2 ++ flat_map mark_close o2 ++ L "</div>" ++ ShowSpec.nl)).
  { destruct l as [|t l]; [congruence|]. remember (t :: l) as l1. cbn [quote_page]. rewrite Heql1. rewrite <- Heql1. cbn [q_div next said]. cbn [around repeat]. rewrite turned_close. cbn [closed q_tokens]. rewrite Hl2. cbn [q_begun q_ended around repeat rev flat_map app]. rewrite app_nil_r, <- !app_assoc. reflexivity. }
  destruct xs as [|x xs]; [congruence|]. rewrite (quotes_shown order wikipath now urlencode analysis rst _ _) with (2 := quote_begins wikipath x xs [Said l] out o pend _ Hd Hl Ep).
  - f_equal. 
  - apply Forall_app. split; [|constructor; [exact G|constructor]]. apply Forall_map. exact F.
Qed.
