(* Pages with preformatted blocks *)
From Verif Require Import Py PyFacts Re Rx RxFacts HtmlModel HtmlSpec HtmlProofs TreeModel TreeSpec TreeProofs TreeVisit TreeHtml TreeText TreeStream TocModel TocSpec TocProofs WikiModel WikiSpec WikiInv WikiMatch WikiWalk WikiText WikiProofs WikiLink WikiFrame WikiShift CmpProofs AnalysisPage ShowSpec ShowRead ShowMatch ShowProofs ShowPage ShowWhole ListSpec ListMatch ListPage BlockSpec BlockMatch BlockVeil.
From Coq Require Import Permutation.
Open Scope string_scope.
Open Scope list_scope.
Open Scope nat_scope.

(* ---- a node that nothing holds ---- *)
Lemma nth_old : forall {X} (l : list X) y j, j < List.length l -> nth_error (l ++ [y]) j = nth_error l j.
Proof. intros. apply nth_error_app1. assumption. Qed.
Lemma holds_snoc : forall ns new i j, children new = [] -> holds (ns ++ [new]) i j -> holds ns i j.
Proof.
  intros ns new i j C (n & Hn & I). destruct (Nat.lt_ge_cases i (List.length ns)) as [L|L]; [rewrite (nth_old ns new i L) in Hn; exists n; auto|].
  rewrite nth_error_app2 in Hn by exact L. destruct (i - List.length ns) as [|z]; [injection Hn as <-; rewrite C in I; destruct I|destruct z; discriminate Hn].
Qed.
Lemma wf_snoc : forall d new p cur, wf d -> children new = [] -> cls new <> BgRoot -> parent new = Some p -> p < List.length (nodes d) -> (forall c, cur = Some c -> c < List.length (nodes d)) -> wf (mkdoc (nodes d ++ [new]) cur).
Proof.
  intros d new p cur W C K Hp L Hc. set (ns := nodes d) in *.
  assert (G : forall i n, nth_error (ns ++ [new]) i = Some n -> nth_error ns i = Some n \/ (i = List.length ns /\ n = new)).
  { intros i n H. destruct (Nat.lt_ge_cases i (List.length ns)) as [Li|Li]; [rewrite (nth_old ns new i Li) in H; auto|]. rewrite nth_error_app2 in H by exact Li.
    destruct (i - List.length ns) as [|z] eqn:E; [injection H as <-; right; split; [lia|reflexivity]|destruct z; discriminate H]. }
  split; cbn [nodes current].
  - destruct (wf_root d W) as (n & Hn & H1 & H2). exists n. split; [|auto]. rewrite nth_old; [exact Hn|]. apply (nth_lt _ _ _ _ Hn).
  - intros i n q H Hq. destruct (G i n H) as [H'|[-> ->]]; [exact (wf_parent d W _ _ _ H' Hq)|]. rewrite Hp in Hq. injection Hq as <-. exact L.
  - intros i n H Hq. destruct (G i n H) as [H'|[-> ->]]; [exact (wf_orphan d W _ _ H' Hq)|]. congruence.
  - intros i n c H I. rewrite app_length. cbn [List.length]. destruct (G i n H) as [H'|[-> ->]]; [pose proof (wf_children d W _ _ _ H' I) as B; fold ns in B; lia|]. rewrite C in I. destruct I.
  - intros i n H. destruct (G i n H) as [H'|[-> ->]]; [exact (wf_nodup d W _ _ H')|]. rewrite C. constructor.
  - intros i j c H1 H2. apply (wf_once d W i j c); apply (holds_snoc _ new); assumption.
  - intros c H. rewrite app_length. cbn [List.length]. specialize (Hc c H). lia.
  - intros i n H Hq. destruct (G i n H) as [H'|[-> ->]]; [exact (wf_only d W _ _ H' Hq)|]. contradiction.
Qed.
Lemma each_both : forall {X} (f : X -> M unit) a b d, m_each f (a ++ b) d = match m_each f a d with (d', Ok _) => m_each f b d' | (d', Exc x) => (d', Exc x) end.
Proof.
  intros X f a b. induction a as [|x a IH]; intros d; [reflexivity|]. cbn [app m_each]. unfold andthen. destruct (f x d) as [d1 [[]|e]]; [|reflexivity]. rewrite IH. reflexivity.
Qed.
Lemma line_text_ne : forall l, good_line l -> l <> [] -> line_text l <> [].
Proof.
  intros l (A & _) N El. destruct l as [|t l]; [congruence|]. change (token_text t ++ line_text l = []) in El. apply app_eq_nil in El. destruct A as [A _]. exact (token_some t _ A (proj1 El)).
Qed.
Section Blocks.
Variables (order : list string) (wikipath now : str) (urlencode : list (string * str) -> str) (analysis : str -> res (list table)) (rst : str -> res str).
Hypothesis order_designs : Permutation order design_names.
Notation line_parse := (line_parse order wikipath now urlencode analysis).
Notation parse_line := (parse_line order wikipath now urlencode analysis).
Notation line_tail := (line_tail order wikipath now urlencode analysis).
Notation lists_at := (lists_at order rst).
Lemma keeps_snoc : forall e stk s pend new p, keeps order rst e stk s pend -> children new = [] -> cls new <> BgRoot -> cls new <> MacroNode -> parent new = Some p -> p < List.length (nodes e) ->
  keeps order rst (mkdoc (nodes e ++ [new]) (current e)) stk s pend.
Proof.
  intros e stk s pend new p [B N] C K1 K2 Hp L. split; [|unfold no_contents in *; cbn [nodes]; apply Forall_app; split; [exact N|constructor; [exact K2|constructor]]].
  pose proof (ab_wf _ _ _ _ _ _ B) as W. destruct B as [_ (c & n & Hc & Hn & Hpath & H)]. split.
  { apply (wf_snoc e new p); auto. intros x Hx. exact (wf_current e W x Hx). }
  pose proof (nth_lt _ _ _ _ Hn) as Lc.
  assert (F : forall j, j < List.length (nodes e) -> nth_error (nodes e ++ [new]) j = nth_error (nodes e) j) by (intros j Lj; apply nth_old; exact Lj).
  exists c, n. cbn [current nodes]. split; [exact Hc|]. split; [rewrite F by exact Lc; exact Hn|]. split.
  { eapply path_touch; [exact Hpath|]. intros j y Lj Hy. exists (children y). rewrite <- with_same, F by lia. exact Hy. }
  rewrite app_length. cbn [List.length]. destruct pend as [t|].
  - destruct H as (x & i & m & E1 & E2 & E3 & E4 & E5 & E6 & E7). pose proof (nth_lt _ _ _ _ E2) as Li. exists x, i, m. split; [exact E1|]. split; [rewrite F by exact Li; exact E2|]. do 4 (split; [assumption|]).
    eapply pre_low; [exact E7|]. intros j Lj. apply F. lia.
  - destruct H as [E1 E2]. split; [eapply pre_widen; [eapply pre_low; [exact E1|exact F]|lia]|]. intros x i m Hx Hi. apply (E2 x i m Hx). rewrite F in Hi; [exact Hi|].
    apply (wf_children e W c n i Hn). rewrite Hx. apply in_or_app. right. left. reflexivity.
Qed.
(* the paragraph is the last that the root holds *)
Lemma bottom_of : forall ns b p cs s, pre order rst ns b p cs s -> forall st k a, path ns p (st ++ [(k, a)]) -> exists r P0 dv n, nth_error ns root = Some r /\ children r = P0 ++ [dv] /\ nth_error ns dv = Some n /\ cls n = k.
Proof.
  intros ns b p cs s H. induction H as [b n o cs s Hb Hn Ho Hw|b q nq cs0 s p n o cs t H IH Hq Hcq Hl Hb Hn Hp Ho Hw]; intros st k a Hpath.
  - inversion Hpath as [|p q n' st' H1 H2 H3]; subst; [destruct st; discriminate|unfold root in H3; lia].
  - inversion Hpath as [n' H1 H2 H3|p' q' n' st' H1 H2 H3 K1 K2 K3 K4 H4 E1 E2]; [destruct st; discriminate|]. subst p'. replace n' with n in * by congruence. assert (q' = q) by congruence. subst q'.
    destruct st as [|x st].
    + cbn [app] in E2. injection E2 as E2 E3 E4. subst st'. inversion H4 as [r R1 R2|]; subst. exists nq, cs0, p, n. auto.
    + cbn [app] in E2. injection E2 as E2 E3. subst st'. exact (IH st k a H4).
Qed.
Lemma bottom : forall e ls o pend s, lists_at e (Some (ls, o, pend)) s -> exists r P0 dv n, nth_error (nodes e) root = Some r /\ children r = P0 ++ [dv] /\ nth_error (nodes e) dv = Some n /\ cls n = Div.
Proof.
  intros e ls o pend s (es & F & [B N]). destruct (settle _ _ _ _ _ _ B) as (c & n & Hc & Hn & Hp & Hpre). destruct (base_div es o) as (st1 & Es & _). rewrite Es in Hp.
  exact (bottom_of _ _ _ _ _ Hpre st1 Div [] Hp).
Qed.

(* ---- the state while a page is read ---- *)
Definition block_node (p : option string) (t : str) (q : option nat) : node := mknode Wrapping [] t p q [].
Definition blocks_at (d : doc) (st : list_state) (s held : str) : Prop :=
  tidy d /\
  match st with
  | None => keeps order rst d [] s None /\ held = []
  | Some _ => exists e P ids w ts, veil P ids w (List.length (nodes e)) d e /\ lists_at e st s /\ (exists r, nth_error (nodes e) root = Some r /\ children r = P)
      /\ (forall i, In i ids -> cls (w i) = Wrapping /\ children (w i) = []) /\ Forall2 (fun i t => close order rst (w i) = Ok t) ids ts /\ List.concat ts = held
  end.
Lemma blocks_none : forall d e ls o pend s, tidy d -> d = e -> lists_at e (Some (ls, o, pend)) s -> blocks_at d (Some (ls, o, pend)) s [].
Proof.
  intros d e ls o pend s T -> H. split; [exact T|]. destruct (bottom _ _ _ _ _ H) as (r & P0 & dv & n & R1 & R2 & R3 & R4). exists e, (children r), [], (fun _ => r), [].
  split; [|split; [exact H|split; [exists r; auto|split; [intros i []|split; [constructor|reflexivity]]]]].
  split.
  - reflexivity.
  - reflexivity.
  - exists r, []. rewrite !app_nil_r. destruct (wf_root e (t_wf e T)) as (r' & Hr & K & _). split; [exact R1|]. split; [congruence|]. split; [reflexivity|]. split; [|intros i []]. cbn [app]. rewrite R1. destruct r; reflexivity.
  - reflexivity.
  - intros i [].
  - exists P0, dv, n. auto.
  - intros j k p _ _ [].
  - intros c _ [].
  - intros j k L Hj. pose proof (nth_lt _ _ _ _ Hj). lia.
  - lia.
Qed.
Lemma tidy_line : forall line d d', tidy d -> parse_line line d = (d', Ok tt) -> tidy d'.
Proof.
  intros line d d' T E. pose proof (tidy_lines order wikipath now urlencode analysis [line] d T) as G. cbn [m_each] in G. unfold andthen, ret in G. rewrite E in G. exact G.
Qed.
Lemma unwrapped : forall d st s held line, blocks_at d st s held -> parse_line line d = line_parse line d.
Proof.
  intros d st s held line (T & H). destruct st as [[[ls o] pend]|].
  - destruct H as (e & P & ids & w & ts & V & H & _). destruct (at_stack order wikipath analysis rst e _ s H) as (stk & pd & [B _] & N). destruct (back_path order rst e stk s pd B) as (c & Hc & Hp & _).
    unfold WikiModel.parse_line. rewrite (v_cur _ _ _ _ _ _ V), Hc. pose proof (v_twin _ _ _ _ d e c V) as Tw. inversion Hp as [n Hn K|p q n st' Hn Hpar Hl K1 K2 K3 K4 P' E1 E2]; subst; rewrite Hn in Tw; destruct (nth_error (nodes d) _) as [k|]; try reflexivity; destruct Tw as (-> & _).
    + rewrite K. reflexivity.
    + specialize (N (cls n) (attrs n) (or_introl eq_refl)). destruct (cls n); try reflexivity. destruct N as [N|[N|[N|[m N]]]]; try discriminate N. destruct m; discriminate N.
  - apply (lists_unwrapped order wikipath now urlencode analysis rst d None s). apply H.
Qed.
(* a line that is not empty begins in a paragraph *)
Lemma enter_div : forall d st s held, blocks_at d st s held -> exists d0, start_on_not_exist Div [] d = (d0, Ok tt) /\ blocks_at d0 (Some (in_div st)) (s ++ line_begun st) held.
Proof.
  intros d st s held (T & H). destruct st as [[[ls o] pend]|]; cbn [in_div line_begun].
  - rewrite app_nil_r. exists d. split; [|split; assumption]. destruct H as (e & P & ids & w & ts & V & H & Hr & Hw & _).
    pose proof (begin_line order rst e _ s H) as E0. cbn [in_div] in E0. destruct E0 as (e0 & es & E0 & F & K0).
    destruct H as (es' & F' & K'). destruct (keeps_some order rst Div e _ s pend K' eq_refl) as [p Hp].
    { exists []. destruct (base_div es' o) as (st1 & -> & _). apply in_or_app. right. left. reflexivity. }
    unfold start_on_not_exist, andthen. destruct (ve_ancestor P ids w _ [Div] d e V) as [_ L]. unfold m_ancestor in *. cbn [fst snd] in L. injection Hp as Hp. rewrite Hp in L. destruct (ancestor d [Div]) as [[x|]|x]; cbn [lift opt] in L; try contradiction. reflexivity.
  - destruct H as [H ->]. pose proof (begin_line order rst d None s H) as E0. cbn [in_div line_begun] in E0. destruct E0 as (d0 & es & E0 & F & K0). exists d0. split; [exact E0|].
    assert (T0 : tidy d0).
    { assert (Ha : forall ks, rel kept (opt eq) (m_ancestor ks) (m_ancestor ks)).
      { intros ks d1 e1 [<- I1]. unfold m_ancestor. cbn [fst snd]. split; [split; auto|]. destruct (ancestor d1 ks); cbn [lift]; [apply opt_refl|reflexivity]. }
      destruct (r_div kept eq new_id k_enter Ha d d (conj eq_refl T)) as [[_ G] _]. rewrite E0 in G. exact G. }
    apply (blocks_none d0 d0); [exact T0|reflexivity|]. exists es. auto.
Qed.
Lemma parse_is_tail : forall c line d d0, start_on_not_exist Div [] d = (d0, Ok tt) -> line_parse (c :: line) d = line_tail c line d0.
Proof. intros c line d d0 E. unfold WikiModel.line_parse, WikiFrame.line_tail. unfold andthen at 1. rewrite E. reflexivity. Qed.
Lemma div_stays : forall e ls o pend s, lists_at e (Some (ls, o, pend)) s -> start_on_not_exist Div [] e = (e, Ok tt).
Proof.
  intros e ls o pend s (es & F & K). destruct (keeps_some order rst Div e _ s pend K eq_refl) as [p Hp].
  { exists []. destruct (base_div es o) as (st1 & -> & _). apply in_or_app. right. left. reflexivity. }
  unfold start_on_not_exist, andthen. rewrite Hp. reflexivity.
Qed.
(* a line of text or of a list goes on in its paragraph, whatever blocks there are *)
Lemma read_line : forall d st s held x out st', blocks_at d st s held -> written x <> [] -> good x -> x <> Plain [] -> line_step wikipath st x = Some (out, st') ->
  exists d', parse_line (written x) d = (d', Ok tt) /\ blocks_at d' (Some st') (s ++ out) held.
Proof.
  intros d st s held x out st' H Ne G Nx Hs. rewrite (unwrapped d st s held _ H). destruct (enter_div d st s held H) as (d0 & E0 & T0 & e & P & ids & w & ts & V & He & Hr & Hw & Ht & Hh).
  assert (S : exists e', line_parse (written x) e = (e', Ok tt) /\ lists_at e' (Some st') (s ++ out)).
  { destruct (in_div st) as [[ls o] pend] eqn:Ei. unfold line_step in Hs. rewrite Ei in Hs. destruct x as [l|i b l].
    - destruct (match ls with [] => true | _ => no_headings l end) eqn:Hd; [|discriminate Hs]. destruct (line_shown wikipath o pend l) as [[[out1 o1] pend1]|] eqn:El; [|discriminate Hs]. injection Hs as <- <-.
      destruct (plain_line order wikipath now urlencode analysis rst l e (Some (ls, o, pend)) _ ls o pend out1 o1 pend1 He G) as (e' & E' & H'); [congruence|reflexivity|destruct ls; auto|exact El|].
      exists e'. split; [exact E'|]. cbn [line_begun app] in H'. rewrite <- app_assoc in H'. exact H'.
    - destruct o as [|? ?]; [|discriminate Hs]. destruct (item_shown ls i b) as [[out1 ls1]|] eqn:Es; [|discriminate Hs]. destruct (no_headings l) eqn:Hd; [|discriminate Hs].
      destruct (line_shown wikipath [] None l) as [[[out2 o2] pend2]|] eqn:El; [|discriminate Hs]. injection Hs as <- <-.
      destruct (item_line order wikipath now urlencode analysis rst order_designs i b l e (Some (ls, [], pend)) _ ls pend out1 ls1 out2 o2 pend2 He G eq_refl Es Hd El) as (e' & E' & H').
      exists e'. split; [exact E'|]. cbn [line_begun app] in H'. rewrite <- ?app_assoc in H'; rewrite <- ?app_assoc; exact H'. }
  destruct S as (e' & E' & He'). destruct (written x) as [|c line] eqn:Ew; [congruence|].
  destruct (in_div st) as [[ls o] pend] eqn:Ei. rewrite (parse_is_tail c line d d0 E0). rewrite (parse_is_tail c line e e (div_stays _ _ _ _ _ He)) in E'.
  destruct (veil_tail P ids w _ (fun i I => proj1 (Hw i I)) order wikipath now urlencode analysis c line d0 e V) as [V' L]. rewrite E' in V', L. cbn [fst snd] in V', L.
  destruct (line_tail c line d0) as [d' [[]|x0]] eqn:Ed; [|destruct L]. cbn [fst snd] in V'. exists d'. split; [reflexivity|].
  assert (T' : tidy d').
  { apply (tidy_line (c :: line) d); [apply H|]. rewrite (unwrapped d st s held _ H), (parse_is_tail c line d d0 E0). exact Ed. }
  split; [exact T'|]. destruct st' as [[ls' o'] pend']. destruct (bottom _ _ _ _ _ He') as (r & P0 & dv & n & R1 & R2 & R3 & R4).
  assert (X : children r = P).
  { destruct (v_root _ _ _ _ _ _ V') as (r' & x' & Q1 & Q2 & Q3 & Q4 & Q5). replace r' with r in * by congruence. destruct x' as [|y x'] using rev_ind; [rewrite app_nil_r in Q3; exact Q3|]. exfalso. clear IHx'.
    rewrite app_assoc, R2 in Q3. apply app_inj_tail in Q3. destruct Q3 as [_ <-]. apply (v_nodiv _ _ _ _ _ _ V' dv n); [apply Q5; apply in_or_app; right; left; reflexivity|exact R3|exact R4]. }
  exists e', P, ids, w, ts. split; [|split; [exact He'|split; [exists r; auto|split; [exact Hw|split; [exact Ht|exact Hh]]]]].
  destruct V' as [A1 A2 A3 A4 A5 A6 A7 A8 A9 A10]. split.
  - exact A1.
  - exact A2.
  - exists r, []. destruct A3 as (r' & x' & Q1 & Q2 & Q3 & Q4 & Q5). replace r' with r in * by congruence. assert (x' = []) by (rewrite X in Q3; rewrite <- (app_nil_r P) in Q3 at 1; apply app_inv_head in Q3; auto). subst x'.
    split; [exact R1|]. split; [exact Q2|]. split; [rewrite app_nil_r; exact X|]. split; [exact Q4|intros i []].
  - exact A4.
  - intros i I. destruct (A5 i I) as [B1 B2]. split; [|exact B2]. pose proof (nth_lt _ _ _ _ B2). lia.
  - exact A6.
  - exact A7.
  - exact A8.
  - intros j k L' Hj. pose proof (nth_lt _ _ _ _ Hj). lia.
  - lia.
Qed.

(* ---- a block ---- *)
Lemma climb_to_root : forall d q, wf d -> q BgRoot = true -> forall c st, path (nodes d) c st -> (forall k a, In (k, a) st -> q k = false) ->
  forall f, c + 1 <= f -> climb f (nodes d) (fun n => q (cls n)) (Some c) = Ok (Some root).
Proof.
  intros d q W R c st H. induction H as [n Hn K|p r n st Hn Hp Hl K1 K2 K3 K4 H IH]; intros A f Lf.
  - destruct f as [|f]; [lia|]. cbn [climb]. rewrite Hn, K, R. reflexivity.
  - destruct f as [|f]; [lia|]. cbn [climb]. rewrite Hn, (A (cls n) (attrs n) (or_introl eq_refl)), Hp. apply IH; [intros k a I; apply (A k a); right; exact I|lia].
Qed.
Lemma block_place : forall e st s, lists_at e st s -> look e (fun n => is_acceptable (cls n) Wrapping) = Ok (Some root).
Proof.
  intros e st s H. destruct (at_stack order wikipath analysis rst e st s H) as (stk & pd & [B _] & N). destruct (back_path order rst e stk s pd B) as (c & Hc & Hp & Lf). unfold look. rewrite Hc.
  apply (climb_to_root e (fun k => is_acceptable k Wrapping) (ab_wf _ _ _ _ _ _ B) eq_refl c stk Hp); [|lia]. intros k a I. specialize (N k a I). destruct N as [->|[->|[->|[m ->]]]]; try reflexivity. destruct m; reflexivity.
Qed.
Definition block_with (t : str) (l : option str) (q : option nat) : node := mknode Wrapping [] t (option_map string_of_list_ascii l) q [].
Definition named (l : option str) (s : str) : option str := match directive_name s with Some n => Some n | None => l end.
Lemma in_block : forall ns t l q line, parse_line line (mkdoc (ns ++ [block_with t l q]) (Some (List.length ns))) = wrap_parse (List.length ns) line (mkdoc (ns ++ [block_with t l q]) (Some (List.length ns))).
Proof. intros. unfold WikiModel.parse_line. cbn [current nodes]. rewrite nth_error_app2, Nat.sub_diag by lia. reflexivity. Qed.
Lemma line_added : forall ns t l q s, run_op (AddLine (List.length ns) s) (mkdoc (ns ++ [block_with t l q]) (Some (List.length ns))) = (mkdoc (ns ++ [block_with (t ++ s) l q]) (Some (List.length ns)), Ok tt).
Proof. intros. unfold run_op. cbn [exec nodes]. rewrite nth_error_app2, Nat.sub_diag by lia. cbn [nth_error cls block_with]. unfold add_line. rewrite set_last by reflexivity. reflexivity. Qed.
Lemma name_set : forall ns t l q s, run_op (SetProcessor (List.length ns) (string_of_list_ascii s)) (mkdoc (ns ++ [block_with t l q]) (Some (List.length ns))) = (mkdoc (ns ++ [block_with t (Some s) q]) (Some (List.length ns)), Ok tt).
Proof. intros. unfold run_op. cbn [exec nodes]. rewrite nth_error_app2, Nat.sub_diag by lia. cbn [nth_error cls block_with]. unfold set_processor. rewrite set_last by reflexivity. reflexivity. Qed.
Lemma block_line : forall ns t l q s, one_line s -> s <> L "}}}" ->
  parse_line s (mkdoc (ns ++ [block_with t l q]) (Some (List.length ns))) = (mkdoc (ns ++ [block_with (t ++ lines_text (shown_lines [s])) (named l s) q]) (Some (List.length ns)), Ok tt).
Proof.
  intros ns t l q s O N. rewrite in_block. unfold shown_lines, named. cbn [filter]. destruct (directive_name s) as [n|] eqn:D.
  - destruct (directive_named s n D) as (c & nm & -> & -> & Wc & Wn). cbn [lines_text flat_map]. rewrite app_nil_r. rewrite wrap_parse_ne by discriminate. rewrite (directive_read c nm Wc Wn). cbn [m_each]. unfold andthen, ret.
    rewrite wrap_handle_ne by discriminate. cbn [String.eqb Ascii.eqb Bool.eqb]. 
    change (group [("_pattern_processor_specifier", L "#!" ++ c :: nm); ("processor_name", c :: nm)] "processor_name") with (Some (c :: nm)). cbv iota.
    rewrite name_set. rewrite wrap_handle_ne by discriminate. cbn [String.eqb Ascii.eqb Bool.eqb]. unfold ret. reflexivity.
  - cbn [lines_text flat_map]. rewrite app_nil_r. destruct (list_eq_dec ascii_dec s []) as [->|NE]; [cbn [app wrap_parse]; rewrite line_added; reflexivity|].
    destruct (wrap_cases s O NE) as [[C _]|[(_ & C & _)|[_ C]]]; [contradiction|destruct (not_directive s D C)|].
    rewrite (wrap_parse_ne _ s NE), C. cbn [m_each]. unfold andthen, ret. rewrite wrap_handle_ne by exact NE. cbn [String.eqb Ascii.eqb Bool.eqb]. rewrite line_added. reflexivity.
Qed.
Lemma block_lines : forall b ns t l q, Forall (fun s => one_line s /\ s <> L "}}}") b ->
  m_each parse_line b (mkdoc (ns ++ [block_with t l q]) (Some (List.length ns))) = (mkdoc (ns ++ [block_with (t ++ lines_text (shown_lines b)) (fold_left named b l) q]) (Some (List.length ns)), Ok tt).
Proof.
  induction b as [|s b IH]; intros ns t l q F; [cbn; rewrite app_nil_r; reflexivity|]. inversion F as [|? ? [O N] F']; subst. cbn [m_each]. unfold andthen at 1. rewrite (block_line ns t l q s O N). rewrite IH by exact F'.
  cbn [fold_left]. rewrite <- app_assoc. do 5 f_equal. f_equal. unfold lines_text, shown_lines. cbn [filter]. destruct (directive_name s); cbn [flat_map]; rewrite ?app_nil_r; reflexivity.
Qed.
Lemma block_end : forall ns t l q, parse_line (L "}}}") (mkdoc (ns ++ [block_with t l q]) (Some (List.length ns))) = (mkdoc (ns ++ [block_with t l q]) q, Ok tt).
Proof.
  intros. rewrite in_block. rewrite wrap_parse_ne by discriminate. replace (find_all (regexp wrap_patterns) (L "}}}")) with [[("_pattern_preformat_end", L "}}}")]] by (vm_compute; reflexivity).
  cbn [m_each]. unfold andthen, ret. rewrite wrap_handle_ne by discriminate. cbn [String.eqb Ascii.eqb Bool.eqb]. unfold m_leave, run_op. cbn [exec]. unfold leave, look. cbn [current nodes]. 
  cbn [climb]. rewrite nth_error_app2, Nat.sub_diag by lia. cbn [nth_error]. change (is_any (cls (block_with t l q)) [Wrapping]) with true. cbv iota. rewrite nth_error_app2, Nat.sub_diag by lia. reflexivity.
Qed.
Lemma block_begin : forall d0 r, m_leave [BlockQuote; DefBody] d0 = (d0, Ok tt) -> m_leave [Citation] d0 = (d0, Ok tt) -> look d0 (fun n => is_acceptable (cls n) Wrapping) = Ok (Some root) -> nth_error (nodes d0) root = Some r ->
  line_tail "{" (L "{{") d0 = (mkdoc (attach (nodes d0) root r (block_with [] None (current d0))) (Some (List.length (nodes d0))), Ok tt).
Proof.
  intros d0 r E1 E2 Lk Hr. unfold WikiFrame.line_tail. change (Ascii.eqb "{" " ") with false. change (Ascii.eqb "{" ">") with false. change (ends_with "::" ("{"%char :: L "{{")) with false. cbv iota. unfold andthen at 1. rewrite E1.
  unfold andthen at 1. rewrite E2. unfold andthen at 1. unfold ret at 1. replace (matches ("{"%char :: L "{{")) with [[("_pattern_preformat_start", L "{{{")]] by (vm_compute; reflexivity).
  cbn [m_each]. change (handle_group order wikipath now urlencode analysis [("_pattern_preformat_start", L "{{{")] ("_pattern_preformat_start", L "{{{")) with (m_push Wrapping []).
  unfold m_push, m_enter, andthen, ret, enter, append. rewrite Lk. unfold update. rewrite Hr. reflexivity.
Qed.
Lemma close_block : forall t l q, close order rst (block_with t l q) = match l with Some n => if list_eq_dec ascii_dec n (L "rst") then rst t else Ok (L "<pre class=" ++ [quote] ++ L "wiki" ++ [quote] ++ L ">" ++ escape t ++ L "</pre>" ++ [ascii_of_nat 10]) | None => Ok (L "<pre class=" ++ [quote] ++ L "wiki" ++ [quote] ++ L ">" ++ escape t ++ L "</pre>" ++ [ascii_of_nat 10]) end.
Proof.
  intros t l q. unfold close, block_with. cbn [cls processor text]. unfold quoted. destruct l as [n|]; cbn [option_map]; [|rewrite <- !app_assoc; reflexivity].
  destruct (list_eq_dec ascii_dec n (L "rst")) as [->|N]; [reflexivity|].
  assert (Ns : string_of_list_ascii n <> "rst"%string) by (intro E; apply N; rewrite <- (list_ascii_of_string_of_list_ascii n), E; reflexivity).
  revert Ns. generalize (string_of_list_ascii n). clear N n. intros p Ns.
  assert (G : forall (A : Type) (a b : A), match p with "rst"%string => a | _ => b end = b).
  { intros A a b. do 3 (destruct p as [|[[] [] [] [] [] [] [] []] p]; try reflexivity). destruct p; [congruence|reflexivity]. }
  rewrite G. rewrite <- !app_assoc. reflexivity.
Qed.
Lemma block_read : forall d st s held b t, blocks_at d st s held -> Forall (fun s => one_line s /\ s <> L "}}}") b -> block_shown rst b = Ok t ->
  exists d', m_each parse_line (b_written (Block b)) d = (d', Ok tt) /\ blocks_at d' (Some (in_div st)) (s ++ line_begun st) (held ++ t).
Proof.
  intros d st s held b t H Fb Hb. destruct (enter_div d st s held H) as (d0 & E0 & T0 & e & P & ids & w & ts & V & He & (r & Hr & Hrc) & Hw & Ht & Hh).
  set (len := List.length (nodes d0)). pose proof (v_len _ _ _ _ _ _ V) as Ln. fold len in Ln.
  destruct (v_root _ _ _ _ _ _ V) as (r' & x & Q1 & Q2 & Q3 & Q4 & Q5). replace r' with r in * by congruence. assert (x = []) by (rewrite Hrc in Q3; rewrite <- (app_nil_r P) in Q3 at 1; apply app_inv_head in Q3; auto). subst x.
  rewrite app_nil_r in Q4. set (rd := with_children r (P ++ ids)) in *.
  destruct (in_div st) as [[ls o] pend] eqn:Ei. assert (He' := He). destruct He' as (es & F & K).
  assert (Lv : forall ks, is_any BgRoot ks = false -> is_any Div ks = false -> is_any ListEl ks = false -> is_any Itemize ks = false -> (forall m, is_any (mark_klass m) ks = false) -> m_leave ks d0 = (d0, Ok tt)).
  { intros ks K1 K2 K3 K4 K5. pose proof (leave_nothing order rst ks e es o _ pend K K1 K2 K3 K4 K5) as E. unfold m_leave, run_op in *. cbn [exec] in *. unfold leave in *. rewrite (look_veil _ _ _ _ d0 e (fun k => is_any k ks) V).
    destruct (look e (fun n => is_any (cls n) ks)) as [[i|]|y] eqn:El; [|reflexivity|discriminate E]. exfalso.
    destruct (back_path order rst e _ _ _ (proj1 K)) as (c & Hc & Hp & Lf). unfold look in El. rewrite Hc in El.
    rewrite (climb_none e ks (ab_wf _ _ _ _ _ _ (proj1 K)) K1 c _ Hp) in El; [discriminate El| |exact Lf]. intros k a I. unfold ShowPage.stack in I. apply in_app_or in I. destruct I as [I|I].
    - apply in_map_iff in I. destruct I as (m & Em & _). injection Em as <- _. apply K5.
    - apply base_in in I. destruct I as [->|[->| ->]]; assumption. }
  assert (E1 : m_each parse_line (b_written (Block b)) d = (mkdoc (attach (nodes d0) root rd (block_with (lines_text (shown_lines b)) (language b) (current d0))) (current d0), Ok tt)).
  { cbn [b_written app m_each]. unfold andthen at 1. rewrite (unwrapped d st s held _ H). change (L "{{{") with ("{"%char :: L "{{"). rewrite (parse_is_tail "{" (L "{{") d d0 E0).
    rewrite (block_begin d0 rd); [|apply Lv; intros; try reflexivity; destruct m; reflexivity|apply Lv; intros; try reflexivity; destruct m; reflexivity| |exact Q4].
    2: { rewrite (look_veil _ _ _ _ d0 e (fun k => is_acceptable k Wrapping) V). exact (block_place e _ _ He). }
    unfold attach. assert (Ls : List.length (nodes d0) = List.length (set_node (nodes d0) root (with_children rd (children rd ++ [List.length (nodes d0)])))) by (symmetry; apply (set_length _ _ _ rd); exact Q4).
    set (ns := set_node (nodes d0) root (with_children rd (children rd ++ [List.length (nodes d0)]))) in *. rewrite Ls. rewrite each_both. rewrite (block_lines b ns [] None (current d0) Fb). cbn [app m_each]. unfold andthen. rewrite block_end. unfold ret.
    reflexivity. }
  eexists. split; [exact E1|]. set (wn := block_with (lines_text (shown_lines b)) (language b) (current d0)) in *.
  split.
  { pose proof (tidy_lines order wikipath now urlencode analysis (b_written (Block b)) d (proj1 H)) as G. rewrite E1 in G. exact G. }
  destruct (ab_cur _ _ _ _ _ _ (proj1 K)) as (c & n & Hc & Hn & _). pose proof (nth_lt _ _ _ _ Hn) as Lc. pose proof (ab_wf _ _ _ _ _ _ (proj1 K)) as W. pose proof (v_cur _ _ _ _ _ _ V) as Ec.
  assert (Nids : forall i, In i ids -> i < len) by (intros i I; pose proof (proj1 (v_ids _ _ _ _ _ _ V i I)); lia).
  exists (mkdoc (nodes e ++ [wn]) (current e)), P, (ids ++ [len]), (fun i => if Nat.eqb i len then wn else w i), (ts ++ [t]).
  assert (Sn : forall j, nth_error (nodes e ++ [wn]) j = if Nat.eqb j len then Some wn else nth_error (nodes e) j) by (intro j; rewrite TreeProofs.nth_snoc, Ln; reflexivity).
  assert (L0 : root < len) by (unfold root; lia).
  split; [|split; [|split; [|split; [|split]]]].
  - split; cbn [nodes current].
    + exact Ec.
    + rewrite (attach_length _ _ _ _ Q4), app_length. cbn [List.length]. fold len. lia.
    + exists r, []. rewrite Sn. destruct (Nat.eqb_spec root len) as [X|_]; [lia|]. split; [exact Hr|]. split; [exact Q2|]. split; [rewrite app_nil_r; exact Hrc|]. split; [|intros i []].
      rewrite (attach_nth _ _ _ _ _ Q4). fold len. destruct (Nat.eqb_spec root len) as [X|_]; [lia|]. change (Nat.eqb root root) with true. cbv iota. unfold rd, with_children. cbn [children cls attrs text processor parent]. rewrite app_nil_r, <- app_assoc. reflexivity.
    + intros j Nj. rewrite Sn, (attach_nth _ _ _ _ _ Q4). fold len. destruct (Nat.eqb j len); [reflexivity|]. destruct (Nat.eqb_spec j root); [contradiction|]. apply (v_same _ _ _ _ _ _ V). exact Nj.
    + intros i I. rewrite Sn, app_length. cbn [List.length]. apply in_app_or in I. destruct I as [I|[<-|[]]].
      * pose proof (Nids i I). destruct (Nat.eqb_spec i len) as [X|_]; [lia|]. destruct (v_ids _ _ _ _ _ _ V i I) as [B1 B2]. split; [lia|exact B2].
      * rewrite Nat.eqb_refl. split; [lia|reflexivity].
    + destruct (v_last _ _ _ _ _ _ V) as (P0 & dv & k & B1 & B2 & B3). exists P0, dv, k. split; [exact B1|]. split; [|exact B3]. rewrite Sn. pose proof (nth_lt _ _ _ _ B2). destruct (Nat.eqb_spec dv len) as [X|_]; [lia|exact B2].
    + intros j k p Hj Hp I. rewrite Sn in Hj. assert (Bp : p < len /\ ~ In p ids).
      { destruct (Nat.eqb_spec j len) as [->|Nj]; [injection Hj as <-; cbn [wn block_with parent] in Hp; rewrite Ec in Hp; split; [replace p with c by congruence; lia|apply (v_out _ _ _ _ _ _ V); exact Hp]|].
        split; [pose proof (wf_parent e W _ _ _ Hj Hp); pose proof (nth_lt _ _ _ _ Hj); lia|exact (v_away _ _ _ _ _ _ V j k p Hj Hp)]. }
      apply in_app_or in I. destruct I as [I|[I|[]]]; [apply Bp; exact I|lia].
    + intros c' Hc' I. apply in_app_or in I. destruct I as [I|[I|[]]]; [exact (v_out _ _ _ _ _ _ V c' Hc' I)|]. assert (c' = c) by congruence. lia.
    + intros j k Lj Hj. pose proof (nth_lt _ _ _ _ Hj). lia.
    + lia.
  - exists es. split; [exact F|]. apply (keeps_snoc _ _ _ _ wn c K); try reflexivity; try discriminate; [|lia]. cbn [wn block_with parent]. congruence.
  - exists r. cbn [nodes]. rewrite Sn. destruct (Nat.eqb_spec root len) as [X|_]; [lia|]. auto.
  - intros i I. apply in_app_or in I. destruct I as [I|[<-|[]]]; [|rewrite Nat.eqb_refl; split; reflexivity]. pose proof (Nids i I). destruct (Nat.eqb_spec i len) as [X|_]; [lia|]. apply Hw. exact I.
  - apply Forall2_app.
    + clear -Ht Nids. induction Ht as [|i t0 l l' A B IH]; constructor; [|apply IH; intros j J; apply Nids; right; exact J]. pose proof (Nids i (or_introl eq_refl)). destruct (Nat.eqb_spec i len) as [X|_]; [lia|exact A].
    + constructor; [|constructor]. rewrite Nat.eqb_refl. unfold wn. rewrite close_block. exact Hb.
  - rewrite concat_app, Hh. cbn [List.concat]. rewrite app_nil_r. reflexivity.
Qed.
(* ---- the end of a paragraph ---- *)
Lemma blocks_written : forall ns hi ids w ts, (forall i, In i ids -> 1 <= i < hi /\ nth_error ns i = Some (w i) /\ cls (w i) = Wrapping /\ children (w i) = []) -> Forall2 (fun i t => close order rst (w i) = Ok t) ids ts -> wrs order rst ns 1 hi ids (List.concat ts).
Proof.
  intros ns hi ids w ts H F. induction F as [|i t l l' A B IH]; [constructor|]. cbn [List.concat]. constructor; [|apply IH; intros j J; apply H; right; exact J].
  destruct (H i (or_introl eq_refl)) as (B1 & B2 & B3 & B4). change t with ([] ++ [] ++ t). econstructor; [lia|lia|exact B2| |exact A|rewrite B4; constructor]. unfold open. rewrite B3. reflexivity.
Qed.
Lemma open_with : forall n c, open order (with_children n c) = open order n.
Proof. intros n c. destruct n. reflexivity. Qed.
Lemma empty_line : forall d st s held, blocks_at d st s held -> exists d', parse_line [] d = (d', Ok tt) /\ nodes d' = nodes d /\ blocks_at d' None (s ++ all_ended st ++ held) [].
Proof.
  intros d st s held H. rewrite (unwrapped d st s held [] H). destruct st as [[[ls o] pend]|].
  - destruct H as (T & H). assert (H0 := H). destruct H as (e & P & ids & w & ts & V & He & (r & Hr & Hrc) & Hw & Ht & Hh).
    destruct (lists_empty_line order wikipath now urlencode analysis rst e _ s He) as (e' & E' & B' & N').
    pose proof (ve_leave P ids w _ [Div] d e V) as [V1 L1]. unfold WikiModel.line_parse, andthen in E' |- *. pose proof (leave_nodes e [Div]) as Ne. pose proof (leave_nodes d [Div]) as Nd.
    unfold m_leave, run_op in E', V1, L1 |- *. cbn [exec] in *. destruct (leave e [Div]) as [e1 [[]|x]]; [|discriminate E']. destruct (leave d [Div]) as [d1 [[]|x]]; [|destruct L1]. cbn [fst snd] in *.
    unfold done in *. injection E' as <-. exists (goto d1 (Some root)). split; [reflexivity|]. split; [exact Nd|].
    assert (T' : tidy (goto d1 (Some root))).
    { unfold goto. rewrite Nd. apply tidy_goto; [exact T|]. destruct (t_wf d T) as [W1 W2 W3 W4 W5 W6 W7 W8]. split; cbn [nodes current]; auto. intros c0 X. injection X as <-. destruct W1 as (n0 & X & _). apply (nth_lt _ _ _ _ X). }
    split; [exact T'|]. split; [|reflexivity].
    destruct (v_root _ _ _ _ _ _ V) as (r' & x & Q1 & Q2 & Q3 & Q4 & Q5). replace r' with r in * by congruence. assert (x = []) by (rewrite Hrc in Q3; rewrite <- (app_nil_r P) in Q3 at 1; apply app_inv_head in Q3; auto). subst x. rewrite app_nil_r in Q4.
    destruct (settle _ _ _ _ _ _ B') as (c & n & Hc & Hn & Hp & Hpre). injection Hc as <-. cbn [goto nodes] in Hn, Hp, Hpre. rewrite Ne in Hn, Hp, Hpre. replace n with r in * by congruence. cbn [pended] in Hpre. rewrite app_nil_r, Hrc in Hpre.
    assert (Ag : forall j, j <> root -> nth_error (nodes d) j = nth_error (nodes e) j) by (intros j Nj; apply (v_same _ _ _ _ _ _ V); exact Nj).
    split; [split|].
    + apply (t_wf _ T').
    + exists root, (with_children r (P ++ ids)). cbn [goto nodes current]. rewrite Nd. split; [reflexivity|]. split; [exact Q4|]. split; [apply (path_root _ (with_children r (P ++ ids))); [exact Q4|exact Q2]|]. split.
      * cbn [with_children children]. rewrite (v_len _ _ _ _ _ _ V). inversion Hpre as [b0 n0 o0 cs0 s0 Lb Hn0 Ho Hwr E1 E2 E3 E4|b0 q0 nq cs0 s0 p0 n0 o0 cs1 t1 Hq A1 A2 A3 A4 A5 A6 A7 A8]; [|unfold root in *; lia].
        assert (E5 : s ++ all_ended (Some (ls, o, pend)) = o0 ++ s0) by (symmetry; exact E4). rewrite app_assoc, E5, <- app_assoc. econstructor; [exact Lb|exact Q4|rewrite open_with; replace r with n0 by congruence; exact Ho|]. apply wrs_app.
        { eapply wrs_frame; [| | |exact Hwr]; [lia|lia|]. intros j Lj. apply Ag. unfold root. lia. }
        rewrite <- Hh. apply (blocks_written _ _ ids w ts); [|exact Ht]. intros i I. destruct (v_ids _ _ _ _ _ _ V i I) as [B1 B2]. unfold root in B1. split; [lia|]. split; [rewrite Ag by (unfold root; lia); exact B2|]. apply Hw. exact I.
      * intros x i m Hx Hi Hm. cbn [with_children children] in Hx. destruct ids as [|y l] using rev_ind.
        { rewrite app_nil_r in Hx. destruct (v_last _ _ _ _ _ _ V) as (P0 & dv & k & B1 & B2 & B3). rewrite B1 in Hx. apply app_inj_tail in Hx. destruct Hx as [_ <-]. destruct (Nat.eq_dec dv root) as [->|Nv]; [congruence|]. rewrite Ag in Hi by exact Nv. congruence. }
        clear IHl. rewrite app_assoc in Hx. apply app_inj_tail in Hx. destruct Hx as [_ <-]. assert (I : In y (l ++ [y])) by (apply in_or_app; right; left; reflexivity). destruct (v_ids _ _ _ _ _ _ V y I) as [B1 B2].
        rewrite Ag in Hi by (unfold root in *; lia). pose proof (proj1 (Hw y I)). congruence.
    + unfold no_contents in *. cbn [goto nodes] in *. rewrite Nd. rewrite Ne in N'. rewrite Forall_forall in *. intros k I. apply In_nth_error in I. destruct I as [j Hj]. pose proof (v_twin _ _ _ _ d e j V) as Tw. rewrite Hj in Tw. unfold twin in Tw.
      destruct (nth_error (nodes e) j) as [k'|] eqn:Ej; [|destruct Tw]. destruct Tw as (-> & _). apply N'. exact (nth_error_In _ _ Ej).
  - destruct H as (T & H & ->). destruct (lists_empty_line order wikipath now urlencode analysis rst d None s H) as (d' & E' & K'). exists d'. split; [exact E'|]. split.
    + unfold WikiModel.line_parse, andthen, m_leave, run_op in E'. cbn [exec] in E'. pose proof (leave_nodes d [Div]) as Nd. destruct (leave d [Div]) as [d1 [[]|x]]; [|discriminate E']. injection E' as <-. exact Nd.
    + split; [|split; [cbn [all_ended app] in *; rewrite ?app_nil_r in *; exact K'|reflexivity]]. apply (tidy_line [] d); [exact T|]. rewrite (lists_unwrapped order wikipath now urlencode analysis rst d None s [] H). exact E'.
Qed.
Lemma blocks_html : forall d st s held, blocks_at d st s held -> make_html order rst d = Ok (s ++ all_ended st ++ held).
Proof.
  intros d st s held H. destruct (empty_line d st s held H) as (d' & _ & Nd & _ & K & _). pose proof (lists_html order rst d' None _ K) as E. cbn [all_ended] in E. rewrite app_nil_r in E. rewrite <- E.
  rewrite !make_html_contents. unfold render_contents, fuel. rewrite Nd. destruct (accept _ _ _); [|reflexivity]. destruct (write_all _ _ _ _); reflexivity.
Qed.
(* ---- pages ---- *)
Lemma blocks_lines : forall xs d st s held out, blocks_at d st s held -> Forall b_good xs -> block_page wikipath rst st held xs = Some out ->
  exists d' st' s' held', m_each parse_line (flat_map b_written xs) d = (d', Ok tt) /\ blocks_at d' st' s' held' /\ s' ++ all_ended st' ++ held' = s ++ out.
Proof.
  induction xs as [|x xs IH]; intros d st s held out H F P.
  - injection P as <-. exists d, st, s, held. split; [reflexivity|]. split; [exact H|]. reflexivity.
  - inversion F as [|? ? G F']; subst. cbn [flat_map]. rewrite each_both. destruct x as [x|b].
    + assert (C : x = Plain [] \/ (x <> Plain [] /\ written x <> [])).
      { destruct x as [[|t l]|i b l]; [left; reflexivity|right; split; [discriminate|]|right; split; [discriminate|]].
        - apply line_text_ne; [apply G|discriminate].
        - cbn [written]. destruct G as (Gi & _). destruct i; [lia|discriminate]. }
      destruct C as [->|[Nx Nw]].
      * cbn [block_page] in P. destruct (block_page wikipath rst None [] xs) as [out2|] eqn:E2; [|discriminate P]. injection P as <-. destruct (empty_line d st s held H) as (d1 & E1 & _ & H1).
        cbn [b_written m_each written line_text flat_map]. unfold andthen at 1. rewrite E1. unfold ret. destruct (IH d1 None _ [] out2 H1 F' E2) as (d' & st' & s' & held' & E & H' & Q). exists d', st', s', held'. split; [exact E|]. split; [exact H'|]. rewrite Q, <- !app_assoc. reflexivity.
      * assert (P' : match line_step wikipath st x with Some (out, st) => match block_page wikipath rst (Some st) held xs with Some s => Some (out ++ s) | None => None end | None => None end = Some out).
        { rewrite <- P. destruct x as [[|t l]|i b l]; [congruence|reflexivity|reflexivity]. }
        clear P. destruct (line_step wikipath st x) as [[out1 st1]|] eqn:E1; [|discriminate P']. destruct (block_page wikipath rst (Some st1) held xs) as [out2|] eqn:E2; [|discriminate P']. injection P' as <-.
        destruct (read_line d st s held x out1 st1 H Nw G Nx E1) as (d1 & Ed & H1). cbn [b_written m_each]. unfold andthen at 1. rewrite Ed. unfold ret.
        destruct (IH d1 (Some st1) _ held out2 H1 F' E2) as (d' & st' & s' & held' & E & H' & Q). exists d', st', s', held'. split; [exact E|]. split; [exact H'|]. rewrite Q, <- app_assoc. reflexivity.
    + cbn [block_page] in P. destruct (block_shown rst b) as [t|] eqn:Eb; [|discriminate P]. destruct (block_page wikipath rst (Some (in_div st)) (held ++ t) xs) as [out2|] eqn:E2; [|discriminate P]. injection P as <-.
      destruct (block_read d st s held b t H G Eb) as (d1 & Ed & H1). rewrite Ed. destruct (IH d1 _ _ _ out2 H1 F' E2) as (d' & st' & s' & held' & E & H' & Q). exists d', st', s', held'. split; [exact E|]. split; [exact H'|]. rewrite Q, <- app_assoc. reflexivity.
Qed.
Lemma blocks_shown_html : forall xs out, Forall b_good xs -> block_page wikipath rst None [] xs = Some out -> html order wikipath now urlencode analysis rst (lines_text (flat_map b_written xs)) = Ok out.
Proof.
  intros xs out F P. unfold html, parse. rewrite splitlines_text.
  - assert (H0 : blocks_at new_doc None [] []) by (split; [apply tidy_new|split; [split; [apply back_new|constructor; [discriminate|constructor]]|reflexivity]]).
    destruct (blocks_lines xs new_doc None [] [] out H0 F P) as (d & st & s & held & E & H & Q). rewrite E. rewrite (blocks_html d st s held H). rewrite Q. reflexivity.
  - intros s I. apply in_flat_map in I. destruct I as (x & I & Is). rewrite Forall_forall in F. specialize (F x I). destruct x as [x|b]; cbn [b_written b_good] in *.
    + destruct Is as [<-|[]]. apply written_line. exact F.
    + apply in_app_or in Is. destruct Is as [[<-|[]]|Is]; [intros c J; cbn in J; repeat (destruct J as [<-|J]; [split; discriminate|]); destruct J|]. apply in_app_or in Is. destruct Is as [Is|[<-|[]]].
      * rewrite Forall_forall in F. apply F. exact Is.
      * intros c J; cbn in J; repeat (destruct J as [<-|J]; [split; discriminate|]); destruct J.
Qed.
End Blocks.
Lemma blocks_partial : forall order wikipath now urlencode analysis rst, Permutation order design_names -> forall xs out, Forall b_good xs -> block_page wikipath rst None [] xs = Some out ->
  html order wikipath now urlencode analysis rst (lines_text (flat_map b_written xs)) = Ok out.
Proof. intros order wikipath now urlencode analysis rst P xs out F H. apply blocks_shown_html; assumption. Qed.
(* what is written after a block is shown before it *)
Lemma block_last : html design_names [] [] (fun _ => []) (fun _ => Exc KeyError) (fun s => Ok s) (lines_text [L "a"; L "{{{"; L "x"; L "}}}"; L "b"]) = Ok (lines_text [L "<div>"; L "ab"; L "</div>"] ++ pre_html [L "x"]).
Proof. vm_compute. reflexivity. Qed.
Lemma after_block : exists order wikipath now urlencode analysis rst before b after out i j, Permutation order design_names /\
  html order wikipath now urlencode analysis rst (lines_text ([before; L "{{{"; b; L "}}}"; after])) = Ok out
  /\ starts after (skipn i out) = true /\ starts (pre_html [b]) (skipn j out) = true /\ i < j /\ (forall k, starts after (skipn k out) = true -> k <= i).
Proof.
  exists design_names, [], [], (fun _ => []), (fun _ => Exc KeyError), (fun s => Ok s), (L "one"), (L "two"), (L "THREE"). eexists. exists 9, 22. split; [apply Permutation_refl|]. split; [vm_compute; reflexivity|].
  split; [vm_compute; reflexivity|]. split; [vm_compute; reflexivity|]. split; [lia|]. intros k Hk. destruct (Nat.le_gt_cases k 9) as [|G]; [assumption|exfalso].
  assert (A : forallb (fun k => negb (starts (L "THREE") (skipn k (lines_text [L "<div>"; L "oneTHREE"; L "</div>"] ++ pre_html [L "two"])))) (seq 10 60) = true) by (vm_compute; reflexivity).
  rewrite forallb_forall in A. destruct (Nat.lt_ge_cases k 70) as [K|K].
  - specialize (A k ltac:(apply in_seq; lia)). apply negb_true_iff in A. vm_compute in A, Hk. rewrite Hk in A. discriminate A.
  - rewrite skipn_all2 in Hk by (cbn; lia). discriminate Hk.
Qed.
(* ---- a paragraph ---- *)
Lemma begun_later : forall wikipath x rs out, x <> Plain [] -> list_page wikipath None (x :: rs) = Some out -> exists out', list_page wikipath (Some ([], [], None)) (x :: rs) = Some out' /\ out = line_begun None ++ out'.
Proof.
  intros wikipath x rs out N H. destruct x as [[|t l]|i b l]; [congruence| |].
  - cbn [list_page in_div] in *. destruct (line_shown wikipath [] None (t :: l)) as [[[o1 o2] o3]|]; [|discriminate H]. destruct (list_page wikipath _ rs) as [s|]; [|discriminate H]. injection H as <-. eexists. split; [reflexivity|]. reflexivity.
  - cbn [list_page in_div] in *. destruct (item_shown [] i b) as [[o1 o2]|]; [|discriminate H]. destruct (no_headings l); [|discriminate H]. destruct (line_shown wikipath [] None l) as [[[o3 o4] o5]|]; [|discriminate H]. destruct (list_page wikipath _ rs) as [s|]; [|discriminate H].
    injection H as <-. eexists. split; [reflexivity|]. reflexivity.
Qed.
Lemma read_step : forall wikipath st x rs out, x <> Plain [] -> list_page wikipath st (x :: rs) = Some out -> exists out1 st1 out2, line_step wikipath st x = Some (out1, st1) /\ list_page wikipath (Some st1) rs = Some out2 /\ out = out1 ++ out2.
Proof.
  intros wikipath st x rs out N H. unfold line_step. destruct x as [[|t l]|i b l]; [congruence| |].
  - cbn [list_page] in H. destruct (in_div st) as [[ls o] pend]. destruct (match ls with [] => true | _ => no_headings (t :: l) end); [|discriminate H]. destruct (line_shown wikipath o pend (t :: l)) as [[[o1 o2] o3]|]; [|discriminate H].
    destruct (list_page wikipath _ rs) as [s|] eqn:E; [|discriminate H]. injection H as <-. do 3 eexists. split; [reflexivity|]. split; [exact E|]. rewrite <- app_assoc. reflexivity.
  - cbn [list_page] in H. destruct (in_div st) as [[ls [|m o]] pend]; [|discriminate H]. destruct (item_shown ls i b) as [[o1 ls1]|]; [|discriminate H]. destruct (no_headings l); [|discriminate H]. destruct (line_shown wikipath [] None l) as [[[o3 o4] o5]|]; [|discriminate H].
    destruct (list_page wikipath _ rs) as [s|] eqn:E; [|discriminate H]. injection H as <-. do 3 eexists. split; [reflexivity|]. split; [exact E|]. rewrite <- !app_assoc. reflexivity.
Qed.
Lemma page_of_paragraph : forall wikipath rst xs st held out t, ~ In (Plain []) (reads xs) -> (st <> None \/ reads xs <> []) -> list_page wikipath st (reads xs) = Some out -> blocks_shown rst (blocks xs) = Ok t ->
  block_page wikipath rst st held xs = Some (out ++ held ++ t).
Proof.
  intros wikipath rst. induction xs as [|x xs IH]; intros st held out t N S P B.
  - cbn in P, B. injection P as <-. injection B as <-. cbn. rewrite app_nil_r. reflexivity.
  - destruct x as [x|b].
    + cbn [reads blocks flat_map app] in *. assert (Nx : x <> Plain []) by (intros ->; apply N; left; reflexivity). destruct (read_step wikipath st x _ out Nx P) as (o1 & st1 & o2 & E1 & E2 & ->).
      assert (G : block_page wikipath rst st held (Read x :: xs) = match line_step wikipath st x with Some (out, st) => match block_page wikipath rst (Some st) held xs with Some s => Some (out ++ s) | None => None end | None => None end)
        by (destruct x as [[|? ?]|? ? ?]; [congruence|reflexivity|reflexivity]).
      rewrite G, E1. rewrite (IH (Some st1) held o2 t); [rewrite <- app_assoc; reflexivity|intro I; apply N; right; exact I|left; discriminate|exact E2|exact B].
    + cbn [reads blocks flat_map app blocks_shown block_page] in *. destruct (block_shown rst b) as [t1|]; [|discriminate B]. fold (blocks xs) in B. destruct (blocks_shown rst (blocks xs)) as [t2|] eqn:B2; [|discriminate B]. injection B as <-. fold (reads xs) in *.
      assert (Q : exists out', list_page wikipath (Some (in_div st)) (reads xs) = Some out' /\ out = line_begun st ++ out').
      { destruct st as [st|]; [exists out; split; [exact P|reflexivity]|]. destruct S as [S|S]; [congruence|]. destruct (reads xs) as [|x rs] eqn:Er; [congruence|]. apply begun_later; [intros ->; apply N; left; reflexivity|exact P]. }
      destruct Q as (out' & P' & ->). rewrite (IH (Some (in_div st)) (held ++ t1) out' t2); [rewrite <- !app_assoc; reflexivity|exact N|left; discriminate|exact P'|reflexivity].
Qed.
Lemma paragraph_blocks : forall order wikipath now urlencode analysis rst, Permutation order design_names -> forall xs out t, Forall b_good xs -> reads xs <> [] -> ~ In (Plain []) (reads xs) ->
  list_page wikipath None (reads xs) = Some out -> blocks_shown rst (blocks xs) = Ok t ->
  html order wikipath now urlencode analysis rst (lines_text (map written (reads xs))) = Ok out /\ html order wikipath now urlencode analysis rst (lines_text (flat_map b_written xs)) = Ok (out ++ t).
Proof.
  intros order wikipath now urlencode analysis rst P xs out t F Nr Ne Hp Hb. split.
  - apply lists_partial; [exact P| |exact Hp]. apply Forall_forall. intros x I. unfold reads in I. apply in_flat_map in I. destruct I as ([y|b] & I & Iy); [|destruct Iy]. destruct Iy as [<-|[]]. rewrite Forall_forall in F. exact (F _ I).
  - apply blocks_partial; [exact P|exact F|]. rewrite (page_of_paragraph wikipath rst xs None [] out t); auto.
Qed.
