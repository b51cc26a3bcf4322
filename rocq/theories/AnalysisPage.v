(* The page that shows an analysis *)
From Verif Require Import Py PyFacts Re Rx RxFacts HtmlModel HtmlSpec HtmlProofs TreeModel TreeSpec TreeProofs TreeVisit TreeHtml TreeText TreeStream TocModel TocSpec TocProofs WikiModel WikiSpec WikiInv WikiMatch WikiWalk WikiText WikiProofs WikiLink CmpProofs AnalysisSpec.
From Coq Require Import Permutation.
Open Scope string_scope.
Open Scope list_scope.
Open Scope nat_scope.

(* ---- no table of contents comes in ---- *)
Definition no_contents (d : doc) : Prop := Forall (fun n => cls n <> MacroNode) (nodes d).
Lemma set_none : forall ns i n, Forall (fun n => cls n <> MacroNode) ns -> cls n <> MacroNode -> Forall (fun n => cls n <> MacroNode) (set_node ns i n).
Proof.
  intros ns i n F N. unfold set_node. apply Forall_app. rewrite <- (firstn_skipn i ns) in F. pose proof F as F2. apply Forall_app in F. split; [apply F|]. constructor; [exact N|].
  rewrite firstn_skipn in F2. rewrite <- (firstn_skipn (S i) ns) in F2. apply Forall_app in F2. apply F2.
Qed.
Lemma update_none : forall d i f, (forall n, cls (f n) = cls n) -> no_contents d -> no_contents (update d i f).
Proof.
  intros d i f Hf N. unfold update. destruct (nth_error (nodes d) i) as [n|] eqn:E; [|exact N]. unfold no_contents. cbn [nodes]. apply set_none; [exact N|]. rewrite Hf.
  unfold no_contents in N. rewrite Forall_forall in N. apply N. apply nth_error_In in E. exact E.
Qed.
Lemma enter_none : forall d k a, k <> MacroNode -> no_contents d -> no_contents (fst (exec d (Enter k a))).
Proof.
  intros d k a K N. cbn [exec fst]. unfold enter, append. destruct k; try exact N; try (elim K; reflexivity).
  all: destruct (look d _) as [[c|]|e]; [|exact N|exact N]; cbn [fst goto nodes]; unfold no_contents; cbn [nodes]; apply Forall_app; split; [apply update_none; [reflexivity|exact N]|constructor; [exact K|constructor]].
Qed.
Lemma leave_none : forall d ks, no_contents d -> no_contents (fst (exec d (Leave ks))).
Proof. intros d ks N. unfold no_contents. cbn [exec]. rewrite leave_nodes. exact N. Qed.
Lemma text_none : forall d t, no_contents d -> no_contents (fst (exec d (AddText t))).
Proof.
  intros d t N. cbn [exec]. unfold append_text. destruct (current d) as [c|]; [|exact N]. destruct (nth_error (nodes d) c) as [n|] eqn:E; [|exact N].
  assert (G : no_contents (fst (mkdoc (set_node (nodes d) c (with_children n (children n ++ [List.length (nodes d)])) ++ [mknode Text [] t None (Some c) []]) (current d), Ok tt))).
  { unfold no_contents. cbn [fst nodes]. apply Forall_app. split; [apply set_none; [exact N|]|constructor; [discriminate|constructor]]. cbn. unfold no_contents in N. rewrite Forall_forall in N. apply N. apply nth_error_In in E. exact E. }
  destruct (rev (children n)) as [|i l]; [exact G|]. destruct (nth_error (nodes d) i) as [m|]; [|exact N]. destruct (cls m); try exact G. apply update_none; [reflexivity|exact N].
Qed.

(* ---- writing the tables ---- *)
Section Write.
Variable order : list string.
Variable rst : str -> res str.
Definition stands (d : doc) (st : list (klass * list (string * value))) (s : str) : Prop := at_back order rst d st s None /\ no_contents d.
Definition writes (m : M unit) (st : list (klass * list (string * value))) (t : str) : Prop := forall d s, stands d st s -> exists d', m d = (d', Ok tt) /\ stands d' st (s ++ t).
Lemma writes_each : forall (X : Type) (f : X -> M unit) (g : X -> str) st, (forall x, writes (f x) st (g x)) -> forall l, writes (m_each f l) st (flat_map g l).
Proof.
  intros X f g st H. induction l as [|x l IH]; intros d s B.
  - exists d. split; [reflexivity|]. cbn [flat_map]. rewrite app_nil_r. exact B.
  - destruct (H x d s B) as (d1 & E1 & B1). destruct (IH d1 _ B1) as (d2 & E2 & B2). exists d2. cbn [m_each flat_map]. unfold andthen. rewrite E1. split; [exact E2|]. rewrite app_assoc. exact B2.
Qed.
Definition strings (a : list (string * str)) : list (string * value) := map (fun kv => (fst kv, VStr (snd kv))) a.
Lemma join_cons : forall x l, x <> [] -> join_attrs (x :: l) = x ++ match join_attrs l with [] => match l with [] => [] | _ => L " " end | _ => L " " ++ join_attrs l end.
Proof. intros x [|y l] N; [cbn [join_attrs]; rewrite app_nil_r; reflexivity|]. change (join_attrs (x :: y :: l)) with (x ++ L " " ++ join_attrs (y :: l)). destruct (join_attrs (y :: l)); reflexivity. Qed.
Lemma join_strings : forall a, exists l, mapM attr_string (strings a) = Ok l /\ (join_attrs l = [] -> l = []) /\ (match join_attrs l with [] => [] | _ => L " " ++ join_attrs l end) = flat_map written_attr a.
Proof.
  induction a as [|[k v] a (l & E & N & J)]; [exists []; repeat split; reflexivity|]. set (x := L k ++ L "=" ++ [quote] ++ escape v ++ [quote]). exists (x :: l). split; [cbn [strings map mapM fst snd]; change (map (fun kv => (fst kv, VStr (snd kv))) a) with (strings a); rewrite E; reflexivity|].
  assert (Nx : x <> []) by (unfold x; destruct (L k); discriminate). rewrite join_cons by exact Nx. split; [intro H; apply app_eq_nil in H; destruct H; contradiction|].
  cbn [flat_map]. unfold written_attr at 1. cbn [fst snd]. fold x. rewrite <- J. destruct x as [|c x]; [congruence|].
  destruct (join_attrs l) as [|d y]; [rewrite (N eq_refl)|]; cbn [app L list_ascii_of_string]; rewrite ?app_nil_r; reflexivity.
Qed.
Definition made (k : klass) : Prop := In k [Table; TableRow; TableHeader; TableCell].
Definition name_of (k : klass) : string := match k with Table => "table" | TableRow => "tr" | TableHeader => "th" | _ => "td" end.
Lemma made_open : forall k a, made k -> exists o, open order (created k (strings a) None) = Ok o /\ o = L "<" ++ L (name_of k) ++ flat_map written_attr a ++ L ">" ++ [newline].
Proof.
  intros k a H. destruct (join_strings a) as (l & E & _ & J). eexists. split; [|reflexivity]. rewrite <- J.
  destruct H as [<-|[<-|[<-|[<-|[]]]]]; unfold open, created, generic_open; cbn [cls attrs html_element is_single name_of]; rewrite E; reflexivity.
Qed.
Lemma made_close : forall k a, made k -> close order rst (mknode k a [] None None []) = Ok (L "</" ++ L (name_of k) ++ L ">" ++ [newline]).
Proof. intros k a H. destruct H as [<-|[<-|[<-|[<-|[]]]]]; reflexivity. Qed.
Lemma push_stands : forall k a d st s, made k -> is_acceptable (match st with (c, _) :: _ => c | [] => BgRoot end) k = true -> stands d st s ->
  exists d', m_push k (strings a) d = (d', Ok tt) /\ stands d' ((k, strings a) :: st) (s ++ L "<" ++ L (name_of k) ++ flat_map written_attr a ++ L ">" ++ [newline]).
Proof.
  intros k a d st s Mk Ac [B N]. destruct (made_open k a Mk) as (o & Eo & ->).
  assert (Nk : k <> BgRoot /\ k <> Text /\ k <> MacroNode /\ k <> Wrapping) by (destruct Mk as [<-|[<-|[<-|[<-|[]]]]]; repeat split; discriminate). destruct Nk as (K1 & K2 & K3 & K4).
  destruct (back_enter order rst d st s None k (strings a) _ B Ac K1 K2 Eo) as (d' & E & B'). exists d'. split.
  - unfold m_push, andthen, m_enter, ret. cbn [exec] in E. destruct (enter d k (strings a)) as [d1 [x|e]]; cbn [fst snd] in E; [injection E as <-; reflexivity|discriminate E].
  - split; [|replace d' with (fst (exec d (Enter k (strings a)))) by (rewrite E; reflexivity); apply enter_none; assumption].
    replace (match k with Wrapping => [] | _ => strings a end) with (strings a) in B' by (destruct k; try reflexivity; congruence). exact B'.
Qed.
Lemma leave_stands : forall k a d st s pend, made k -> at_back order rst d ((k, a) :: st) s pend -> no_contents d ->
  exists d', m_leave [k] d = (d', Ok tt) /\ stands d' st (s ++ pended pend ++ L "</" ++ L (name_of k) ++ L ">" ++ [newline]).
Proof.
  intros k a d st s pend Mk B N. assert (A : is_any k [k] = true) by (destruct Mk as [<-|[<-|[<-|[<-|[]]]]]; reflexivity).
  destruct (back_leave order rst d k a st s pend [k] _ B A (made_close k a Mk)) as (d' & E & B'). exists d'. split; [exact E|]. split; [exact B'|].
  replace d' with (fst (exec d (Leave [k]))) by (rewrite E; reflexivity). apply leave_none. exact N.
Qed.
(* an element with what is written inside *)
Lemma writes_in : forall k a m t st, made k -> is_acceptable (match st with (c, _) :: _ => c | [] => BgRoot end) k = true -> writes m ((k, strings a) :: st) t ->
  writes (m_push k (strings a) ;; m ;; m_leave [k]) st (written_element (name_of k) a t).
Proof.
  intros k a m t st Mk Ac W d s B. destruct (push_stands k a d st s Mk Ac B) as (d1 & E1 & B1). destruct (W d1 _ B1) as (d2 & E2 & B2 & N2).
  destruct (leave_stands k _ d2 st _ None Mk B2 N2) as (d3 & E3 & B3). exists d3. unfold andthen. rewrite E1, E2. split; [exact E3|].
  unfold written_element. cbn [pended app] in B3. repeat (rewrite <- app_assoc in B3; cbn [app] in B3). repeat (rewrite <- app_assoc; cbn [app]). exact B3.
Qed.
Lemma cell_writes : forall c st, is_acceptable (match st with (k, _) :: _ => k | [] => BgRoot end) (if header c then TableHeader else TableCell) = true -> writes (write_cell c) st (written_cell c).
Proof.
  intros c st Ac d s B. unfold write_cell. set (k := if header c then TableHeader else TableCell) in *. assert (Mk : made k) by (unfold k, made; destruct (header c); cbn; auto).
  destruct (push_stands k (cattrs c) d st s Mk Ac B) as (d1 & E1 & B1 & N1). destruct (back_text order rst d1 _ _ None (ctext c) B1) as (d2 & E2 & B2).
  assert (N2 : no_contents d2) by (replace d2 with (fst (exec d1 (AddText (ctext c)))) by (rewrite E2; reflexivity); apply text_none; exact N1).
  destruct (leave_stands k _ d2 st _ _ Mk B2 N2) as (d3 & E3 & B3). exists d3. fold (strings (cattrs c)). unfold andthen. rewrite E1. unfold m_text, run_op. rewrite E2. split; [exact E3|].
  unfold written_cell, written_element. replace (if header c then "th" else "td") with (name_of k) by (unfold k; destruct (header c); reflexivity).
  cbn [pended app] in B3. repeat (rewrite <- app_assoc in B3; cbn [app] in B3). repeat (rewrite <- app_assoc; cbn [app]). exact B3.
Qed.
Lemma row_writes : forall r st, is_acceptable (match st with (k, _) :: _ => k | [] => BgRoot end) TableRow = true -> writes (write_row r) st (written_row r).
Proof.
  intros [c cs] st Ac. apply (writes_in TableRow [("class", c)]); [cbn; auto|exact Ac|]. apply writes_each. intro x. apply cell_writes. destruct (header x); reflexivity.
Qed.
Lemma table_writes : forall t st, is_acceptable (match st with (k, _) :: _ => k | [] => BgRoot end) Table = true -> writes (write_table t) st (written_table t).
Proof.
  intros t st Ac. apply (writes_in Table [("class", tclass t)]); [cbn; auto|exact Ac|]. apply writes_each. intro x. apply row_writes. reflexivity.
Qed.
Lemma stands_html : forall d st s t, stands d st s -> mapM (fun ka => close order rst (mknode (fst ka) (snd ka) [] None None [])) st = Ok t -> make_html order rst d = Ok (s ++ List.concat t).
Proof.
  intros d st s t [B N] H. pose proof (back_whole order rst d st s None t B H) as R. rewrite make_html_contents. unfold render_contents. unfold render in R.
  destruct (visit_ok d (ab_wf _ _ _ _ _ _ B)) as (vs & A & _). rewrite A in R |- *.
  rewrite write_plain; [exact R|]. intros i _ (n & Hn & K). unfold no_contents in N. rewrite Forall_forall in N. apply nth_error_In in Hn. exact (N n Hn K).
Qed.
End Write.

(* ---- the line ---- *)
Definition arg_set : cset := Ranges false [("a", "z"); ("A", "Z"); ("0", "9"); xone "+"; xone ","; xone " "; xone "."; xone "="; xone "/"; xone "#"; xone ":"]%char.
Definition id_set : cset := Ranges false [("a", "z"); ("A", "Z"); ("0", "9"); xone "/"; xone "+"]%char.
Lemma id_in : forall c, id_char c -> inset id_set c = true /\ inset arg_set c = true /\ c <> ":"%char /\ c <> ascii_of_nat 13 /\ c <> newline_char.
Proof.
  intros c H. assert (G : forallb (fun c => inset id_set c && inset arg_set c && negb (Ascii.eqb c ":") && negb (Ascii.eqb c (ascii_of_nat 13)) && negb (Ascii.eqb c newline_char))
    (L "ABCDEFGHIJKLMNOPQRSTUVWXYZabcdefghijklmnopqrstuvwxyz0123456789+/") = true) by (vm_compute; reflexivity).
  rewrite forallb_forall in G. specialize (G c H). do 4 (apply andb_true_iff in G; destruct G as [G ?]). repeat split; try assumption; apply Ascii.eqb_neq; apply negb_true_iff; assumption.
Qed.
Lemma run_xcats : forall a b l k st, run (xcats (a :: b :: l)) k st = run a (run (xcats (b :: l)) k) st.
Proof. reflexivity. Qed.
Lemma run_times : forall p k w rest f g, all_in p w -> w <> [] -> run (times (List.length w) (XChr p)) k (mkspot f (w ++ rest) g) = k (mkspot false rest g).
Proof.
  intros p k w. induction w as [|c w IH]; intros rest f g A N; [congruence|]. destruct w as [|d w].
  - cbn [List.length times repeat xcats run left app caps]. rewrite (A c (or_introl eq_refl)). reflexivity.
  - unfold times in *. change (repeat (XChr p) (List.length (c :: d :: w))) with (XChr p :: XChr p :: repeat (XChr p) (List.length w)). rewrite run_xcats.
    change (XChr p :: repeat (XChr p) (List.length w)) with (repeat (XChr p) (List.length (d :: w))).
    transitivity (if inset p c then run (xcats (repeat (XChr p) (List.length (d :: w)))) k (mkspot false ((d :: w) ++ rest) g) else None); [reflexivity|]. rewrite (A c (or_introl eq_refl)). apply IH; [|discriminate]. intros x I. apply A. right. exact I.
Qed.
Lemma name_position : forall g, position_name g -> exists l, parse_position (Some g) = Ok (Some (("gnubgid", g) :: l)).
Proof.
  intros g (pid & mid & E & Lp & Lm & C). unfold parse_position.
  assert (R : run arg_pattern Some (mkspot true g []) = Some (mkspot false [] [("gnubgid", g)])).
  { assert (T1 : forall k r, run (times 14 base64) k (mkspot true (pid ++ r) []) = k (mkspot false r [])).
    { intros k r. rewrite <- Lp. apply run_times; [intros c I; apply id_in, C, in_or_app; left; exact I|intros ->; discriminate Lp]. }
    assert (T2 : forall k, run (times 12 base64) k (mkspot false mid []) = k (mkspot false [] [])).
    { intros k. rewrite <- Lm. rewrite <- (app_nil_r mid) at 2. apply run_times; [intros c I; apply id_in, C, in_or_app; right; exact I|intros ->; discriminate Lm]. }
    unfold arg_pattern. rewrite run_xcats, run_group.
    match goal with |- run _ ?k _ = _ => set (K := k) end. assert (EK : K (mkspot false [] []) = Some (mkspot false [] [("gnubgid", g)])).
    { unfold K. cbn [fresh left caps]. unfold between. cbn [List.length]. rewrite Nat.sub_0_r, firstn_all. reflexivity. }
    rewrite E. rewrite run_xcats, T1, run_xcats. change (L ":" ++ mid) with (":"%char :: mid).
    change (run (xlit ":") (run (xcats [times 12 base64]) K) (mkspot false (":"%char :: mid) [])) with (run (times 12 base64) K (mkspot false mid [])). rewrite T2. rewrite EK, E. reflexivity. }
  rewrite R. eexists. cbn. reflexivity.
Qed.
Lemma end_none : forall n, finditer n (regexp line_patterns) false [] = [].
Proof. intros [|n]; [reflexivity|]. cbn [finditer]. replace (run (regexp line_patterns) Some (mkspot false [] [])) with (@None spot) by (vm_compute; reflexivity). reflexivity. Qed.
Lemma run_lit : forall s k f r c, s <> ""%string -> run (xlit s) k (mkspot f (L s ++ r) c) = k (mkspot false r c).
Proof.
  induction s as [|a s IH]; intros k f r c N; [congruence|]. change (xlit (String a s)) with (XCat (XChr (One a)) (xlit s)). rewrite run_cat. change (L (String a s) ++ r) with (a :: L s ++ r). rewrite run_chr.
  destruct s as [|b s]; [reflexivity|]. apply IH. discriminate.
Qed.
Lemma run_opt : forall a k st x, run a k st = Some x -> run (xopt a) k st = Some x.
Proof. intros a k st x H. unfold xopt. change (run (XAlt a XEps) k st) with (match run a k st with Some x => Some x | None => k st end). rewrite H. reflexivity. Qed.
Definition macro_rx : rx := xcats [xlit "[["; XGroup "macro_name" (xplus word); xopt (xcats [xlit "("; XGroup "macro_args" (xplus (XChr arg_set)); xlit ")"]); xlit "]]"].
Lemma macro_run : forall k g f, g <> [] -> all_in arg_set g -> forall x, k (mkspot false [] [("macro_args", g); ("macro_name", L "Analysis")]) = Some x ->
  run macro_rx k (mkspot f (L "[[" ++ L "Analysis" ++ L "(" ++ g ++ L ")" ++ L "]]" ++ []) []) = Some x.
Proof.
  intros k g f N Ag x H. unfold macro_rx. rewrite run_xcats, run_lit by discriminate. rewrite run_xcats. apply group_plus; [discriminate| |reflexivity|].
  - intros c I. cbn in I. repeat (destruct I as [<-|I]; [reflexivity|]). destruct I.
  - rewrite run_xcats. apply run_opt. rewrite run_xcats, run_lit by discriminate. rewrite run_xcats. apply group_plus; [exact N|exact Ag|reflexivity|].
    change (xcats [xlit ")"]) with (xlit ")"). rewrite run_lit by discriminate. change (xcats [xlit "]]"]) with (xlit "]]"). rewrite run_lit by discriminate. exact H.
Qed.
Lemma analysis_run : forall g, g <> [] -> all_in arg_set g -> forall line, line = L "[[Analysis(" ++ g ++ L ")]]" ->
  run (regexp line_patterns) Some (mkspot true line []) = Some (mkspot false [] [("_pattern_macro", line); ("macro_args", g); ("macro_name", L "Analysis")]).
Proof.
  intros g N Ag line El. unfold regexp. apply run_first with (i := 15) (r := XGroup "_pattern_macro" macro_rx); [reflexivity| |].
  - intros j q Lt Hj. rewrite El. do 15 (destruct j as [|j]; [injection Hj as <-; vm_compute; reflexivity|]); lia.
  - rewrite run_group. replace (mkspot true line []) with (mkspot true (L "[[" ++ L "Analysis" ++ L "(" ++ g ++ L ")" ++ L "]]" ++ []) []) by (rewrite El; reflexivity).
    apply macro_run; [exact N|exact Ag|]. cbn [fresh left caps]. unfold between. cbn [List.length]. rewrite Nat.sub_0_r, firstn_all. reflexivity.
Qed.
Lemma analysis_match : forall g, g <> [] -> all_in arg_set g -> forall line, line = L "[[Analysis(" ++ g ++ L ")]]" ->
  matches line = [[("_pattern_macro", line); ("macro_args", g); ("macro_name", L "Analysis")]].
Proof.
  intros g N Ag line El. pose proof (analysis_run g N Ag line El) as R. assert (P : Nat.ltb 0 (List.length line) = true) by (rewrite El; reflexivity). clear El.
  unfold matches, find_all. cbn [finditer]. rewrite R. cbn [left caps List.length]. rewrite P, end_none. reflexivity.
Qed.
Lemma bang_out : forall c, inset arg_set c = true -> Ascii.eqb c "!" = false.
Proof. intros c H. destruct (Ascii.eqb_spec c "!") as [->|]; [discriminate H|reflexivity]. Qed.
Section Line.
Variables (design_order : list string) (wikipath now : str) (urlencode : list (string * str) -> str) (analysis : str -> res (list table)).
Lemma analysis_groups : forall c g line d gs l, inset arg_set c = true -> parse_position (Some (c :: g)) = Ok (Some (("gnubgid", c :: g) :: l)) ->
  gs = [("_pattern_macro", "["%char :: line); ("macro_args", c :: g); ("macro_name", L "Analysis")] ->
  m_each (handle_group design_order wikipath now urlencode analysis gs) gs d = match analysis (c :: g) with Ok ts => m_each write_table ts d | Exc e => (d, Exc e) end.
Proof.
  intros c g line d gs l Hc Hp ->.
  assert (H3 : forall d, handle_group design_order wikipath now urlencode analysis [("_pattern_macro", "["%char :: line); ("macro_args", c :: g); ("macro_name", L "Analysis")] ("macro_name", L "Analysis") d = (d, Ok tt)) by reflexivity.
  assert (H2 : forall d, handle_group design_order wikipath now urlencode analysis [("_pattern_macro", "["%char :: line); ("macro_args", c :: g); ("macro_name", L "Analysis")] ("macro_args", c :: g) d = (d, Ok tt)).
  { intro d0. unfold handle_group. rewrite (bang_out c Hc). reflexivity. }
  assert (H1 : handle_group design_order wikipath now urlencode analysis [("_pattern_macro", "["%char :: line); ("macro_args", c :: g); ("macro_name", L "Analysis")] ("_pattern_macro", "["%char :: line) d
     = dispatch now urlencode analysis (L "Analysis") (Some (c :: g)) d) by reflexivity.
  cbn [m_each]. unfold andthen at 1. rewrite H1. unfold dispatch. change (macro now urlencode analysis (L "Analysis")) with (Some (fun args =>
    do! p := (fun d => (d, parse_position args)) in
    match p with
    | None => ret false
    | Some p => do! ts := (fun d => (d, analysis (match p with (_, s) :: _ => s | [] => [] end))) in m_each write_table ts ;; ret true
    end)). cbv beta iota. unfold andthen. rewrite Hp. destruct (analysis (c :: g)) as [ts|e]; [|reflexivity].
  destruct (m_each write_table ts d) as [d1 [[]|e]]; [|reflexivity]. cbn [ret]. unfold ret. rewrite H2, H3. reflexivity.
Qed.
End Line.
Definition in_div : doc := edit new_doc [Enter Div []].
Lemma div_first : forall F : M unit, (start_on_not_exist Div [] ;; m_leave [BlockQuote; DefBody] ;; m_leave [Citation] ;; ret tt ;; F ;; ret tt) new_doc
  = match F in_div with (d, Ok _) => (d, Ok tt) | (d, Exc e) => (d, Exc e) end.
Proof. intro F. reflexivity. Qed.
Lemma one_parse : forall design_order wikipath now urlencode analysis c line gs, c <> " "%char -> c <> ">"%char -> one_line (c :: line) -> ends_with "::" (c :: line) = false -> matches (c :: line) = [gs] ->
  parse design_order wikipath now urlencode analysis (c :: line) new_doc = match m_each (handle_group design_order wikipath now urlencode analysis gs) gs in_div with (d, Ok _) => (d, Ok tt) | (d, Exc e) => (d, Exc e) end.
Proof.
  intros design_order wikipath now urlencode analysis c line gs N1 N2 O Ew M. unfold parse. rewrite one_split; [|exact O|discriminate]. cbn [m_each]. unfold andthen at 1, parse_line. cbn [current new_doc nodes nth_error root cls].
  unfold line_parse. rewrite Ew, M. apply Ascii.eqb_neq in N1. apply Ascii.eqb_neq in N2. rewrite N1, N2.
  fold new_doc. rewrite div_first. cbn [m_each]. unfold andthen. destruct (m_each (handle_group design_order wikipath now urlencode analysis gs) gs in_div) as [d [[]|e]]; reflexivity.
Qed.
Lemma analysis_page : forall design_order wikipath now urlencode analysis rst g, position_name g ->
  html design_order wikipath now urlencode analysis rst (L "[[Analysis(" ++ g ++ L ")]]")
  = match analysis g with Ok ts => Ok (L "<div>" ++ [newline] ++ flat_map written_table ts ++ L "</div>" ++ [newline]) | Exc e => Exc e end.
Proof.
  intros design_order wikipath now urlencode analysis rst g P. destruct (name_position g P) as [l Hl]. destruct P as (pid & mid & E & Lp & Lm & C).
  assert (Cg : forall c, In c g -> inset arg_set c = true /\ c <> ascii_of_nat 13 /\ c <> newline_char).
  { intros c I. rewrite E in I. apply in_app_or in I. destruct I as [I|[<-|I]]; [|split; [reflexivity|split; discriminate]|]; destruct (id_in c) as (? & ? & ? & ? & ?); auto; apply C, in_or_app; auto. }
  assert (Ng : g <> []) by (rewrite E; destruct pid; discriminate). clear E Lp Lm C pid mid.
  set (line := L "[Analysis(" ++ g ++ L ")]]"). change (L "[[Analysis(" ++ g ++ L ")]]") with ("["%char :: line).
  pose proof (analysis_match g Ng (fun c I => proj1 (Cg c I)) ("["%char :: line) eq_refl) as M.
  assert (Sp : one_line ("["%char :: line)).
  { intros c [<-|I]; [split; discriminate|]. apply in_app_or in I. destruct I as [I|I]; [|apply in_app_or in I; destruct I as [I|I]; [destruct (Cg c I) as (_ & ? & ?); split; assumption|]].
    all: cbn in I; repeat (destruct I as [<-|I]; [split; discriminate|]); destruct I. }
  assert (Ew : ends_with "::" ("["%char :: line) = false).
  { change ("["%char :: line) with (L "[[Analysis(" ++ g ++ L ")]]"). rewrite app_assoc. apply ends_no; [discriminate|]. intro I. cbn in I. repeat (destruct I as [I|I]; [discriminate I|]). exact I. }
  clearbody line. unfold html. rewrite (one_parse design_order wikipath now urlencode analysis "["%char line _ ltac:(discriminate) ltac:(discriminate) Sp Ew M).
  destruct g as [|c g]; [congruence|]. rewrite (analysis_groups design_order wikipath now urlencode analysis c g line in_div _ l (proj1 (Cg c (or_introl eq_refl))) Hl eq_refl).
  destruct (analysis (c :: g)) as [ts|e]; [|reflexivity].
  assert (B1 : stands design_order rst in_div [(Div, [])] (L "<div>" ++ [newline])).
  { destruct (back_enter design_order rst new_doc [] [] None Div [] (L "<div>" ++ [newline]) (back_new design_order rst)) as (d' & Ed & B'); try reflexivity; try discriminate.
    assert (d' = in_div) by (unfold in_div; cbn [edit fold_left]; rewrite Ed; reflexivity). subst d'. split; [exact B'|]. unfold in_div. cbn [edit fold_left]. apply enter_none; [discriminate|]. constructor; [discriminate|constructor]. }
  destruct (writes_each design_order rst table write_table written_table [(Div, [])]) with (l := ts) (d := in_div) (s := L "<div>" ++ [newline]) as (d' & Ed & B'); [intro t; apply table_writes; reflexivity|exact B1|].
  rewrite Ed. rewrite (stands_html design_order rst d' _ _ [L "</div>" ++ [newline]] B'); [|reflexivity]. cbn [List.concat]. rewrite app_nil_r. rewrite <- !app_assoc. reflexivity.
Qed.
