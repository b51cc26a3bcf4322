(* How marks and references are read *)
From Verif Require Import Py PyFacts Re Rx RxFacts HtmlModel HtmlSpec TreeSpec TocSpec WikiModel WikiSpec WikiMatch WikiLink CmpProofs AnalysisPage ShowSpec ShowRead.
Open Scope string_scope.
Open Scope list_scope.
Open Scope nat_scope.

Definition inside : list rx := firstn 15 bodies ++ [the_macro] ++ skipn 15 bodies.
Lemma ways_inside : forall j q, j < 25 -> nth_error ways j = Some q -> exists n r, nth_error inside j = Some r /\ q = XGroup n (if Nat.eqb j 15 then r else XCat bang r).
Proof.
  intros j q Lj H. do 25 (destruct j as [|j]; [injection H as <-; do 2 eexists; split; [reflexivity|]; cbn [Nat.eqb]; reflexivity|]). lia.
Qed.
Lemma inside_bang : forall r f s, In r inside -> dead f r ("!"%char :: s).
Proof.
  intros r f s I. assert (G : forallb (fun r => negb (empty_too r) && negb (can r "!")) inside = true) by (vm_compute; reflexivity).
  rewrite forallb_forall in G. specialize (G r I). apply andb_prop in G. destruct G as [G1 G2]. apply negb_true_iff in G1, G2. apply dead_head; assumption.
Qed.
Lemma find_way : forall i n r text rest inner, i < 25 -> nth_error ways i = Some (XGroup n (XCat bang r)) -> nth_error inside i = Some r -> starts (L "!") (text ++ rest) = false ->
  (forall j q, j < i -> nth_error inside j = Some q -> forall f, dead f q (text ++ rest)) ->
  (forall k f x, k (mkspot false rest inner) = Some x -> run r k (mkspot f (text ++ rest) []) = Some x) ->
  (forall f, run (regexp line_patterns) Some (mkspot f (text ++ rest) []) = Some (mkspot false rest ((n, text) :: inner)))
  /\ (forall f, run (regexp line_patterns) Some (mkspot f ("!"%char :: text ++ rest) []) = Some (mkspot false rest ((n, "!"%char :: text) :: inner))).
Proof.
  intros i n r text rest inner Li Hi Hr Nb D R. rewrite ways_are. split; intro f.
  - apply run_first with (i := i) (r := XGroup n (XCat bang r)); [exact Hi| |].
    + intros j q Lj Hj. destruct (ways_inside j q ltac:(lia) Hj) as (m & p & Hp & ->). apply way_none. destruct (Nat.eqb j 15); [apply (D j); assumption|].
      apply dead_bang; [apply (D j); assumption|]. intros s' E. rewrite E in Nb. discriminate Nb.
    + rewrite run_group, bang_on by exact Nb. apply R. cbn [fresh left caps]. rewrite between_app. reflexivity.
  - apply run_first with (i := i) (r := XGroup n (XCat bang r)); [exact Hi| |].
    + intros j q Lj Hj. destruct (ways_inside j q ltac:(lia) Hj) as (m & p & Hp & ->). assert (Ip : In p inside) by (eapply nth_error_In; exact Hp). apply way_none. destruct (Nat.eqb j 15); [apply inside_bang; exact Ip|].
      apply dead_bang; [apply inside_bang; exact Ip|]. intros s' E. injection E as <-. apply (D j); assumption.
    + rewrite run_group. apply bang_off. apply R. cbn [fresh left caps]. change ("!"%char :: text ++ rest) with (("!"%char :: text) ++ rest). rewrite between_app. reflexivity.
Qed.
(* ---- marks ---- *)
Definition mark_pat (m : mark) : string :=
  match m with
  | MBold => "_pattern_bold" | MItalic => "_pattern_italic" | MUnder => "_pattern_underline" | MStrike => "_pattern_strike" | MSub => "_pattern_subscript"
  | MSup => "_pattern_superscript" | MMono => "_pattern_monospace" | MH1 => "_pattern_heading_h1" | MH2 => "_pattern_heading_h2" | MH3 => "_pattern_heading_h3"
  end.
Definition reads (text : str) (rest : str) (n : string) (inner : list (string * str)) : Prop :=
  (forall f, run (regexp line_patterns) Some (mkspot f (text ++ rest) []) = Some (mkspot false rest ((n, text) :: inner)))
  /\ (forall f, run (regexp line_patterns) Some (mkspot f ("!"%char :: text ++ rest) []) = Some (mkspot false rest ((n, "!"%char :: text) :: inner))).
Lemma mark_reads : forall m rest, follows_mark m rest = true -> reads (sign_text m) rest (mark_pat m) [].
Proof.
  intros m rest H.
  assert (Lk : forall s k f x, s <> ""%string -> k (mkspot false rest []) = Some x -> run (xlit s) k (mkspot f (L s ++ rest) []) = Some x) by (intros s k f x N K; rewrite run_lit by exact N; exact K).
  destruct m; cbn [follows_mark] in H.
  - apply find_way with (i := 1) (r := xlit "'''"); [lia|reflexivity|reflexivity|reflexivity| |intros; apply Lk; [discriminate|assumption]].
    apply negb_true_iff in H. intros j q Lj Hj f. destruct j as [|j]; [|lia]. injection Hj as <-. apply dead_lit. exact H.
  - apply find_way with (i := 2) (r := xlit "''"); [lia|reflexivity|reflexivity|reflexivity| |intros; apply Lk; [discriminate|assumption]].
    apply negb_true_iff in H. intros j q Lj Hj f. destruct j as [|[|j]]; [| |lia]; injection Hj as <-; apply dead_lit; [|exact H].
    apply (starts_pre (L "'") (L "''")). exact H.
  - apply find_way with (i := 3) (r := xlit "__"); [lia|reflexivity|reflexivity|reflexivity| |intros; apply Lk; [discriminate|assumption]].
    intros j q Lj Hj f. do 3 (destruct j as [|j]; [injection Hj as <-; apply dead_head; reflexivity|]). lia.
  - apply find_way with (i := 4) (r := xlit "~~"); [lia|reflexivity|reflexivity|reflexivity| |intros; apply Lk; [discriminate|assumption]].
    intros j q Lj Hj f. do 4 (destruct j as [|j]; [injection Hj as <-; apply dead_head; reflexivity|]). lia.
  - apply find_way with (i := 5) (r := xlit ",,"); [lia|reflexivity|reflexivity|reflexivity| |intros; apply Lk; [discriminate|assumption]].
    intros j q Lj Hj f. do 5 (destruct j as [|j]; [injection Hj as <-; apply dead_head; reflexivity|]). lia.
  - apply find_way with (i := 6) (r := xlit "^"); [lia|reflexivity|reflexivity|reflexivity| |intros; apply Lk; [discriminate|assumption]].
    intros j q Lj Hj f. do 6 (destruct j as [|j]; [injection Hj as <-; apply dead_head; reflexivity|]). lia.
  - apply find_way with (i := 7) (r := xlit "`"); [lia|reflexivity|reflexivity|reflexivity| |intros; apply Lk; [discriminate|assumption]].
    intros j q Lj Hj f. do 7 (destruct j as [|j]; [injection Hj as <-; apply dead_head; reflexivity|]). lia.
  - apply find_way with (i := 14) (r := xlit "="); [lia|reflexivity|reflexivity|reflexivity| |intros; apply Lk; [discriminate|assumption]].
    apply negb_true_iff in H. intros j q Lj Hj f. do 12 (destruct j as [|j]; [injection Hj as <-; apply dead_head; reflexivity|]).
    destruct j as [|[|j]]; [| |lia]; injection Hj as <-; apply dead_lit; [apply (starts_pre (L "=") (L "=")); exact H|exact H].
  - apply find_way with (i := 13) (r := xlit "=="); [lia|reflexivity|reflexivity|reflexivity| |intros; apply Lk; [discriminate|assumption]].
    apply negb_true_iff in H. intros j q Lj Hj f. do 12 (destruct j as [|j]; [injection Hj as <-; apply dead_head; reflexivity|]).
    destruct j as [|j]; [|lia]; injection Hj as <-; apply dead_lit. exact H.
  - apply find_way with (i := 12) (r := xlit "==="); [lia|reflexivity|reflexivity|reflexivity| |intros; apply Lk; [discriminate|assumption]].
    intros j q Lj Hj f. do 12 (destruct j as [|j]; [injection Hj as <-; apply dead_head; reflexivity|]). lia.
Qed.
(* ---- references ---- *)
Lemma run_alt_l : forall a b k st x, run a k st = Some x -> run (XAlt a b) k st = Some x.
Proof. intros a b k st x H. change (run (XAlt a b) k st) with (match run a k st with Some x => Some x | None => run b k st end). rewrite H. reflexivity. Qed.
Lemma run_alt_r : forall a b k st x, run a k st = None -> run b k st = Some x -> run (XAlt a b) k st = Some x.
Proof. intros a b k st x H H2. change (run (XAlt a b) k st) with (match run a k st with Some x => Some x | None => run b k st end). rewrite H. exact H2. Qed.
Lemma lit_then : forall s b k f r c x, s <> ""%string -> run b k (mkspot false r c) = Some x -> run (XCat (xlit s) b) k (mkspot f (L s ++ r) c) = Some x.
Proof. intros s b k f r c x N H. rewrite run_cat, run_lit by exact N. exact H. Qed.
Lemma digits_then : forall k f n r c x, number n -> head_is is_digit r = false -> k (mkspot false r c) = Some x -> run digits k (mkspot f (n ++ r) c) = Some x.
Proof. intros k f n r c x [N D] S K. unfold digits. apply plus_chars; [exact N|apply (all_of _ _ _ digit_same D)|apply (stops_of _ _ _ digit_same S)|exact K]. Qed.
Lemma digits_cat : forall b k f n r c x, number n -> head_is is_digit r = false -> run b k (mkspot false r c) = Some x -> run (XCat digits b) k (mkspot f (n ++ r) c) = Some x.
Proof. intros. rewrite run_cat. apply digits_then; assumption. Qed.
Definition ref_pat (r : ref) : string :=
  match r with
  | Entry _ | EntryWord _ => "_pattern_entry_link" | QueryWord _ | Query _ => "_pattern_query_link" | MatchM _ | MatchWord _ | MatchNo _ => "_pattern_match_link"
  | Wiki _ => "_pattern_scheme_wikiname" | Camel _ => "_pattern_camelcase" | Url _ => "_pattern_auto_anchor" | UrlNamed _ _ => "_pattern_scheme_url"
  end.
Definition ref_inner (r : ref) : list (string * str) :=
  match r with Url u => [("url_2", u)] | UrlNamed u label => [("disp", L " " ++ label); ("url_1", u)] | _ => [] end.
Lemma entry_reads : forall r n rest, (r = Entry n \/ r = EntryWord n) -> number n -> head_is is_digit rest = false -> reads (ref_text r) rest "_pattern_entry_link" [].
Proof.
  intros r n rest [->| ->] N H; cbn [ref_text].
  all: apply find_way with (i := 16) (r := XCat (XAlt (xlit "#") (xlit "entry:")) digits); [lia|reflexivity|reflexivity|reflexivity|intros j q Lj Hj f; do 16 (destruct j as [|j]; [injection Hj as <-; apply dead_head; reflexivity|]); lia|].
  all: intros k f x K; rewrite <- app_assoc, run_cat.
  - apply run_alt_l. rewrite run_lit by discriminate. apply digits_then; assumption.
  - apply run_alt_r; [reflexivity|]. rewrite run_lit by discriminate. apply digits_then; assumption.
Qed.
Lemma number_head : forall n r, number n -> exists d s, n ++ r = d :: s /\ is_digit d = true.
Proof. intros n r [N D]. destruct n as [|d n]; [congruence|]. exists d, (n ++ r). split; [reflexivity|]. cbn [forallb] in D. apply andb_prop in D. apply D. Qed.
Lemma digit_not : forall c d, is_digit c = true -> is_digit d = false -> Ascii.eqb d c = false.
Proof. intros c d H N. destruct (Ascii.eqb_spec d c) as [->|]; [congruence|reflexivity]. Qed.
Definition query_rx : rx := XAlt (XCat (xlit "query:") digits) (xcats [xlit "{"; digits; xlit "}"]).
Lemma query_word_reads : forall n rest, number n -> head_is is_digit rest = false -> reads (ref_text (QueryWord n)) rest "_pattern_query_link" [].
Proof.
  intros n rest N H. cbn [ref_text].
  apply find_way with (i := 17) (r := query_rx); [lia|reflexivity|reflexivity|reflexivity|intros j q Lj Hj f; do 17 (destruct j as [|j]; [injection Hj as <-; apply dead_head; reflexivity|]); lia|].
  intros k f x K. rewrite <- app_assoc. apply run_alt_l. apply lit_then; [discriminate|]. apply digits_then; assumption.
Qed.
Lemma query_reads : forall n rest, number n -> reads (ref_text (Query n)) rest "_pattern_query_link" [].
Proof.
  intros n rest N. cbn [ref_text]. destruct (number_head n (L "}" ++ rest) N) as (d & s & E & Hd).
  apply find_way with (i := 17) (r := query_rx); [lia|reflexivity|reflexivity|reflexivity| |].
  - intros j q Lj Hj f. rewrite <- !app_assoc, E.
    do 8 (destruct j as [|j]; [injection Hj as <-; apply dead_head; reflexivity|]).
    assert (X : starts (L "{{{") (L "{" ++ d :: s) = false) by (cbn [L list_ascii_of_string app starts]; rewrite (digit_not d "{" Hd eq_refl); apply andb_false_r).
    destruct j as [|j]; [injection Hj as <-; apply dead_bol, dead_cat, dead_lit; exact X|].
    destruct j as [|j]; [injection Hj as <-; apply dead_bol, dead_head; reflexivity|].
    destruct j as [|j]; [injection Hj as <-; apply dead_lit; exact X|].
    do 6 (destruct j as [|j]; [injection Hj as <-; apply dead_head; reflexivity|]). lia.
  - intros k f x K. apply run_alt_r; [reflexivity|]. rewrite <- !app_assoc. change (xcats [xlit "{"; digits; xlit "}"]) with (XCat (xlit "{") (XCat digits (xlit "}"))).
    apply lit_then; [discriminate|]. apply digits_cat; [exact N|reflexivity|]. rewrite run_lit by discriminate. exact K.
Qed.
Definition match_rx : rx := xalts [XCat (xlit "m") digits; XCat (xlit "match:") digits; xcats [xlit "["; digits; xlit "]"]].
Lemma match_word_reads : forall r n rest, (r = MatchM n \/ r = MatchWord n) -> number n -> head_is is_digit rest = false -> reads (ref_text r) rest "_pattern_match_link" [].
Proof.
  intros r n rest [->| ->] N H; cbn [ref_text].
  all: apply find_way with (i := 18) (r := match_rx); [lia|reflexivity|reflexivity|reflexivity|intros j q Lj Hj f; do 18 (destruct j as [|j]; [injection Hj as <-; apply dead_head; reflexivity|]); lia|].
  all: intros k f x K; rewrite <- app_assoc.
  - apply run_alt_l. apply lit_then; [discriminate|]. apply digits_then; assumption.
  - apply run_alt_r; [reflexivity|]. apply run_alt_l. apply lit_then; [discriminate|]. apply digits_then; assumption.
Qed.
Lemma bracket_macro : forall f c s, Ascii.eqb "[" c = false -> dead f the_macro ("["%char :: c :: s).
Proof. intros f c s H. apply dead_cat, dead_lit. cbn [L list_ascii_of_string starts]. rewrite H. apply andb_false_r. Qed.
Lemma match_reads : forall n rest, number n -> reads (ref_text (MatchNo n)) rest "_pattern_match_link" [].
Proof.
  intros n rest N. cbn [ref_text]. destruct (number_head n (L "]" ++ rest) N) as (d & s & E & Hd).
  apply find_way with (i := 18) (r := match_rx); [lia|reflexivity|reflexivity|reflexivity| |].
  - intros j q Lj Hj f. rewrite <- !app_assoc, E.
    do 15 (destruct j as [|j]; [injection Hj as <-; apply dead_head; reflexivity|]).
    destruct j as [|j]; [injection Hj as <-; apply bracket_macro; apply digit_not; [exact Hd|reflexivity]|].
    do 2 (destruct j as [|j]; [injection Hj as <-; apply dead_head; reflexivity|]). lia.
  - intros k f x K. apply run_alt_r; [reflexivity|]. apply run_alt_r; [reflexivity|]. rewrite <- !app_assoc. change (xcats [xlit "["; digits; xlit "]"]) with (XCat (xlit "[") (XCat digits (xlit "]"))).
    apply lit_then; [discriminate|]. apply digits_cat; [exact N|reflexivity|]. rewrite run_lit by discriminate. exact K.
Qed.
Lemma match_dead : forall f c s, is_digit c = false -> dead f match_rx ("["%char :: c :: s).
Proof.
  intros f c s H. apply dead_alt; [apply dead_head; reflexivity|]. apply dead_alt; [apply dead_head; reflexivity|].
  change (xcats [xlit "["; digits; xlit "]"]) with (XCat (xlit "[") (XCat digits (xlit "]"))). apply dead_number; [discriminate| |reflexivity|apply can_digits_cat]. unfold numbered. cbn. exact H.
Qed.
Lemma wiki_reads : forall name rest, name <> [] -> forallb (fun c => is_small c || is_capital c) name = true -> reads (ref_text (Wiki name)) rest "_pattern_scheme_wikiname" [].
Proof.
  intros name rest N F. cbn [ref_text].
  apply find_way with (i := 22) (r := xcats [xlit "[wiki:"; xplus (XChr name_set); xlit "]"]); [lia|reflexivity|reflexivity|reflexivity| |].
  - intros j q Lj Hj f. rewrite <- !app_assoc.
    do 15 (destruct j as [|j]; [injection Hj as <-; apply dead_head; reflexivity|]).
    destruct j as [|j]; [injection Hj as <-; apply (bracket_macro f "w" (L "iki:" ++ name ++ L "]" ++ rest)); reflexivity|].
    do 2 (destruct j as [|j]; [injection Hj as <-; apply dead_head; reflexivity|]).
    destruct j as [|j]; [injection Hj as <-; apply (match_dead f "w" (L "iki:" ++ name ++ L "]" ++ rest)); reflexivity|].
    do 2 (destruct j as [|j]; [injection Hj as <-; apply dead_head; reflexivity|]).
    destruct j as [|j]; [|lia]. injection Hj as <-. apply (dead_after f "["); [discriminate|]. intros _. apply dead_head; reflexivity.
  - intros k f x K. rewrite <- !app_assoc. change (xcats [xlit "[wiki:"; xplus (XChr name_set); xlit "]"]) with (XCat (xlit "[wiki:") (XCat (xplus (XChr name_set)) (xlit "]"))).
    apply lit_then; [discriminate|]. rewrite run_cat. apply plus_chars; [exact N|apply (all_of _ _ _ name_same F)|reflexivity|]. rewrite run_lit by discriminate. exact K.
Qed.
Lemma url_then : forall n u k f rest c x, url_text u -> head_is url_char rest = false -> k (mkspot false rest ((n, u) :: c)) = Some x -> run (url n) k (mkspot f (u ++ rest) c) = Some x.
Proof.
  intros n u k f rest c x (scheme & v & -> & Is & Nv & Fv) H K. unfold url. rewrite run_group. fold url_set.
  assert (G : forall K', (forall y, K' (mkspot false rest c) = y -> k (mkspot false rest ((n, scheme ++ v) :: c)) = y) -> True) by trivial. clear G.
  set (K' := fun st' => k (mkspot (fresh st') (left st') ((n, between ((scheme ++ v) ++ rest) (left st')) :: caps st'))).
  assert (HK : K' (mkspot false rest c) = Some x) by (unfold K'; cbn [fresh left caps]; rewrite between_app; exact K). clearbody K'. clear K.
  assert (P : forall f, run (xplus (XChr url_set)) K' (mkspot f (v ++ rest) c) = Some x) by (intro f0; apply plus_chars; [exact Nv|apply (all_of _ _ _ url_same Fv)|apply (stops_of _ _ _ url_same H)|exact HK]).
  rewrite !run_xcats. change (xcats [xlit "://"; ?p]) with (XCat (xlit "://") p). destruct Is as [<-|[<-|[]]].
  - change ((L "http://" ++ v) ++ rest) with (L "http" ++ (L "://" ++ v ++ rest)). rewrite run_lit by discriminate. rewrite run_xcats. apply run_alt_r; [reflexivity|].
    change (run XEps ?k ?st) with (k st). apply lit_then; [discriminate|]. apply P.
  - change ((L "https://" ++ v) ++ rest) with (L "http" ++ (L "s" ++ L "://" ++ v ++ rest)). rewrite run_lit by discriminate. rewrite run_xcats. apply run_alt_l. rewrite run_lit by discriminate.
    apply lit_then; [discriminate|]. apply P.
Qed.
Lemma url_head : forall u r, url_text u -> exists v, u ++ r = "h"%char :: L "ttp" ++ v.
Proof. intros u r (scheme & v & -> & [<-|[<-|[]]] & _); eexists; reflexivity. Qed.
Lemma url_reads : forall u rest, url_text u -> head_is url_char rest = false -> reads (ref_text (Url u)) rest "_pattern_auto_anchor" [("url_2", u)].
Proof.
  intros u rest U H. cbn [ref_text]. destruct (url_head u rest U) as [v E].
  apply find_way with (i := 23) (r := url "url_2"); [lia|reflexivity|reflexivity|rewrite E; reflexivity| |intros; apply url_then; assumption].
  intros j q Lj Hj f. rewrite E. do 23 (destruct j as [|j]; [injection Hj as <-; apply dead_head; reflexivity|]); lia.
Qed.
Definition named_rx : rx := xcats [xlit "["; url "url_1"; xopt (XGroup "disp" (XCat blank (xplus (XChr label_set)))); xlit "]"].
Lemma named_reads : forall u label rest, url_text u -> label <> [] -> ~ In "]"%char label -> reads (ref_text (UrlNamed u label)) rest "_pattern_scheme_url" [("disp", L " " ++ label); ("url_1", u)].
Proof.
  intros u label rest U N Nb. cbn [ref_text]. destruct (url_head u (L " " ++ label ++ L "]" ++ rest) U) as [v E].
  apply find_way with (i := 21) (r := named_rx); [lia|reflexivity|reflexivity|reflexivity| |].
  - intros j q Lj Hj f. rewrite <- !app_assoc, E.
    do 15 (destruct j as [|j]; [injection Hj as <-; apply dead_head; reflexivity|]).
    destruct j as [|j]; [injection Hj as <-; apply bracket_macro; reflexivity|].
    do 2 (destruct j as [|j]; [injection Hj as <-; apply dead_head; reflexivity|]).
    destruct j as [|j]; [injection Hj as <-; apply match_dead; reflexivity|].
    do 2 (destruct j as [|j]; [injection Hj as <-; apply dead_head; reflexivity|]). lia.
  - intros k f x K. rewrite <- !app_assoc. unfold named_rx. rewrite run_xcats, run_lit by discriminate. rewrite run_xcats. apply url_then; [exact U|reflexivity|].
    rewrite run_xcats. apply run_opt. rewrite run_group, run_cat.
    change (run blank ?k (mkspot ?f (L " " ++ ?r) ?c)) with (k (mkspot false r c)). apply plus_chars; [exact N| |reflexivity|].
    + intros c I. rewrite label_same. apply negb_true_iff. apply Ascii.eqb_neq. intros ->. contradiction.
    + cbn [fresh left caps]. change (xcats [xlit "]"]) with (xlit "]").
      replace (between (L " " ++ label ++ L "]" ++ rest) (L "]" ++ rest)) with (L " " ++ label) by (rewrite app_assoc; symmetry; apply between_app). rewrite run_lit by discriminate. exact K.
Qed.
(* names in camel case *)
Lemma run_word : forall k f c w rest g x, is_capital c = true -> w <> [] -> forallb is_low w = true -> head_is is_low rest = false -> k (mkspot false rest g) = Some x ->
  run camel_word k (mkspot f (c :: w ++ rest) g) = Some x.
Proof.
  intros k f c w rest g x Hc N F H K. unfold camel_word. rewrite run_cat. change (run (XChr cap_set) ?k (mkspot f (c :: ?s) g)) with (if inset cap_set c then k (mkspot false s g) else None).
  rewrite cap_same, Hc. apply plus_chars; [exact N|apply (all_of _ _ _ low_same F)|apply (stops_of _ _ _ low_same H)|exact K].
Qed.
Lemma dead_word : forall f s, word_begins s = false -> dead f camel_word s.
Proof.
  intros f s H k g. destruct (run camel_word k (mkspot f s g)) as [x|] eqn:R; [|reflexivity]. exfalso. apply run_steps in R. destruct R as (w & st' & St & _).
  pose proof (steps_left _ _ _ _ St) as Ls. cbn [left] in Ls. apply word_steps in St. destruct St as (c & v & -> & Hc & Nv & Fv). destruct v as [|d v]; [congruence|].
  cbn [forallb] in Fv. apply andb_prop in Fv. destruct Fv as [Fv _]. rewrite Ls in H. unfold word_begins in H. cbn [app head_is tl] in H. rewrite Hc, Fv in H. discriminate H.
Qed.
Definition good_words (l : list (ascii * str)) : Prop := forall c w, In (c, w) l -> is_capital c = true /\ w <> [] /\ forallb is_low w = true.
Lemma words_head : forall l rest, good_words l -> head_is is_low rest = false -> head_is is_low (camel_text l ++ rest) = false.
Proof. intros [|[c w] l] rest G H; [exact H|]. cbn [camel_text flat_map fst snd app head_is]. apply capital_low. apply (G c w). left. reflexivity. Qed.
Lemma loop_words : forall l k rest f g n x, good_words l -> head_is is_low rest = false -> word_begins rest = false -> List.length (camel_text l ++ rest) <= n ->
  k (mkspot (match l with [] => f | _ => false end) rest g) = Some x -> loop_of camel_word k n (mkspot f (camel_text l ++ rest) g) = Some x.
Proof.
  induction l as [|[c w] l IH]; intros k rest f g n x G H1 H2 Ln K.
  - cbn [camel_text flat_map app]. destruct n as [|n]; [exact K|]. cbn [loop_of]. rewrite dead_word by exact H2. exact K.
  - assert (G' : good_words l) by (intros d v I; apply G; right; exact I). destruct (G c w (or_introl eq_refl)) as (Hc & Nw & Fw).
    change (camel_text ((c, w) :: l) ++ rest) with ((c :: w ++ camel_text l) ++ rest) in *. cbn [app] in *. rewrite <- app_assoc in *. destruct n as [|n]; [cbn in Ln; lia|]. cbn [loop_of].
    rewrite (run_word _ f c w (camel_text l ++ rest) g x Hc Nw Fw (words_head l rest G' H1)); [reflexivity|]. cbn [left].
    replace (Nat.ltb (List.length (camel_text l ++ rest)) (List.length (c :: w ++ camel_text l ++ rest))) with true by (symmetry; apply Nat.ltb_lt; cbn [List.length]; rewrite (app_length w); lia).
    apply IH; try assumption; [cbn [List.length] in Ln; rewrite (app_length w) in Ln; lia|]. destruct l; exact K.
Qed.
Lemma camel_reads : forall l rest, 2 <= List.length l -> good_words l -> head_is is_low rest = false -> word_begins rest = false -> reads (camel_text l) rest "_pattern_camelcase" [].
Proof.
  intros l rest Ll G H1 H2. destruct l as [|[c w] [|[c2 w2] l]]; [cbn in Ll; lia|cbn in Ll; lia|]. destruct (G c w (or_introl eq_refl)) as (Hc & Nw & Fw). destruct (G c2 w2 (or_intror (or_introl eq_refl))) as (Hc2 & Nw2 & Fw2).
  assert (E : camel_text ((c, w) :: (c2, w2) :: l) ++ rest = c :: w ++ camel_text ((c2, w2) :: l) ++ rest) by (change (camel_text ((c, w) :: (c2, w2) :: l)) with ((c :: w) ++ camel_text ((c2, w2) :: l)); rewrite <- app_assoc; reflexivity).
  assert (G1 : good_words ((c2, w2) :: l)) by (intros d v I; apply G; right; exact I). assert (G2 : good_words l) by (intros d v I; apply G1; right; exact I).
  apply find_way with (i := 24) (r := XCat camel_word (xplus camel_word)); [lia|reflexivity|reflexivity| | |].
  - rewrite E. destruct (Ascii.eqb_spec "!" c) as [<-|N]; [discriminate Hc|]. cbn [starts L list_ascii_of_string]. apply Ascii.eqb_neq in N. rewrite N. reflexivity.
  - intros j q Lj Hj f. rewrite E. assert (X : forallb (fun r => negb (empty_too r) && negb (can r c)) (firstn 24 inside) = true).
    { pose proof (all_chars (fun c => implb (is_capital c) (forallb (fun r => negb (empty_too r) && negb (can r c)) (firstn 24 inside))) ltac:(vm_compute; reflexivity) c) as X. cbv beta in X. rewrite Hc in X. exact X. }
    rewrite forallb_forall in X. assert (I : In q (firstn 24 inside)). { do 24 (destruct j as [|j]; [injection Hj as <-; cbn [firstn inside bodies skipn app In]; tauto|]). lia. }
    specialize (X q I). apply andb_prop in X. destruct X as [X1 X2]. apply negb_true_iff in X1, X2. apply dead_head; assumption.
  - intros k f x K. rewrite E, run_cat. apply run_word; try assumption; [apply words_head; assumption|]. unfold xplus. rewrite run_cat.
    change (camel_text ((c2, w2) :: l) ++ rest) with ((c2 :: w2 ++ camel_text l) ++ rest). cbn [app]. rewrite <- app_assoc. apply run_word; try assumption; [apply words_head; assumption|].
    rewrite run_star. cbn [left]. apply loop_words; try assumption; [lia|]. destruct l; exact K.
Qed.
Lemma ref_reads : forall r rest, good_ref r -> follows_ref r rest = true -> reads (ref_text r) rest (ref_pat r) (ref_inner r).
Proof.
  intros r rest G F. destruct r; cbn [good_ref follows_ref ref_pat ref_inner] in *; try apply negb_true_iff in F.
  - eapply entry_reads; eauto.
  - eapply entry_reads; eauto.
  - apply query_word_reads; assumption.
  - apply query_reads; assumption.
  - eapply match_word_reads; eauto.
  - eapply match_word_reads; eauto.
  - apply match_reads; assumption.
  - apply wiki_reads; apply G.
  - apply andb_prop in F. destruct F as [F1 F2]. apply negb_true_iff in F1, F2. destruct G as [G1 G2]. apply camel_reads; assumption.
  - apply url_reads; assumption.
  - apply named_reads; apply G.
Qed.
(* ---- lines ---- *)
Definition token_caps (t : token) : list (string * str) :=
  match t with
  | Ch c => char_caps c
  | Mark m => [(mark_pat m, sign_text m)] | OffMark m => [(mark_pat m, "!"%char :: sign_text m)]
  | Ref r => (ref_pat r, ref_text r) :: ref_inner r | OffRef r => (ref_pat r, "!"%char :: ref_text r) :: ref_inner r
  end.
Lemma token_run : forall f t rest, stands t rest -> one_line (token_text t ++ rest) -> (f = true -> head_is (fun c => Ascii.eqb c " " || Ascii.eqb c ">") (token_text t ++ rest) = false) ->
  token_text t ++ rest <> L "::" -> run (regexp line_patterns) Some (mkspot f (token_text t ++ rest) []) = Some (mkspot false rest (token_caps t)).
Proof.
  intros f t rest St O Hf Nd. destruct t; cbn [stands token_text token_caps] in *.
  - destruct St as [S1 S2]. apply char_run; try assumption. intro E. specialize (Hf E). cbn [app head_is] in Hf. apply orb_false_iff in Hf. destruct Hf as [X Y]. apply Ascii.eqb_neq in X, Y. auto.
  - apply (mark_reads m rest St).
  - destruct St as [G F]. apply (ref_reads r rest G F).
  - apply (mark_reads m rest St).
  - destruct St as [G F]. apply (ref_reads r rest G F).
Qed.
Lemma token_some : forall t rest, stands t rest -> token_text t <> [].
Proof.
  intros t rest H. destruct t as [c|m|r|m|r]; cbn [token_text]; try discriminate; [destruct m; discriminate|]. destruct H as [G _].
  destruct r; cbn [ref_text good_ref] in *; try discriminate.
  - destruct words as [|[c w] l]; [cbn in G; lia|discriminate].
  - destruct G as (scheme & v & -> & [<-|[<-|[]]] & _); discriminate.
Qed.
Lemma find_tokens : forall l n f, all_stand l -> one_line (line_text l) -> (f = true -> head_is (fun c => Ascii.eqb c " " || Ascii.eqb c ">") (line_text l) = false) ->
  (forall s, line_text l <> s ++ L "::") -> List.length (line_text l) < n -> finditer n (regexp line_patterns) f (line_text l) = map token_caps l.
Proof.
  induction l as [|t l IH]; intros n f A O Hf Nd Ln.
  - cbn [line_text flat_map map]. destruct f; [|apply end_none]. destruct n; [lia|]. cbn [finditer]. replace (run (regexp line_patterns) Some (mkspot true [] [])) with (@None spot) by (vm_compute; reflexivity). reflexivity.
  - destruct A as [St A]. pose proof (token_some t _ St) as N. change (line_text (t :: l)) with (token_text t ++ line_text l) in *. destruct n as [|n]; [lia|]. cbn [finditer].
    rewrite (token_run f t (line_text l) St O Hf (Nd [])). cbn [left caps map].
    assert (Lt : List.length (line_text l) < List.length (token_text t ++ line_text l)) by (rewrite app_length; destruct (token_text t); [congruence|cbn; lia]).
    destruct (Nat.ltb_spec (List.length (line_text l)) (List.length (token_text t ++ line_text l))); [|lia]. f_equal. apply IH; [exact A| | | |].
    + intros c I. apply O. apply in_or_app. right. exact I.
    + discriminate.
    + intros s E. apply (Nd (token_text t ++ s)). rewrite E, app_assoc. reflexivity.
    + lia.
Qed.
Lemma line_matches : forall l, good_line l -> matches (line_text l) = map token_caps l.
Proof. intros l (A & H & Nd & O). unfold matches, find_all. apply find_tokens; auto. Qed.
