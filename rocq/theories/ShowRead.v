(* How lines with simple markup are read *)
From Verif Require Import Py PyFacts Re Rx RxFacts HtmlModel HtmlSpec TreeSpec TocSpec WikiModel WikiSpec WikiMatch WikiLink CmpProofs AnalysisPage ShowSpec.
Open Scope string_scope.
Open Scope list_scope.
Open Scope nat_scope.

(* ---- when a pattern cannot match ---- *)
Definition dead (f : bool) (r : rx) (s : str) : Prop := forall k c, run r k (mkspot f s c) = None.
Fixpoint empty_too (r : rx) : bool :=
  match r with
  | XEps | XStar _ | XBol | XEol => true
  | XChr _ => false
  | XCat a b => empty_too a && empty_too b
  | XAlt a b => empty_too a || empty_too b
  | XGroup _ a => empty_too a
  end.
Fixpoint can (r : rx) (c : ascii) : bool :=
  match r with
  | XEps | XBol | XEol => false
  | XChr p => inset p c
  | XCat a b => can a c || (empty_too a && can b c)
  | XAlt a b => can a c || can b c
  | XStar a | XGroup _ a => can a c
  end.
Lemma steps_can : forall r st w st', steps r st w st' -> match w with [] => empty_too r = true | c :: _ => can r c = true end.
Proof.
  induction 1; cbn [empty_too can]; try reflexivity; try assumption.
  - destruct u as [|x u]; cbn [app]; [|rewrite IHsteps1; reflexivity]. destruct v as [|y v]; [rewrite IHsteps1, IHsteps2; reflexivity|]. rewrite IHsteps1, IHsteps2. apply orb_true_r.
  - destruct u; rewrite IHsteps; reflexivity.
  - destruct u; rewrite IHsteps; apply orb_true_r.
  - destruct u as [|x u]; cbn [app]; [destruct v; [reflexivity|exact IHsteps2]|exact IHsteps1].
Qed.
Lemma dead_first : forall f r s, empty_too r = false -> (forall c s', s = c :: s' -> can r c = false) -> dead f r s.
Proof.
  intros f r s E H k g. destruct (run r k (mkspot f s g)) as [x|] eqn:R; [|reflexivity]. exfalso. apply run_steps in R. destruct R as (w & st' & St & _).
  pose proof (steps_left _ _ _ _ St) as Ls. pose proof (steps_can _ _ _ _ St) as C. cbn [left] in Ls. destruct w as [|c w]; [congruence|]. rewrite (H c _ Ls) in C. discriminate C.
Qed.
Lemma dead_head : forall f r c s, empty_too r = false -> can r c = false -> dead f r (c :: s).
Proof. intros f r c s E C. apply dead_first; [exact E|]. intros d s' H. injection H as <- _. exact C. Qed.
Lemma dead_cat : forall f a b s, dead f a s -> dead f (XCat a b) s.
Proof. intros f a b s H k c. rewrite run_cat. apply H. Qed.
Lemma dead_alt : forall f a b s, dead f a s -> dead f b s -> dead f (XAlt a b) s.
Proof. intros f a b s Ha Hb k c. change (run (XAlt a b) k (mkspot f s c)) with (match run a k (mkspot f s c) with Some x => Some x | None => run b k (mkspot f s c) end). rewrite Ha. apply Hb. Qed.
Lemma dead_alt_cat : forall f a b d s, dead f (XCat a d) s -> dead f (XCat b d) s -> dead f (XCat (XAlt a b) d) s.
Proof.
  intros f a b d s Ha Hb k c. rewrite run_cat. change (run (XAlt a b) ?k (mkspot f s c)) with (match run a k (mkspot f s c) with Some x => Some x | None => run b k (mkspot f s c) end).
  specialize (Ha k c). specialize (Hb k c). rewrite run_cat in Ha, Hb. rewrite Ha. exact Hb.
Qed.
Lemma dead_group : forall f n a s, dead f a s -> dead f (XGroup n a) s.
Proof. intros f n a s H k c. rewrite run_group. apply H. Qed.
Lemma dead_bol : forall f a s, dead f a s -> dead f (XCat XBol a) s.
Proof. intros f a s H k c. rewrite run_cat. change (run XBol ?k ?st) with (if fresh st then k st else None). destruct (fresh _); [apply H|reflexivity]. Qed.
Lemma dead_old : forall a s, dead false (XCat XBol a) s.
Proof. intros a s k c. reflexivity. Qed.
Lemma run_lit_if : forall p k f s c, run (xlit p) k (mkspot f s c) = if starts (L p) s then k (mkspot (match p with ""%string => f | _ => false end) (skipn (List.length (L p)) s) c) else None.
Proof.
  induction p as [|a p IH]; intros k f s c; [reflexivity|]. change (xlit (String a p)) with (XCat (XChr (One a)) (xlit p)). rewrite run_cat.
  change (L (String a p)) with (a :: L p). destruct s as [|d s]; [reflexivity|]. cbn [starts List.length skipn].
  change (run (XChr (One a)) ?k (mkspot f (d :: s) c)) with (if Ascii.eqb a d then k (mkspot false s c) else None). destruct (Ascii.eqb a d); [|reflexivity]. cbn [andb]. rewrite IH. destruct p; reflexivity.
Qed.
Lemma dead_lit : forall f p s, starts (L p) s = false -> dead f (xlit p) s.
Proof. intros f p s H k c. rewrite run_lit_if, H. reflexivity. Qed.
Lemma dead_after : forall f p q s, p <> ""%string -> (starts (L p) s = true -> dead false q (skipn (List.length (L p)) s)) -> dead f (XCat (xlit p) q) s.
Proof. intros f p q s N H k c. rewrite run_cat, run_lit_if. destruct (starts (L p) s); [|reflexivity]. destruct p; [congruence|]. apply H. reflexivity. Qed.
Lemma run_bang : forall r k f s c, run (XCat bang r) k (mkspot f s c) = match run (xlit "!") (run r k) (mkspot f s c) with Some x => Some x | None => run r k (mkspot f s c) end.
Proof. reflexivity. Qed.
Lemma dead_bang : forall f r s, dead f r s -> (forall s', s = "!"%char :: s' -> dead false r s') -> dead f (XCat bang r) s.
Proof.
  intros f r s H Hb k c. rewrite run_bang, run_lit_if. rewrite H. destruct (starts (L "!") s) eqn:E; [|reflexivity]. destruct s as [|d s]; [discriminate E|].
  cbn [starts L list_ascii_of_string] in E. destruct (Ascii.eqb_spec "!" d) as [<-|]; [|discriminate E]. cbn [List.length L list_ascii_of_string skipn]. rewrite (Hb s eq_refl). reflexivity.
Qed.
Lemma bang_off : forall r k f s c x, run r k (mkspot false s c) = Some x -> run (XCat bang r) k (mkspot f ("!"%char :: s) c) = Some x.
Proof. intros r k f s c x H. rewrite run_bang, run_lit_if. cbn [starts L list_ascii_of_string Ascii.eqb Bool.eqb andb List.length skipn]. rewrite H. reflexivity. Qed.
Lemma bang_on : forall r k f s c, starts (L "!") s = false -> run (XCat bang r) k (mkspot f s c) = run r k (mkspot f s c).
Proof. intros r k f s c H. rewrite run_bang, run_lit_if, H. reflexivity. Qed.
(* classes of characters *)
Lemma all_chars : forall P : ascii -> bool, forallb (fun n => P (ascii_of_nat n)) (seq 0 256) = true -> forall c, P c = true.
Proof. intros P G c. rewrite forallb_forall in G. specialize (G (nat_of_ascii c)). rewrite ascii_nat_embedding in G. apply G. apply in_seq. pose proof (nat_ascii_bounded c). lia. Qed.
Lemma same_chars : forall P Q : ascii -> bool, forallb (fun n => Bool.eqb (P (ascii_of_nat n)) (Q (ascii_of_nat n))) (seq 0 256) = true -> forall c, P c = Q c.
Proof. intros P Q G c. apply Bool.eqb_prop. apply (all_chars (fun c => Bool.eqb (P c) (Q c)) G). Qed.
Definition low_set : cset := Ranges false [("a", "z"); ("0", "9")]%char.
Definition cap_set : cset := Ranges false [("A", "Z")]%char.
Definition name_set : cset := Ranges false [("A", "Z"); ("a", "z")]%char.
Definition label_set : cset := Ranges true [xone "]"%char].
Lemma digit_same : forall c, inset digit_set c = is_digit c.
Proof. apply same_chars. vm_compute. reflexivity. Qed.
Lemma low_same : forall c, inset low_set c = is_low c.
Proof. apply same_chars. vm_compute. reflexivity. Qed.
Lemma cap_same : forall c, inset cap_set c = is_capital c.
Proof. apply same_chars. vm_compute. reflexivity. Qed.
Lemma name_same : forall c, inset name_set c = is_small c || is_capital c.
Proof. apply same_chars. vm_compute. reflexivity. Qed.
Lemma url_same : forall c, inset url_set c = url_char c.
Proof. apply same_chars. vm_compute. reflexivity. Qed.
Lemma label_same : forall c, inset label_set c = negb (Ascii.eqb c "]").
Proof. apply same_chars. vm_compute. reflexivity. Qed.
Lemma all_of : forall p P s, (forall c, inset p c = P c) -> forallb P s = true -> all_in p s.
Proof. intros p P s E F c I. rewrite E. rewrite forallb_forall in F. apply F. exact I. Qed.
Lemma stops_of : forall p P s, (forall c, inset p c = P c) -> head_is P s = false -> stops p s.
Proof. intros p P [|c s] E H; [exact I|]. unfold stops. rewrite E. exact H. Qed.

(* ---- text ---- *)
Definition bodies : list rx :=
  [ xlit "'''''"; xlit "'''"; xlit "''"; xlit "__"; xlit "~~"; xlit ",,"; xlit "^"; xlit "`"; xcats [XBol; xlit "{{{"; XEol]; xcats [XBol; xlit "}}}"; XEol]
  ; xlit "{{{"; xlit "}}}"; xlit "==="; xlit "=="; xlit "="
  ; XCat (XAlt (xlit "#") (xlit "entry:")) digits
  ; XAlt (XCat (xlit "query:") digits) (xcats [xlit "{"; digits; xlit "}"])
  ; xalts [XCat (xlit "m") digits; XCat (xlit "match:") digits; xcats [xlit "["; digits; xlit "]"]]
  ; xcats [xlit "||"; spaces; XEol]; xlit "||"
  ; xcats [xlit "["; url "url_1"; xopt (XGroup "disp" (XCat blank (xplus (XChr label_set)))); xlit "]"]
  ; xcats [xlit "[wiki:"; xplus (XChr name_set); xlit "]"]
  ; url "url_2"
  ; XCat (XCat (XChr cap_set) (xplus (XChr low_set))) (xplus (XCat (XChr cap_set) (xplus (XChr low_set)))) ].
Definition the_macro : rx := xcats [xlit "[["; XGroup "macro_name" (xplus word); xopt (xcats [xlit "("; XGroup "macro_args" (xplus (XChr arg_set)); xlit ")"]); xlit "]]"].
Definition names_of : list string :=
  [ "_pattern_bolditalic"; "_pattern_bold"; "_pattern_italic"; "_pattern_underline"; "_pattern_strike"; "_pattern_subscript"; "_pattern_superscript"; "_pattern_monospace"
  ; "_pattern_preformat_start"; "_pattern_preformat_end"; "_pattern_monospace_start"; "_pattern_monospace_end"; "_pattern_heading_h3"; "_pattern_heading_h2"; "_pattern_heading_h1"
  ; "_pattern_entry_link"; "_pattern_query_link"; "_pattern_match_link"; "_pattern_table_end"; "_pattern_table_cell"; "_pattern_scheme_url"; "_pattern_scheme_wikiname"; "_pattern_auto_anchor"; "_pattern_camelcase" ].
Definition ways : list rx :=
  map (fun nr => XGroup (fst nr) (XCat bang (snd nr))) (firstn 15 (combine names_of bodies)) ++ [XGroup "_pattern_macro" the_macro]
  ++ map (fun nr => XGroup (fst nr) (XCat bang (snd nr))) (skipn 15 (combine names_of bodies))
  ++ [ XGroup "_pattern_itemize" (xcats [XBol; xplus blank; item_mark; blank]); XGroup "_pattern_citation" (xcats [XBol; xplus (xset [xone ">"%char]); blank])
     ; XGroup "_pattern_comsume_definition_header" (XCat (xlit "::") XEol); XGroup "_pattern_quote_or_definition_body" (xcats [XBol; blank; blank; XStar blank])
     ; XGroup "_pattern_escape_html" unsafe_letters; XGroup "_pattern_rest_of_the_world" dot ].
Lemma ways_are : regexp line_patterns = xalts ways.
Proof. reflexivity. Qed.
Lemma starts_pre : forall p q s, starts p s = false -> starts (p ++ q) s = false.
Proof.
  induction p as [|a p IH]; intros q s H; [discriminate H|]. destruct s as [|d s]; [reflexivity|]. cbn [app starts] in *. destruct (Ascii.eqb a d); [|reflexivity]. apply (IH q s H).
Qed.
Lemma quiet_signal : forall s p, begins s = false -> In p signals -> starts (L p) s = false.
Proof.
  intros s p H I. unfold begins in H. apply orb_false_iff in H. destruct H as [H _]. apply orb_false_iff in H. destruct H as [H _].
  destruct (starts (L p) s) eqn:E; [|reflexivity]. assert (X : existsb (fun p => starts (L p) s) signals = true) by (apply existsb_exists; eauto). congruence.
Qed.
Lemma quiet_number : forall s p, begins s = false -> In p number_signs -> numbered p s = false.
Proof.
  intros s p H I. unfold begins in H. apply orb_false_iff in H. destruct H as [H _]. apply orb_false_iff in H. destruct H as [_ H].
  destruct (numbered p s) eqn:E; [|reflexivity]. assert (X : existsb (fun p => numbered p s) number_signs = true) by (apply existsb_exists; eauto). congruence.
Qed.
Lemma dead_number : forall f p q s, p <> ""%string -> numbered p s = false -> empty_too q = false -> (forall c, can q c = is_digit c) -> dead f (XCat (xlit p) q) s.
Proof.
  intros f p q s N H E C. apply dead_after; [exact N|]. intro St. unfold numbered in H. rewrite St in H. cbn [andb] in H. apply dead_first; [exact E|]. intros c s' Es. rewrite Es in H. rewrite C. exact H.
Qed.
Lemma can_digits : forall c, can digits c = is_digit c.
Proof. intro c. rewrite <- digit_same. unfold digits, xplus. cbn [can empty_too andb]. apply orb_false_r. Qed.
Lemma can_digits_cat : forall q c, can (XCat digits q) c = is_digit c.
Proof. intros q c. change (can (XCat digits q) c) with (can digits c || (false && can q c)). rewrite can_digits. apply orb_false_r. Qed.
Lemma after_low_spec : forall w s, forallb is_low w = true -> head_is is_low s = false -> after_low (w ++ s) = s.
Proof.
  induction w as [|c w IH]; intros s H N; cbn [app after_low].
  - destruct s as [|c s]; [reflexivity|]. cbn [after_low]. cbn [head_is] in N. rewrite N. reflexivity.
  - cbn [forallb] in H. apply andb_prop in H. destruct H as [Hc H]. rewrite Hc. apply IH; assumption.
Qed.
Definition camel_word : rx := XCat (XChr cap_set) (xplus (XChr low_set)).
Lemma word_steps : forall st w st', steps camel_word st w st' -> exists c v, w = c :: v /\ is_capital c = true /\ v <> [] /\ forallb is_low v = true.
Proof.
  intros st w st' H. apply inv_cat in H. destruct H as (u & st1 & v & -> & H1 & H2). apply inv_chr in H1. destruct H1 as (c & -> & I & _ & _). exists c, v.
  split; [reflexivity|]. split; [rewrite <- cap_same; exact I|]. split.
  - pose proof (steps_can _ _ _ _ H2) as X. destruct v; [discriminate X|discriminate].
  - apply forallb_forall. intros x Ix. rewrite <- low_same. pose proof (steps_allows _ _ _ _ H2 x Ix) as X. cbn [allows xplus] in X. destruct (inset low_set x); [reflexivity|discriminate X].
Qed.
Lemma capital_low : forall c, is_capital c = true -> is_low c = false.
Proof.
  intros c H. pose proof (all_chars (fun c => implb (is_capital c) (negb (is_low c))) ltac:(vm_compute; reflexivity) c) as X. cbn beta in X. rewrite H in X. cbn [implb] in X. apply negb_true_iff. exact X.
Qed.
Lemma dead_camel : forall f s, camel_begins s = false -> dead f (XCat camel_word (xplus camel_word)) s.
Proof.
  intros f s H k g. destruct (run (XCat camel_word (xplus camel_word)) k (mkspot f s g)) as [x|] eqn:R; [|reflexivity]. exfalso. apply run_steps in R. destruct R as (w & st' & St & _).
  pose proof (steps_left _ _ _ _ St) as Ls. cbn [left] in Ls. apply inv_cat in St. destruct St as (u & st1 & v & -> & H1 & H2). apply word_steps in H1. destruct H1 as (c & a & -> & Hc & Na & Fa).
  unfold xplus in H2. apply inv_cat in H2. destruct H2 as (u2 & st2 & v2 & -> & H2 & _). apply word_steps in H2. destruct H2 as (d & b & -> & Hd & Nb & Fb).
  rewrite Ls in H. cbn [app] in H. rewrite <- !app_assoc in H. unfold camel_begins in H. cbn [tl] in H. rewrite after_low_spec in H; [|exact Fa|cbn [app head_is]; apply capital_low; exact Hd].
  destruct a as [|a0 a]; [congruence|]. destruct b as [|b0 b]; [congruence|]. cbn [forallb] in Fa, Fb. apply andb_prop in Fa, Fb. destruct Fa as [Fa _], Fb as [Fb _].
  unfold word_begins in H. cbn [head_is app tl] in H. rewrite Hc, Fa, Hd, Fb in H. discriminate H.
Qed.
Lemma starts_split : forall p s, starts p s = true -> s = p ++ skipn (List.length p) s.
Proof.
  induction p as [|a p IH]; intros s H; [reflexivity|]. destruct s as [|d s]; [discriminate H|]. cbn [starts] in H. destruct (Ascii.eqb_spec a d) as [->|]; [|discriminate H]. cbn [app List.length skipn]. f_equal. apply IH. exact H.
Qed.
Lemma starts_app : forall p q s, starts (p ++ q) (p ++ s) = starts q s.
Proof. induction p as [|a p IH]; intros q s; [reflexivity|]. cbn [app starts]. rewrite Ascii.eqb_refl. apply IH. Qed.
Lemma dead_url : forall f n s, starts (L "http://") s = false -> starts (L "https://") s = false -> dead f (url n) s.
Proof.
  intros f n s H1 H2. apply dead_group. apply dead_after; [discriminate|]. intros St. apply starts_split in St. set (r := skipn (List.length (L "http")) s) in *. clearbody r. subst s.
  change (L "http://") with (L "http" ++ L "://") in H1. change (L "https://") with (L "http" ++ L "s" ++ L "://") in H2. rewrite starts_app in H1, H2.
  apply dead_alt_cat.
  - apply (dead_after false "s"); [discriminate|]. intro St2. apply dead_cat, dead_lit. apply starts_split in St2. set (r2 := skipn (List.length (L "s")) r) in *. clearbody r2. subst r. rewrite starts_app in H2. exact H2.
  - intros k c. change (run (XCat XEps ?q) k ?st) with (run q k st). apply dead_cat, dead_lit. exact H1.
Qed.
Lemma dead_bodies : forall f s r, begins s = false -> In r bodies -> dead f r s.
Proof.
  intros f s r Q I.
  assert (Lt : forall p q, In p signals -> dead f (xlit (p ++ q)) s).
  { intros p q Ip. apply dead_lit. replace (L (p ++ q)) with (L p ++ L q); [apply starts_pre; apply quiet_signal; assumption|]. clear. induction p as [|a p IH]; [reflexivity|]. cbn [append L list_ascii_of_string app] in *. f_equal. exact IH. }
  assert (Lc : forall p q r, In p signals -> dead f (XCat (xlit (p ++ q)) r) s) by (intros; apply dead_cat; apply Lt; assumption).
  unfold bodies in I.
  repeat match type of I with In _ (_ :: _) => destruct I as [<-|I] end; [..|destruct I].
  - apply (Lt "''" "'''"). cbn; tauto.
  - apply (Lt "''" "'"). cbn; tauto.
  - apply (Lt "''" ""). cbn; tauto.
  - apply (Lt "__" ""). cbn; tauto.
  - apply (Lt "~~" ""). cbn; tauto.
  - apply (Lt ",," ""). cbn; tauto.
  - apply (Lt "^" ""). cbn; tauto.
  - apply (Lt "`" ""). cbn; tauto.
  - apply dead_bol. apply (Lc "{{{" ""). cbn; tauto.
  - apply dead_bol. apply (Lc "}}}" ""). cbn; tauto.
  - apply (Lt "{{{" ""). cbn; tauto.
  - apply (Lt "}}}" ""). cbn; tauto.
  - apply (Lt "=" "=="). cbn; tauto.
  - apply (Lt "=" "="). cbn; tauto.
  - apply (Lt "=" ""). cbn; tauto.
  - apply dead_alt_cat; apply dead_number; try discriminate; try reflexivity; try (apply quiet_number; [exact Q|cbn; tauto]); apply can_digits.
  - apply dead_alt; [|change (xcats [xlit "{"; digits; xlit "}"]) with (XCat (xlit "{") (XCat digits (xlit "}")))]; apply dead_number; try discriminate; try reflexivity; try (apply quiet_number; [exact Q|cbn; tauto]); [apply can_digits|apply can_digits_cat].
  - apply dead_alt; [|apply dead_alt; [|change (xcats [xlit "["; digits; xlit "]"]) with (XCat (xlit "[") (XCat digits (xlit "]")))]]; apply dead_number; try discriminate; try reflexivity; try (apply quiet_number; [exact Q|cbn; tauto]); [apply can_digits|apply can_digits|apply can_digits_cat].
  - apply (Lc "||" ""). cbn; tauto.
  - apply (Lt "||" ""). cbn; tauto.
  - apply (dead_after f "["); [discriminate|]. intro St. pose proof (quiet_signal s "[http://" Q ltac:(cbn; tauto)) as X. pose proof (quiet_signal s "[https://" Q ltac:(cbn; tauto)) as X2. destruct s as [|d s]; [discriminate St|]. cbn [skipn L list_ascii_of_string List.length].
    apply dead_cat, dead_url; cbn [L list_ascii_of_string starts] in St, X, X2 |- *; (destruct (Ascii.eqb "[" d); [assumption|discriminate St]).
  - apply (Lc "[wiki:" ""). cbn; tauto.
  - apply dead_url; apply quiet_signal; try exact Q; cbn; tauto.
  - apply dead_camel. unfold begins in Q. apply orb_false_iff in Q. apply Q.
Qed.
Lemma way_none : forall n r f s, dead f r s -> forall k c, run (XGroup n r) k (mkspot f s c) = None.
Proof. intros n r f s H k c. rewrite run_group. apply H. Qed.
(* a character that is read as itself *)
Definition unsafe_name (c : ascii) : option string :=
  if Ascii.eqb c "<" then Some "lt" else if Ascii.eqb c ">" then Some "gt" else if Ascii.eqb c "&" then Some "amp" else if Ascii.eqb c "?" then Some "question" else None.
Definition char_caps (c : ascii) : list (string * str) :=
  match unsafe_name c with Some n => [("_pattern_escape_html", [c]); (n, [c])] | None => [("_pattern_rest_of_the_world", [c])] end.
Lemma between_head : forall c s, between (c :: s) s = [c].
Proof. intros c s. apply (between_app [c] s). Qed.
Lemma char_run : forall f c s, begins (c :: s) = false -> (c = "!"%char -> begins s = false) -> one_line (c :: s) -> (f = true -> c <> " "%char /\ c <> ">"%char) -> c :: s <> L "::" ->
  run (regexp line_patterns) Some (mkspot f (c :: s) []) = Some (mkspot false s (char_caps c)).
Proof.
  intros f c s Q Qb O Hf Nd. rewrite ways_are.
  assert (B : forall r, In r bodies -> dead f (XCat bang r) (c :: s)).
  { intros r I. apply dead_bang; [apply dead_bodies; assumption|]. intros s' E. injection E as -> <-. apply dead_bodies; [apply Qb; reflexivity|exact I]. }
  assert (W : forall j q, j < 29 -> nth_error ways j = Some q -> run q Some (mkspot f (c :: s) []) = None).
  { intros j q Lj Hj.
    do 15 (destruct j as [|j]; [injection Hj as <-; apply way_none; apply B; cbn [bodies In]; tauto|]).
    destruct j as [|j]. { injection Hj as <-. apply way_none. apply dead_cat, dead_lit. apply quiet_signal; [exact Q|cbn; tauto]. }
    do 9 (destruct j as [|j]; [injection Hj as <-; apply way_none; apply B; cbn [bodies In]; tauto|]).
    assert (Bl : forall r, f = true -> (forall d, can r d = true -> d = " "%char \/ d = ">"%char) -> empty_too r = false -> dead f r (c :: s)).
    { intros r Ef H E. apply dead_head; [exact E|]. destruct (can r c) eqn:X; [|reflexivity]. destruct (Hf Ef). destruct (H c X); contradiction. }
    assert (Bb : forall x d, inset (Ranges false [xone x]) d = true -> d = x) by (intros; apply one_false; assumption).
    destruct j as [|j]. { injection Hj as <-. apply way_none. destruct f; [|apply dead_old]. apply dead_bol. apply Bl; [reflexivity| |reflexivity].
      intros d H. cbn [xcats xplus can empty_too andb blank xset] in H. rewrite !orb_false_r in H. left. apply Bb. exact H. }
    destruct j as [|j]. { injection Hj as <-. apply way_none. destruct f; [|apply dead_old]. apply dead_bol. apply Bl; [reflexivity| |reflexivity].
      intros d H. cbn [xcats xplus can empty_too andb blank xset] in H. rewrite !orb_false_r in H. right. apply Bb. exact H. }
    destruct j as [|j]. { injection Hj as <-. apply way_none. apply dead_after; [discriminate|]. intros St k g.
      change (run XEol k ?st) with (if at_eol (left st) then k st else None). cbn [left].
      destruct s as [|d s]; [cbn [starts L list_ascii_of_string] in St; destruct (Ascii.eqb ":" c); discriminate St|]. cbn [starts L list_ascii_of_string] in St.
      destruct (Ascii.eqb_spec ":" c) as [<-|]; [|discriminate St]. destruct (Ascii.eqb_spec ":" d) as [<-|]; [|discriminate St]. cbn [skipn L list_ascii_of_string List.length].
      destruct s as [|e [|e' s]]; [elim Nd; reflexivity| |reflexivity]. cbn [at_eol]. destruct (Ascii.eqb_spec e newline_char) as [->|]; [|reflexivity].
      destruct (O newline_char) as [X _]; [cbn; auto|]. elim X. reflexivity. }
    destruct j as [|j]. { injection Hj as <-. apply way_none. destruct f; [|apply dead_old]. apply dead_bol. apply Bl; [reflexivity| |reflexivity].
      intros d H. cbn [xcats xplus can empty_too andb blank xset] in H. rewrite !orb_false_r in H. left. apply Bb. exact H. }
    lia. }
  destruct (unsafe_name c) as [n|] eqn:U.
  - apply run_first with (i := 29) (r := XGroup "_pattern_escape_html" unsafe_letters); [reflexivity|intros; eapply W; eassumption|].
    rewrite run_group. unfold char_caps. rewrite U. unfold unsafe_name in U.
    destruct (Ascii.eqb_spec c "<") as [->|]; [injection U as <-; cbn [unsafe_letters]; transitivity (Some (mkspot false s [("_pattern_escape_html", between ("<"%char :: s) s); ("lt", between ("<"%char :: s) s)])); [reflexivity|rewrite between_head; reflexivity]|].
    destruct (Ascii.eqb_spec c ">") as [->|]; [injection U as <-; transitivity (Some (mkspot false s [("_pattern_escape_html", between (">"%char :: s) s); ("gt", between (">"%char :: s) s)])); [reflexivity|rewrite between_head; reflexivity]|].
    destruct (Ascii.eqb_spec c "&") as [->|]; [injection U as <-; transitivity (Some (mkspot false s [("_pattern_escape_html", between ("&"%char :: s) s); ("amp", between ("&"%char :: s) s)])); [reflexivity|rewrite between_head; reflexivity]|].
    destruct (Ascii.eqb_spec c "?") as [->|]; [injection U as <-; transitivity (Some (mkspot false s [("_pattern_escape_html", between ("?"%char :: s) s); ("question", between ("?"%char :: s) s)])); [reflexivity|rewrite between_head; reflexivity]|].
    discriminate U.
  - apply run_first with (i := 30) (r := XGroup "_pattern_rest_of_the_world" dot); [reflexivity| |].
    + intros j q Lj Hj. destruct (Nat.eq_dec j 29) as [->|]; [|apply (W j q); [lia|exact Hj]]. injection Hj as <-. apply way_none. apply dead_head; [reflexivity|].
      pose proof (all_chars (fun c => match unsafe_name c with Some _ => true | None => negb (can unsafe_letters c) end) ltac:(vm_compute; reflexivity) c) as X. cbn beta in X. rewrite U in X. apply negb_true_iff. exact X.
    + rewrite run_group. unfold char_caps. rewrite U. destruct (O c (or_introl eq_refl)) as [X _].
      assert (D : inset (Ranges true [xone newline_char]) c = true).
      { pose proof (all_chars (fun c => Ascii.eqb c (ascii_of_nat 10) || inset (Ranges true [xone newline_char]) c) ltac:(vm_compute; reflexivity) c) as Y. cbn beta in Y. apply Ascii.eqb_neq in X. rewrite X in Y. exact Y. }
      unfold dot. change (run (XChr ?p) ?k (mkspot f (c :: s) [])) with (if inset p c then k (mkspot false s []) else None). rewrite D. cbn [fresh left caps]. rewrite between_head. reflexivity.
Qed.
