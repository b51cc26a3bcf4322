(* Whole texts *)
From Verif Require Import Py PyFacts Re Rx RxFacts HtmlModel HtmlSpec HtmlProofs TreeModel TreeSpec TreeProofs TreeVisit TreeHtml TreeText WikiModel WikiSpec WikiInv WikiMatch WikiWalk.
Open Scope string_scope.
Open Scope list_scope.
Open Scope nat_scope.

(* ---- lines ---- *)
Lemma split_clean : forall ls cur, one_line cur -> (forall l, In l ls -> one_line l) ->
  split_lines (rev cur) (lines_text ls) = match ls with [] => match cur with [] => [] | _ => [cur] end | l :: ls' => (cur ++ l) :: ls' end.
Proof.
  assert (W : forall l cur r, one_line l -> split_lines cur (l ++ newline_char :: r) = (rev cur ++ l) :: split_lines [] r).
  { induction l as [|c l IH]; intros cur r O; cbn [app split_lines].
    - rewrite app_nil_r. reflexivity.
    - destruct (O c (or_introl eq_refl)) as [N1 N2]. destruct (Ascii.eqb_spec c (ascii_of_nat 13)); [contradiction|]. destruct (Ascii.eqb_spec c newline_char); [contradiction|].
      rewrite IH by (intros x I; apply O; right; exact I). cbn [rev]. rewrite <- app_assoc. reflexivity. }
  induction ls as [|l ls IH]; intros cur Oc O.
  - cbn. destruct cur as [|c cur]; [reflexivity|]. cbn [rev]. destruct (rev cur ++ [c]) eqn:Er; [destruct (rev cur); discriminate|]. rewrite <- Er, rev_app_distr, rev_involutive. reflexivity.
  - unfold lines_text. cbn [flat_map]. rewrite <- app_assoc. cbn [app]. change (ascii_of_nat 10) with newline_char. rewrite W by (apply O; left; reflexivity). rewrite rev_involutive. f_equal.
    specialize (IH [] (fun c (I : In c []) => match I with end) (fun x I => O x (or_intror I))). cbn [rev] in IH. refine (eq_trans IH _). destruct ls; reflexivity.
Qed.
Lemma splitlines_text : forall ls, (forall l, In l ls -> one_line l) -> splitlines (lines_text ls) = ls.
Proof. intros ls O. unfold splitlines. pose proof (split_clean ls [] (fun c (I : In c []) => match I with end) O) as H. cbn [rev] in H. refine (eq_trans H _). destruct ls; reflexivity. Qed.
Lemma split_line_of : forall n s, List.length s < n -> forall cur pre, one_line (rev cur) -> (pre = [] \/ exists a c, pre = a ++ [c] /\ line_end c) ->
  forall line, In line (split_lines cur s) -> line_of (pre ++ rev cur ++ s) line.
Proof.
  induction n as [|n IH]; intros s Hn cur pre O Hp line I; [lia|]. destruct s as [|c s].
  - cbn [split_lines] in I. destruct cur as [|x cur]; [destruct I|]. destruct I as [<-|[]]. split; [exact O|]. exists pre, []. rewrite !app_nil_r. auto.
  - cbn [split_lines] in I. cbn [List.length] in Hn.
    assert (Here : line_end c -> line = rev cur -> line_of (pre ++ rev cur ++ c :: s) line).
    { intros Hc ->. split; [exact O|]. exists pre, (c :: s). split; [reflexivity|]. split; [exact Hp|right; eauto]. }
    assert (Next : forall e t, c :: s = e ++ t -> e <> [] -> (exists a x, e = a ++ [x] /\ line_end x) -> List.length t <= List.length s -> In line (split_lines [] t) -> line_of (pre ++ rev cur ++ c :: s) line).
    { intros e t Es Ne (a & x & Ea & Hx) Hl J. rewrite Es, app_assoc, app_assoc. apply (IH t (ltac:(lia)) [] ((pre ++ rev cur) ++ e)); [intros y []| |exact J].
      right. exists ((pre ++ rev cur) ++ a), x. rewrite Ea, !app_assoc. auto. }
    destruct (Ascii.eqb_spec c (ascii_of_nat 13)) as [Ec|N1].
    + destruct I as [<-|I]; [apply Here; [right; exact Ec|reflexivity]|]. destruct s as [|x s]; [destruct I|]. destruct (Ascii.eqb_spec x newline_char) as [Ex|Nx].
      * apply (Next [c; x] s); [reflexivity|discriminate|exists [c], x; split; [reflexivity|left; exact Ex]|cbn; lia|exact I].
      * apply (Next [c] (x :: s)); [reflexivity|discriminate|exists [], c; split; [reflexivity|right; exact Ec]|lia|exact I].
    + destruct (Ascii.eqb_spec c newline_char) as [Ec|N2].
      * destruct I as [<-|I]; [apply Here; [left; exact Ec|reflexivity]|]. apply (Next [c] s); [reflexivity|discriminate|exists [], c; split; [reflexivity|left; exact Ec]|lia|exact I].
      * replace (pre ++ rev cur ++ c :: s) with (pre ++ rev (c :: cur) ++ s) by (cbn [rev]; rewrite <- app_assoc; reflexivity).
        apply (IH s (ltac:(lia)) (c :: cur) pre); [|exact Hp|exact I]. intros y J. cbn [rev] in J. apply in_app_or in J. destruct J as [J|[<-|[]]]; [apply O; exact J|]. split; assumption.
Qed.
Lemma splitlines_line : forall wiki line, In line (splitlines wiki) -> line_of wiki line.
Proof. intros wiki line I. apply (split_line_of (S (List.length wiki)) wiki (ltac:(lia)) [] []); [intros c []|left; reflexivity|exact I]. Qed.
Lemma line_of_part : forall wiki line, line_of wiki line -> part line wiki.
Proof. intros wiki line (_ & a & b & -> & _). exists a, b. reflexivity. Qed.

(* ---- a line of a block ---- *)
Lemma run_star_all : forall p k s f g x, (forall c, In c s -> inset p c = true) -> (forall f', k (mkspot f' [] g) = Some (x f')) ->
  run (XStar (XChr p)) k (mkspot f s g) = Some (x (match s with [] => f | _ => false end)).
Proof.
  intros p k s. induction s as [|c s IH]; intros f g x A K.
  - cbn. apply K.
  - change (run (XStar (XChr p)) k (mkspot f (c :: s) g)) with
      (match (if inset p c then (if Nat.ltb (List.length s) (S (List.length s)) then run (XStar (XChr p)) k (mkspot false s g) else None) else None) with Some y => Some y | None => k (mkspot f (c :: s) g) end).
    rewrite (A c) by (left; reflexivity). destruct (Nat.ltb_spec (List.length s) (S (List.length s))); [|lia].
    rewrite (IH false g x) by (try exact K; intros d I; apply A; right; exact I). destruct s; reflexivity.
Qed.
Lemma eol_line : forall line w r, one_line line -> line = w ++ r -> at_eol r = true -> r = [].
Proof.
  intros line w r O El H. destruct r as [|c [|]]; [reflexivity| |discriminate]. cbn in H. apply Ascii.eqb_eq in H. subst c. exfalso.
  destruct (O newline_char) as [N _]; [rewrite El; apply in_or_app; right; left; reflexivity|]. apply N. reflexivity.
Qed.
Lemma word_is : forall c, allows WikiModel.word c = true -> word_char c = true.
Proof.
  intros c H. assert (G : forallb (fun n => implb (allows WikiModel.word (ascii_of_nat n)) (word_char (ascii_of_nat n))) (seq 0 256) = true) by (vm_compute; reflexivity).
  rewrite forallb_forall in G. specialize (G (nat_of_ascii c)). rewrite ascii_nat_embedding in G. rewrite H in G. apply G. apply in_seq. pose proof (nat_ascii_bounded c). lia.
Qed.
Definition pat_end : rx := xcats [XBol; xlit "}}}"; XEol].
Definition pat_name : rx := xcats [XBol; xlit "#!"; XGroup "processor_name" (xplus WikiModel.word); XEol].
Definition pat_rest : rx := xcats [XBol; XStar dot; XEol].
Lemma wrap_cases : forall line, one_line line -> line <> [] ->
  (line = L "}}}" /\ find_all (regexp wrap_patterns) line = [[("_pattern_preformat_end", L "}}}")]])
  \/ (line <> L "}}}" /\ directive line /\ exists nm, find_all (regexp wrap_patterns) line = [[("_pattern_processor_specifier", line); ("processor_name", nm)]])
  \/ (line <> L "}}}" /\ find_all (regexp wrap_patterns) line = [[("_pattern_rest_of_the_world", line)]]).
Proof.
  intros line O N. unfold find_all.
  assert (After : forall st, left st = [] -> run (regexp wrap_patterns) Some (mkspot true line []) = Some st ->
    finditer (S (List.length line)) (regexp wrap_patterns) true line = [caps st]).
  { intros st Hl Hr. cbn [finditer]. rewrite Hr, Hl. destruct line as [|c l]; [congruence|]. cbn [List.length Nat.ltb Nat.leb]. f_equal. }
  destruct (list_eq_dec ascii_dec line (L "}}}")) as [->|NE]; [left; split; [reflexivity|vm_compute; reflexivity]|]. right.
  assert (R : run (regexp wrap_patterns) Some (mkspot true line []) =
    match run (XGroup "_pattern_preformat_end" pat_end) Some (mkspot true line []) with
    | Some x => Some x
    | None => match run (XGroup "_pattern_processor_specifier" pat_name) Some (mkspot true line []) with
              | Some x => Some x
              | None => run (XGroup "_pattern_rest_of_the_world" pat_rest) Some (mkspot true line []) end end) by reflexivity.
  destruct (run (XGroup "_pattern_preformat_end" pat_end) Some (mkspot true line [])) as [st|] eqn:E1.
  { exfalso. apply NE. apply run_steps in E1. destruct E1 as (w & st' & S & _). apply inv_group in S. destruct S as (st1 & S & _). pose proof (steps_left _ _ _ _ S) as Hl. cbn [left] in Hl.
    unfold pat_end in S. cbn [xcats] in S. apply inv_cat in S. destruct S as (u & st2 & v & -> & S1 & S2). apply inv_bol in S1. destruct S1 as (-> & -> & _).
    apply inv_cat in S2. destruct S2 as (u & st3 & v' & -> & S2 & S3). apply inv_lit in S2. destruct S2 as (-> & _). apply inv_eol in S3. destruct S3 as (-> & -> & Q).
    cbn [app] in Hl. rewrite (eol_line _ _ _ O Hl Q) in Hl. exact Hl. }
  destruct (run (XGroup "_pattern_processor_specifier" pat_name) Some (mkspot true line [])) as [st|] eqn:E2.
  { left. split; [exact NE|]. pose proof E2 as E3. apply run_steps in E3. destruct E3 as (w & st' & S & K). injection K as ->. apply inv_group in S. destruct S as (st1 & S & ->). pose proof (steps_left _ _ _ _ S) as Hl. cbn [left] in Hl.
    unfold pat_name in S. cbn [xcats] in S. apply inv_cat in S. destruct S as (u & st2 & v & -> & S1 & S2). apply inv_bol in S1. destruct S1 as (-> & -> & _).
    apply inv_cat in S2. destruct S2 as (u & st3 & v' & -> & S2 & S3). apply inv_lit in S2. destruct S2 as (-> & C2 & _). cbn [caps] in C2.
    apply inv_cat in S3. destruct S3 as (nm & st4 & v & -> & S3 & S4). apply inv_group in S3. destruct S3 as (st5 & S3 & ->).
    apply inv_eol in S4. destruct S4 as (-> & -> & Q). cbn [app left caps] in *. rewrite app_nil_r in Hl.
    pose proof (eol_line _ _ _ O Hl Q) as Z. rewrite Z, app_nil_r in Hl. pose proof (steps_caps _ _ _ _ S3 eq_refl) as C3. rewrite C2 in C3.
    split.
    - exists nm. split; [exact Hl|]. split; [eapply cat_nonempty; exact S3|]. intros c I. apply word_is. pose proof (steps_allows _ _ _ _ S3 c I) as H. cbn [allows xplus] in H. unfold xplus in H. cbn [allows] in H. destruct (allows WikiModel.word c); [reflexivity|exact H].
    - exists nm. pose proof (fun H => After _ H R) as AA. cbn [left caps] in AA. rewrite (AA Z). rewrite app_nil_r, C3. rewrite Hl. reflexivity. }
  right. split; [exact NE|].
  assert (E3 : run (XGroup "_pattern_rest_of_the_world" pat_rest) Some (mkspot true line []) = Some (mkspot false [] [("_pattern_rest_of_the_world", line)])).
  { assert (St : forall k x, (forall f', k (mkspot f' [] []) = Some (x f')) -> run (XStar dot) k (mkspot true line []) = Some (x false)).
    { intros k x K. unfold dot. rewrite (run_star_all _ k line true [] x); [destruct line; [congruence|reflexivity]| |exact K].
      intros c I. destruct (O c I) as [N1 _]. destruct (inset (Ranges false [xone newline_char]) c) eqn:Er; [exfalso; apply N1; apply one_only; exact Er|].
      unfold inset in *. cbn [xorb] in *. destruct (existsb _ _); [discriminate|reflexivity]. }
    change (run (XGroup "_pattern_rest_of_the_world" pat_rest) Some (mkspot true line [])) with
      (run (XStar dot) (run XEol (fun st' => Some (mkspot (fresh st') (left st') (("_pattern_rest_of_the_world", between line (left st')) :: caps st')))) (mkspot true line [])).
    rewrite (St _ (fun f' => mkspot f' [] [("_pattern_rest_of_the_world", line)])); [reflexivity|].
    intro f'. cbn [run left at_eol fresh caps]. unfold between. cbn [List.length]. rewrite Nat.sub_0_r, firstn_all. reflexivity. }
  rewrite E3 in R. exact (After (mkspot false [] [("_pattern_rest_of_the_world", line)]) eq_refl R).
Qed.

Section Texts.
Variable tc : bool.
Notation good := (stands tc).
Notation outside := (outside tc).
Variable md : mode.
Variable nq : care.
Variable ks : string -> Prop.
Hypothesis Hks : forall k, In k wiki_keys -> ks k.
Variable E : exn -> Prop.
Variables (design_order : list string) (wikipath now : str) (urlencode : list (string * str) -> str) (analysis : str -> res (list table)).
Hypothesis Hdesign : incl design_order design_names.
Hypothesis Hwiki : quiets nq = true -> quiet wikipath.
Hypothesis Hnow : plain now.
Hypothesis Hnow_whole : wholes nq = true -> references now.
Hypothesis Hurl : forall p, quiets nq = true -> quiet (urlencode p).
Hypothesis Hana : forall p ts t, analysis p = Ok ts -> In t ts -> table_ok t /\ (quiets nq = true -> table_quiet t) /\ (forall r c k v, In r (rows t) -> In c (snd r) -> In (k, v) (cattrs c) -> ks k).
Hypothesis Hana_whole : forall p ts t r c, analysis p = Ok ts -> In t ts -> In r (rows t) -> In c (snd r) -> wholes nq = true -> references (ctext c).
Definition line_fits (line : str) : Prop :=
  one_line line /\ (quiets nq = true -> ~ quoted_label line) /\ (md = Signed -> ~ unsigned_item line) /\ (md = Unsigned -> ~ signed_item line)
  /\ (part (L "[[Position]]") line \/ part (L "[[Analysis]]") line -> E TypeError) /\ (part (L "[[TableOfContent") line -> tc = true)
  /\ (part (L "[[Analysis(") line -> forall p e, analysis p = Exc e -> E e)
  /\ (wholes nq = true -> ~ amp_url line).
Notation parse_line := (parse_line design_order wikipath now urlencode analysis).

Definition here (F : list (nat * (str * option string))) (inside : bool) (d : doc) : Prop :=
  if inside then exists c t p, in_block tc md nq ks F c t p d else at_ tc md nq ks F outside d.
Lemma wrap_end : forall F c t p d, in_block tc md nq ks F c t p d -> snd (wrap_parse c (L "}}}") d) = Ok tt /\ at_ tc md nq ks ((c, (t, p)) :: F) good (fst (wrap_parse c (L "}}}") d)).
Proof.
  intros F c t p d B. destruct (b_leave tc md nq ks F wikipath now urlencode analysis Hwiki Hnow_whole Hurl Hana Hana_whole c t p d B) as [H1 H2].
  assert (G : wrap_parse c (L "}}}") d = m_leave [Wrapping] d).
  { change (wrap_parse c (L "}}}") d) with (m_each (fun g => m_each (wrap_handle c g) g) (find_all (regexp wrap_patterns) (L "}}}")) d).
    replace (find_all (regexp wrap_patterns) (L "}}}")) with [[("_pattern_preformat_end", L "}}}")]] by (vm_compute; reflexivity).
    cbn [m_each]. change (wrap_handle c [("_pattern_preformat_end", L "}}}")] ("_pattern_preformat_end", L "}}}")) with (m_leave [Wrapping]).
    unfold andthen, ret. destruct (m_leave [Wrapping] d) as [d' [[]|e]]; reflexivity. }
  rewrite G. auto.
Qed.
Lemma wrap_parse_ne : forall c line, line <> [] -> wrap_parse c line = m_each (fun g => m_each (wrap_handle c g) g) (find_all (regexp wrap_patterns) line).
Proof. intros c [|x l] H; [congruence|reflexivity]. Qed.
Lemma wrap_handle_ne : forall c g name s, s <> [] -> wrap_handle c g (name, s) =
  (if String.eqb name "_pattern_preformat_end" then m_leave [Wrapping]
   else if String.eqb name "_pattern_rest_of_the_world" then run_op (AddLine c (s ++ nl))
   else if String.eqb name "_pattern_processor_specifier" then
     match group g "processor_name" with Some p => run_op (SetProcessor c (string_of_list_ascii p)) | None => raise KeyError end
   else ret tt).
Proof. intros c g name [|x l] H; [congruence|reflexivity]. Qed.
Lemma wrap_line : forall F c t p line, one_line line -> line <> L "}}}" -> ~ directive line -> triple E (in_block tc md nq ks F c t p) (wrap_parse c line) (fun _ => in_block tc md nq ks F c (t ++ line ++ nl) p).
Proof.
  intros F c t p line O N D. destruct (list_eq_dec ascii_dec line []) as [->|NE]; [apply b_line|].
  destruct (wrap_cases line O NE) as [[C _]|[(_ & C & _)|[_ C]]]; [contradiction|contradiction|].
  rewrite (wrap_parse_ne c line NE), C. cbn [m_each]. eapply t_bind with (Q := fun _ => in_block tc md nq ks F c (t ++ line ++ nl) p); [|intro u_; apply t_ret; auto].
  eapply t_bind with (Q := fun _ => in_block tc md nq ks F c (t ++ line ++ nl) p); [|intro u_; apply t_ret; auto].
  rewrite (wrap_handle_ne _ _ _ line NE). apply b_line.
Qed.
Lemma wrap_some : forall F c t p line, one_line line -> line <> L "}}}" -> triple E (in_block tc md nq ks F c t p) (wrap_parse c line) (fun _ d => exists t p, in_block tc md nq ks F c t p d).
Proof.
  intros F c t p line O N. destruct (list_eq_dec ascii_dec line []) as [->|NE]; [eapply t_post; [|apply (b_line tc md nq ks F E c t p nl)]; intros u_ d B; eexists; eexists; exact B|].
  destruct (wrap_cases line O NE) as [[C _]|[(_ & _ & nm & C)|[_ C]]]; [contradiction| |].
  - rewrite (wrap_parse_ne c line NE), C. cbn [m_each].
    eapply t_bind with (Q := fun _ d => exists t p, in_block tc md nq ks F c t p d); [|intro u_; apply t_ret; auto].
    eapply t_bind with (Q := fun _ d => exists t p, in_block tc md nq ks F c t p d).
    + rewrite (wrap_handle_ne _ _ _ line NE). eapply t_post; [|apply (b_processor tc md nq ks F E c t p)]. intros u_ d B. eexists. eexists. exact B.
    + intro u_. eapply t_bind with (Q := fun _ d => exists t p, in_block tc md nq ks F c t p d); [|intro u2_; apply t_ret; auto].
      unfold wrap_handle. destruct nm; apply t_ret; auto.
  - rewrite (wrap_parse_ne c line NE), C. cbn [m_each].
    eapply t_bind with (Q := fun _ d => exists t p, in_block tc md nq ks F c t p d); [|intro u_; apply t_ret; auto].
    eapply t_bind with (Q := fun _ d => exists t p, in_block tc md nq ks F c t p d); [|intro u_; apply t_ret; auto].
    rewrite (wrap_handle_ne _ _ _ line NE). eapply t_post; [|apply (b_line tc md nq ks F E c t p)]. intros u_ d B. eexists. eexists. exact B.
Qed.
Lemma outside_not_wrapping : forall F d, at_ tc md nq ks F outside d -> forall line, parse_line line d = line_parse design_order wikipath now urlencode analysis line d.
Proof. intros F d [J (c & n & Hc & Hn & Hk)] line. unfold WikiModel.parse_line. rewrite Hc, Hn. destruct (cls n); try reflexivity; discriminate. Qed.
Lemma inside_wrapping : forall F c t p d, in_block tc md nq ks F c t p d -> forall line, parse_line line d = wrap_parse c line d.
Proof. intros F c t p d (J & Hc & _ & n & Hn & Kn & _) line. unfold WikiModel.parse_line. rewrite Hc, Hn, Kn. reflexivity. Qed.
Lemma at_outside : forall F K d, (forall k, K k = true -> outside k = true) -> at_ tc md nq ks F K d -> at_ tc md nq ks F outside d.
Proof. intros F K d H. apply at_weak. exact H. Qed.
Lemma one_text : forall F line b, line_fits line -> triple E (here F b) (parse_line line) (fun _ => here F (if b then negb (str_eqb line (L "}}}")) else str_eqb line (L "{{{"))).
Proof.
  intros F line b (O & Q & S1 & S2 & E1 & E2 & E3 & E4) d H. destruct b; cbn [here] in H.
  - destruct H as (c & t & p & B). rewrite (inside_wrapping _ _ _ _ _ B). destruct (str_eqb line (L "}}}")) eqn:El; cbn [negb here].
    + apply str_eqb_eq in El. subst line. destruct (wrap_end _ _ _ _ _ B) as [W1 W2]. rewrite W1. eapply at_outside; [|eapply at_forget; exact W2]. intros k Hk. unfold outside. rewrite Hk. reflexivity.
    + assert (N : line <> L "}}}") by (intros ->; discriminate El). pose proof (wrap_some F c t p line O N d B) as W. destruct (snd (wrap_parse c line d)); [|exact W]. exists c. exact W.
  - rewrite (outside_not_wrapping _ _ H). destruct (str_eqb line (L "{{{")) eqn:El; cbn [here].
    + apply str_eqb_eq in El. subst line. pose proof (p_open tc md nq ks F E design_order wikipath now urlencode analysis Hwiki Hnow_whole Hurl Hana Hana_whole d H) as W.
      destruct (snd (line_parse design_order wikipath now urlencode analysis (L "{{{") d)); [|exact W]. destruct W as [c W]. exists c, [], None. exact W.
    + assert (N : line <> L "{{{") by (intros ->; discriminate El). destruct (list_eq_dec ascii_dec line []) as [->|NE].
      * pose proof (p_empty tc md nq ks F E design_order wikipath now urlencode analysis d H) as W. destruct (snd (line_parse design_order wikipath now urlencode analysis [] d)); [|exact W].
        eapply at_outside; [|exact W]. intros k Hk. unfold outside. apply klass_eqb_eq in Hk. subst k. apply Bool.orb_true_r.
      * pose proof (p_line tc md nq ks Hks F E design_order wikipath now urlencode analysis Hdesign Hwiki Hnow Hnow_whole Hurl Hana Hana_whole line Q O E4 S1 S2 E1 E2 E3 NE N d H) as W.
        destruct (snd (line_parse design_order wikipath now urlencode analysis line d)); [|exact W]. eapply at_outside; [|exact W]. intros k Hk. unfold outside. rewrite Hk. reflexivity.
Qed.
Lemma texts : forall F ls b, (forall l, In l ls -> line_fits l) -> triple E (here F b) (m_each parse_line ls) (fun _ => here F (block_open b ls)).
Proof.
  intros F. induction ls as [|l ls IH]; intros b H; cbn [m_each block_open].
  - apply t_ret. auto.
  - eapply t_bind; [apply one_text; apply H; left; reflexivity|]. intros []. apply IH. intros x I. apply H. right. exact I.
Qed.
Lemma here_inv : forall F b d, here F b d -> inv tc md nq ks F d.
Proof. intros F [] d H; [destruct H as (c & t & p & H)|]; apply H. Qed.
Lemma here_new : here [] false new_doc.
Proof. cbn [here]. eapply at_weak; [|apply (inv_new tc md nq ks [] new_doc tt); reflexivity]. intros k Hk. apply klass_eqb_eq in Hk. subst k. apply Bool.orb_true_r. Qed.
End Texts.
