(* Style sheets are read as they are written *)
From Verif Require Import Py PyFacts Re Rx RxFacts Dict DictFacts HtmlSpec CmpSpec CmpProofs ImageModel SheetSpec.
Open Scope string_scope.
Open Scope list_scope.
Open Scope nat_scope.

(* ---- matching ---- *)
Lemma spaces_in : forall p n, inset p " "%char = true -> all_in p (spaces n).
Proof. intros p n H c I. apply repeat_spec in I. subst c. exact H. Qed.
Definition sp_set : cset := Ranges false [xone " "%char].
Lemma stop_sp : forall s, match s with " "%char :: _ => False | _ => True end -> stops sp_set s.
Proof.
  intros [|c s] H; [exact I|]. cbn [stops]. destruct (inset sp_set c) eqn:E; [|reflexivity]. apply WikiMatch.one_only in E. subst c. destruct H.
Qed.
(* a literal *)
Lemma run_lit : forall s k rest f g x, k (mkspot (match L s with [] => f | _ => false end) rest g) = Some x -> run (xlit s) k (mkspot f (L s ++ rest) g) = Some x.
Proof.
  intros s. unfold xlit. induction (L s) as [|c l IH]; intros k rest f g x K; [exact K|]. cbn [fold_right app]. rewrite run_cat, run_chr. apply IH. destruct l; exact K.
Qed.
(* a repetition that has to give back *)
Lemma loop_back : forall p k w rest f g n x, all_in p w -> List.length (w ++ rest) <= n ->
  (forall a b f', rest = a ++ b -> a <> [] -> k (mkspot f' b g) = None) ->
  k (mkspot (match w with [] => f | _ => false end) rest g) = Some x -> loop_of (XChr p) k n (mkspot f (w ++ rest) g) = Some x.
Proof.
  intros p k w. induction w as [|c w IH]; intros rest f g n x A Ln B K.
  - cbn [app] in *. clear A.
    assert (Z : forall n r a f', rest = a ++ r -> a <> [] -> List.length r <= n -> loop_of (XChr p) k n (mkspot f' r g) = None).
    { clear n Ln K f. induction n as [|n IHn]; intros r a f' E N Ln; cbn [loop_of]; [exact (B a r f' E N)|].
      cbn [run left caps]. destruct r as [|c r]; [exact (B a [] f' E N)|]. destruct (inset p c); [|exact (B a (c :: r) f' E N)].
      replace (Nat.ltb (List.length r) (List.length (c :: r))) with true by (symmetry; apply Nat.ltb_lt; cbn; lia). fold (loop_of (XChr p) k).
      rewrite (IHn r (a ++ [c]) false); [exact (B a (c :: r) f' E N)|rewrite <- app_assoc; exact E|destruct a; discriminate|cbn in Ln; lia]. }
    destruct n; [exact K|]. cbn [loop_of]. cbn [run left caps]. destruct rest as [|c r]; [exact K|]. destruct (inset p c); [|exact K].
    replace (Nat.ltb (List.length r) (List.length (c :: r))) with true by (symmetry; apply Nat.ltb_lt; cbn; lia). fold (loop_of (XChr p) k).
    rewrite (Z n r [c] false eq_refl); [exact K|discriminate|cbn in Ln; lia].
  - destruct n; [cbn in Ln; lia|]. cbn [loop_of app]. cbn [run left caps]. rewrite (A c (or_introl eq_refl)).
    replace (Nat.ltb (List.length (w ++ rest)) (List.length (c :: w ++ rest))) with true by (symmetry; apply Nat.ltb_lt; cbn; lia).
    fold (loop_of (XChr p) k). rewrite (IH rest false g n x); [reflexivity|intros d I; apply A; right; exact I|cbn in Ln; lia|exact B|].
    destruct w; exact K.
Qed.
Lemma star_back : forall p k w rest f g x, all_in p w -> (forall a b f', rest = a ++ b -> a <> [] -> k (mkspot f' b g) = None) ->
  k (mkspot (match w with [] => f | _ => false end) rest g) = Some x -> run (XStar (XChr p)) k (mkspot f (w ++ rest) g) = Some x.
Proof. intros. rewrite run_star. apply loop_back; auto. Qed.

(* ---- one selector ---- *)
Definition el_set : cset := Ranges false [xone "_"; ("a", "z"); ("A", "Z")]%char.
Definition word_set : cset := Ranges false [xone "-"; xone "_"; ("0", "9"); ("a", "z"); ("A", "Z")]%char.
Lemma el_in : forall s, of_chars (L "_" ++ letters) s -> s <> [] /\ all_in el_set s.
Proof. intros s H. eapply chars_in; [|exact H]. reflexivity. Qed.
Lemma word_in : forall s, of_chars word s -> s <> [] /\ all_in word_set s.
Proof. intros s H. eapply chars_in; [|exact H]. reflexivity. Qed.
Lemma not_one : forall d s, ~ In d s -> all_in (Ranges true [xone d]) s.
Proof.
  intros d s H c I. cbn [inset existsb xone]. unfold in_range. destruct (chr_leb d c) eqn:E1; [|reflexivity]. destruct (chr_leb c d) eqn:E2; [|reflexivity].
  exfalso. apply H. replace d with c; [exact I|]. apply WikiMatch.one_only. cbn [inset existsb xone]. unfold in_range. rewrite E1, E2. reflexivity.
Qed.
Lemma run_alt : forall a b k st, run (XAlt a b) k st = match run a k st with Some y => Some y | None => run b k st end.
Proof. reflexivity. Qed.
Lemma xcats_cons : forall r r' l k st, run (xcats (r :: r' :: l)) k st = run r (run (xcats (r' :: l)) k) st.
Proof. reflexivity. Qed.
Lemma xcats_one : forall r k st, run (xcats [r]) k st = run r k st.
Proof. reflexivity. Qed.
Definition data_rx : rx := xcats [xlit ":data("; XGroup "data" (xplus (XChr (Ranges true [xone ")"%char]))); xlit ")"].
Definition attr_rx : rx := XGroup "attribute" (xcats [xlit "["; XGroup "name" name_rx; xlit "="; XGroup "value" name_rx; xlit "]"]).
Lemma no_lit : forall c s k f rest g, match rest with d :: _ => Ascii.eqb c d = false | [] => True end -> run (xlit (String c s)) k (mkspot f rest g) = None.
Proof. intros c s k f rest g H. unfold xlit. cbn [L list_ascii_of_string fold_right]. rewrite run_cat. cbn [run left caps inset]. destruct rest as [|d r]; [reflexivity|]. rewrite H. reflexivity. Qed.
Definition data_text (d : option str) : str := match d with Some d => L ":data(" ++ d ++ L ")" | None => [] end.
Definition data_caps (d : option str) : list (string * str) := match d with Some d => [("data", d)] | None => [] end.
Lemma run_data : forall d f g, match d with Some d => d <> [] /\ free_of (L ") {") d | None => True end ->
  exists f', run (xopt data_rx) Some (mkspot f (data_text d) g) = Some (mkspot f' [] (data_caps d ++ g)).
Proof.
  intros [d|] f g H.
  - destruct H as [N F]. exists false. unfold xopt. rewrite run_alt. unfold data_rx. rewrite xcats_cons. unfold data_text.
    erewrite run_lit; [reflexivity|]. rewrite xcats_cons.
    apply group_plus; [exact N|apply not_one; intro J; apply (F _ J); cbn; auto|reflexivity|].
    rewrite xcats_one. rewrite <- (app_nil_r (L ")")). apply run_lit. reflexivity.
  - exists f. unfold xopt. rewrite run_alt. unfold data_rx. rewrite xcats_cons. cbn [data_text]. rewrite no_lit by exact I. reflexivity.
Qed.
Definition attr_part (n v : option str) : str := match n, v with Some n, Some v => L "[" ++ n ++ L "=" ++ v ++ L "]" | _, _ => [] end.
Definition sel_caps (s : selector) : list (string * str) :=
  data_caps (s_data s) ++ match s_name s, s_value s with Some n, Some v => [("attribute", attr_part (Some n) (Some v)); ("value", v); ("name", n)] | _, _ => [] end ++ [("element", s_element s)].
Lemma run_selector : forall s, good_selector s -> exists f', run selector_rx Some (mkspot true (write_selector s) []) = Some (mkspot f' [] (sel_caps s)).
Proof.
  intros [e n v d] (He & Hnv & Hd). cbn [s_element s_name s_value s_data] in *. destruct (el_in _ He) as [Ne Ae].
  change (write_selector (mksel e n v d)) with (e ++ attr_part n v ++ data_text d).
  change selector_rx with (XCat (XGroup "element" (xplus (XChr el_set))) (XCat (xopt attr_rx) (xopt data_rx))).
  assert (D : match data_text d with [] => True | c :: _ => c = ":"%char end) by (destruct d; [reflexivity|exact I]).
  destruct n as [n|]; destruct v as [v|]; try (destruct Hnv; fail).
  - destruct Hnv as [Hn Hv]. destruct (word_in _ Hn) as [Nn An]. destruct (word_in _ Hv) as [Nv Av].
    destruct (run_data d false [("attribute", attr_part (Some n) (Some v)); ("value", v); ("name", n); ("element", e)] Hd) as [f' R]. exists f'.
    rewrite run_cat. apply group_plus; [exact Ne|exact Ae|reflexivity|]. rewrite run_cat. unfold xopt at 1. rewrite run_alt.
    assert (E : run attr_rx (run (xopt data_rx) Some) (mkspot false (attr_part (Some n) (Some v) ++ data_text d) [("element", e)]) = Some (mkspot f' [] (sel_caps (mksel e (Some n) (Some v) d)))).
    2:{ match goal with |- match ?r with _ => _ end = _ => replace r with (Some (mkspot f' [] (sel_caps (mksel e (Some n) (Some v) d)))) by (symmetry; exact E) end. reflexivity. }
    unfold attr_rx. rewrite run_group. rewrite xcats_cons.
    assert (P : attr_part (Some n) (Some v) ++ data_text d = L "[" ++ n ++ L "=" ++ v ++ L "]" ++ data_text d) by (unfold attr_part; rewrite <- !app_assoc; reflexivity).
    replace (mkspot false (attr_part (Some n) (Some v) ++ data_text d) [("element", e)]) with (mkspot false (L "[" ++ n ++ L "=" ++ v ++ L "]" ++ data_text d) [("element", e)]) by (rewrite P; reflexivity).
    apply run_lit. rewrite xcats_cons. apply group_plus; [exact Nn|exact An|reflexivity|]. rewrite xcats_cons. apply run_lit. rewrite xcats_cons.
    apply group_plus; [exact Nv|exact Av|reflexivity|]. rewrite xcats_one. apply run_lit. cbn [fresh left caps L list_ascii_of_string]. rewrite between_app. etransitivity; [exact R|].
    unfold sel_caps. cbn [s_data s_name s_value s_element]. rewrite <- ?app_assoc. reflexivity.
  - destruct (run_data d false [("element", e)] Hd) as [f' R]. exists f'. rewrite run_cat. cbn [attr_part app].
    apply group_plus; [exact Ne|exact Ae|destruct (data_text d); [exact I|subst a; reflexivity]|]. rewrite run_cat. unfold xopt at 1. rewrite run_alt.
    unfold attr_rx. rewrite run_group, xcats_cons. rewrite no_lit by (destruct (data_text d); [exact I|subst a; reflexivity]). exact R.
Qed.
Lemma search_first : forall r s st, run r Some (mkspot true s []) = Some st -> search r s = Some (caps st).
Proof.
  intros r s st H. unfold search, find_all. cbn [finditer]. rewrite H. destruct (Nat.ltb _ _); [reflexivity|]. destruct s; reflexivity.
Qed.
Lemma read_selector : forall s, good_selector s -> parse_selector (write_selector s) = [s].
Proof.
  intros s H. destruct (run_selector s H) as [f' R]. unfold parse_selector. rewrite (search_first _ _ _ R). cbn [caps].
  destruct s as [e n v d]. destruct H as (_ & Hnv & _). cbn [s_element s_name s_value s_data] in *. unfold sel_caps. cbn [s_element s_name s_value s_data].
  destruct d as [d|]; destruct n as [n|]; destruct v as [v|]; try (destruct Hnv; fail); reflexivity.
Qed.

(* ---- one attribute ---- *)
Lemma star_sp : forall k n rest f g x, match rest with " "%char :: _ => False | _ => True end ->
  k (mkspot (match n with 0 => f | _ => false end) rest g) = Some x -> run (XStar sp) k (mkspot f (spaces n ++ rest) g) = Some x.
Proof. intros k n rest f g x H K. apply (star_chars sp_set); [apply spaces_in; reflexivity|apply stop_sp; exact H|]. destruct n; exact K. Qed.
Lemma word_head : forall s rest, of_chars word s -> match s ++ rest with " "%char :: _ => False | _ => True end.
Proof.
  intros [|c s] rest [N H]; [congruence|]. specialize (H c (or_introl eq_refl)). cbn [app]. destruct (Ascii.eqb c " ") eqn:E; [apply Ascii.eqb_eq in E; subst c; cbn in H; repeat (destruct H as [H|H]; [discriminate H|]); destruct H|].
  destruct c as [[|] [|] [|] [|] [|] [|] [|] [|]]; try exact I. discriminate E.
Qed.
Lemma free_head : forall s rest, s <> [] -> free_of (L " ;]") s -> match s ++ rest with " "%char :: _ => False | _ => True end.
Proof.
  intros [|c s] rest N H; [congruence|]. specialize (H c (or_introl eq_refl)). cbn [app]. destruct (Ascii.eqb c " ") eqn:E; [apply Ascii.eqb_eq in E; subst c; apply H; cbn; auto|].
  destruct c as [[|] [|] [|] [|] [|] [|] [|] [|]]; try exact I. discriminate E.
Qed.
Lemma space_stops : forall p n, inset p " "%char = false -> stops p (spaces n).
Proof. intros p [|n] H; [exact I|exact H]. Qed.
Lemma read_attr : forall n v a b c d blk, of_chars word n -> v <> [] -> free_of (L " ;]") v ->
  parse_attribute blk (write_item (Attr n v a b c d)) = dset str_eqb blk n v.
Proof.
  intros n v a b c d blk Hn Nv Fv. destruct (word_in _ Hn) as [Nn An]. unfold parse_attribute. cbn [write_item].
  assert (R : exists f, run attribute_rx Some (mkspot true (spaces a ++ n ++ spaces b ++ L ":" ++ spaces c ++ v ++ spaces d) []) = Some (mkspot f [] [("value", v); ("name", n)])).
  { eexists. unfold attribute_rx. rewrite xcats_cons. apply star_sp; [apply word_head; exact Hn|]. rewrite xcats_cons.
    apply (group_plus "name" word_set); [exact Nn|exact An|destruct b; reflexivity|]. rewrite xcats_cons. apply star_sp; [exact I|]. rewrite xcats_cons. apply run_lit. rewrite xcats_cons.
    apply star_sp; [apply free_head; assumption|]. rewrite xcats_cons.
    apply (group_plus "value" (Ranges true [xone " "%char])); [exact Nv|apply not_one; intro J; apply (Fv _ J); cbn; auto|apply space_stops; reflexivity|].
    rewrite xcats_one. rewrite <- (app_nil_r (spaces d)). apply star_sp; [exact I|]. reflexivity. }
  destruct R as [f R]. rewrite (search_first _ _ _ R). reflexivity.
Qed.
Lemma search_steps : forall r s g, search r s = Some g -> exists f pre s' w st, s = pre ++ s' /\ (f = true -> pre = []) /\ steps r (mkspot f s' []) w st /\ s' = w ++ left st.
Proof.
  intros r s g H. unfold search in H. destruct (find_all r s) as [|x l] eqn:E; [discriminate|]. assert (J : In x (find_all r s)) by (rewrite E; left; reflexivity).
  unfold find_all in J. apply finditer_in in J. destruct J as (f & pre & s' & w & st & E1 & F & _ & S1 & E2 & _). exists f, pre, s', w, st. split; [exact E1|]. split; [intros T; apply F in T; tauto|]. split; assumption.
Qed.
Lemma read_blank : forall n blk, parse_attribute blk (spaces n) = blk.
Proof.
  intros n blk. unfold parse_attribute. destruct (search attribute_rx (spaces n)) as [g|] eqn:E; [|reflexivity]. exfalso.
  apply search_steps in E. destruct E as (f & pre & s' & w & st & E1 & _ & S1 & E2). unfold attribute_rx, xcats in S1.
  apply inv_cat in S1. destruct S1 as (w1 & st1 & v1 & -> & _ & S1). apply inv_cat in S1. destruct S1 as (w2 & st2 & v2 & -> & _ & S1). apply inv_cat in S1. destruct S1 as (w3 & st3 & v3 & -> & _ & S1).
  apply inv_cat in S1. destruct S1 as (w4 & st4 & v4 & -> & S1 & _). apply inv_lit in S1. destruct S1 as (-> & _).
  assert (J : In ":"%char (spaces n)) by (rewrite E1, E2, !in_app_iff; cbn; tauto). apply repeat_spec in J. discriminate.
Qed.
(* ---- the dictionary of a block ---- *)
Definition str_eq : forall a b, str_eqb a b = true <-> a = b := str_eqb_eq.
Definition built (l : list (str * str)) (b : list (str * str)) : list (str * str) := fold_left (fun b kv => dset str_eqb b (fst kv) (snd kv)) l b.
Lemma built_get : forall l b k, NoDup (keys b) -> NoDup (keys (built l b)) /\
  forall v, dget str_eqb (built l b) k = Some v <-> holds l k v \/ (dget str_eqb b k = Some v /\ ~ In k (map fst l)).
Proof.
  induction l as [|[k' v'] l IH]; intros b k N.
  - split; [exact N|]. intros v. split; [intro H; right; split; [exact H|intros []]|]. intros [(a & c & E & _)|[H _]]; [destruct a; discriminate E|exact H].
  - cbn [built fold_left fst snd]. fold (built l (dset str_eqb b k' v')).
    assert (N' : NoDup (keys (dset str_eqb b k' v'))).
    { destruct (in_dec (list_eq_dec ascii_dec) k' (keys b)) as [J|J]; [rewrite (keys_dset_in str_eqb str_eq) by exact J; exact N|].
      rewrite (dset_new str_eqb str_eq) by exact J. unfold keys. rewrite map_app. cbn [map fst].
      apply (Permutation.Permutation_NoDup (l := k' :: map fst b)); [apply Permutation.Permutation_cons_append|]. constructor; assumption. }
    destruct (IH (dset str_eqb b k' v') k N') as [I1 I2]. split; [exact I1|]. intros v. rewrite I2. rewrite (dget_dset str_eqb str_eq).
    assert (H0 : forall v0, holds l k v0 -> holds ((k', v') :: l) k v0) by (intros v0 (a & c & -> & Nk); exists ((k', v') :: a), c; split; [reflexivity|exact Nk]).
    destruct (str_eqb k k') eqn:E.
    + apply str_eqb_eq in E. subst k'. split.
      * intros [H|[H J]]; [left; apply H0; exact H|]. injection H as <-. left. exists [], l. split; [reflexivity|exact J].
      * intros [(a & c & E & J)|[_ J]]; [|exfalso; apply J; left; reflexivity]. destruct a as [|x a].
        -- injection E as -> ->. right. split; [reflexivity|exact J].
        -- injection E as _ ->. left. exists a, c. split; [reflexivity|exact J].
    + assert (K : k <> k') by (intros ->; assert (str_eqb k' k' = true) by (apply str_eqb_eq; reflexivity); congruence). split.
      * intros [H|[H J]]; [left; apply H0; exact H|]. right. split; [exact H|]. intros [J'|J']; [cbn in J'; congruence|contradiction].
      * intros [(a & c & E' & J)|[H J]]; [|right; split; [exact H|intro J'; apply J; right; exact J']]. destruct a as [|x a]; [injection E' as E1 E2 E3; congruence|].
        injection E' as _ ->. left. exists a, c. split; [reflexivity|exact J].
Qed.
Lemma built_holds : forall l, NoDup (map fst (built l [])) /\ forall k v, In (k, v) (built l []) <-> holds l k v.
Proof.
  intros l. split; [exact (proj1 (built_get l [] [] (NoDup_nil _)))|]. intros k v. destruct (built_get l [] k (NoDup_nil _)) as [N H]. specialize (H v). split.
  - intro J. apply (dget_unique str_eqb str_eq) in J; [|exact N]. apply H in J. destruct J as [J|[J _]]; [exact J|discriminate J].
  - intro J. apply (dget_in str_eqb str_eq). apply H. left. exact J.
Qed.
(* ---- a block ---- *)
Lemma item_free : forall i, good_item i -> ~ In ";"%char (write_item i) /\ ~ In "]"%char (write_item i).
Proof.
  assert (S1 : forall c n, c <> " "%char -> ~ In c (spaces n)) by (intros c n H J; apply repeat_spec in J; contradiction).
  assert (W : forall c n, forallb (fun d => negb (Ascii.eqb c d)) word = true -> of_chars word n -> ~ In c n).
  { intros c n F [_ H] J. apply H in J. rewrite forallb_forall in F. specialize (F c J). rewrite Ascii.eqb_refl in F. discriminate F. }
  intros [n v a b c d|n] H; cbn [write_item].
  - destruct H as (Hn & _ & Hv). split; rewrite !in_app_iff; intros [J|[J|[J|[J|[J|[J|J]]]]]].
    all: try (revert J; apply S1; discriminate). all: try (revert J; apply W; [reflexivity|exact Hn]). all: try (cbn in J; destruct J as [J|[]]; discriminate J). all: apply Hv in J; apply J; cbn; auto.
  - split; apply S1; discriminate.
Qed.
Lemma split_cons : forall c w s, ~ In c w -> split_on c (w ++ c :: s) = w :: split_on c s.
Proof.
  intros c w s. induction w as [|x w IH]; intro H; cbn [app split_on]; [rewrite Ascii.eqb_refl; reflexivity|].
  destruct (Ascii.eqb x c) eqn:E; [apply Ascii.eqb_eq in E; subst x; exfalso; apply H; left; reflexivity|]. rewrite IH by (intro J; apply H; right; exact J). reflexivity.
Qed.
Lemma split_none : forall c w, ~ In c w -> split_on c w = [w].
Proof.
  intros c w. induction w as [|x w IH]; intro H; cbn [split_on]; [reflexivity|].
  destruct (Ascii.eqb x c) eqn:E; [apply Ascii.eqb_eq in E; subst x; exfalso; apply H; left; reflexivity|]. rewrite IH by (intro J; apply H; right; exact J). reflexivity.
Qed.
Lemma split_items : forall l, l <> [] -> (forall i, In i l -> good_item i) -> split_on ";"%char (write_items l) = map write_item l.
Proof.
  induction l as [|i l IH]; intros N G; [congruence|]. destruct l as [|j l].
  - cbn [write_items map]. apply split_none. apply item_free. apply G. left. reflexivity.
  - change (write_items (i :: j :: l)) with (write_item i ++ ";"%char :: write_items (j :: l)). rewrite split_cons by (apply item_free; apply G; left; reflexivity).
    rewrite IH; [reflexivity|discriminate|intros x J; apply G; right; exact J].
Qed.
Lemma read_items : forall l blk, (forall i, In i l -> good_item i) -> fold_left parse_attribute (filter nonempty (map write_item l)) blk = built (attributes l) blk.
Proof.
  induction l as [|i l IH]; intros blk G; [reflexivity|]. cbn [map filter]. assert (H := G i (or_introl eq_refl)).
  assert (R : parse_attribute blk (write_item i) = built (attributes [i]) blk).
  { destruct i as [n v a b c d|n]; [|apply read_blank]. destruct H as (H1 & H2 & H3). rewrite read_attr by assumption. reflexivity. }
  assert (E : attributes (i :: l) = attributes [i] ++ attributes l) by (unfold attributes; cbn [flat_map]; rewrite app_nil_r; reflexivity).
  rewrite E. unfold built. rewrite fold_left_app. fold (built (attributes [i]) blk).
  destruct (nonempty (write_item i)) eqn:Q.
  - cbn [fold_left]. rewrite R. apply IH. intros j J. apply G. right. exact J.
  - rewrite IH by (intros j J; apply G; right; exact J). f_equal. destruct i as [n v a b c d|n]; [|reflexivity]. exfalso. cbn [write_item] in Q.
    destruct H as (_ & H & _). destruct v as [|x v]; [congruence|]. destruct (spaces a ++ n ++ spaces b ++ L ":" ++ spaces c ++ (x :: v) ++ spaces d) eqn:E0; [|discriminate Q].
    apply app_eq_nil in E0. destruct E0 as [_ E0]. apply app_eq_nil in E0. destruct E0 as [_ E0]. apply app_eq_nil in E0. destruct E0 as [_ E0]. discriminate E0.
Qed.
Lemma read_block : forall l, (forall i, In i l -> good_item i) -> write_items l <> [] -> parse_block (write_items l) = Ok (built (attributes l) []).
Proof.
  intros l G N. unfold parse_block. destruct (write_items l) as [|c r] eqn:E; [congruence|]. cbn [nonempty passert bind]. rewrite <- E.
  rewrite split_items by (try (intros ->; discriminate E); exact G). rewrite read_items by exact G. reflexivity.
Qed.
(* ---- the selectors of a rule ---- *)
Lemma selector_text : forall s, good_selector s -> write_selector s <> [] /\ ~ In " "%char (write_selector s) /\ ~ In "{"%char (write_selector s).
Proof.
  assert (W : forall c cs n, forallb (fun d => negb (Ascii.eqb c d)) cs = true -> of_chars cs n -> ~ In c n).
  { intros c cs n F [_ H] J. apply H in J. rewrite forallb_forall in F. specialize (F c J). rewrite Ascii.eqb_refl in F. discriminate F. }
  intros [e n v d] (He & Hnv & Hd). cbn [s_element s_name s_value s_data] in *. split.
  { destruct He as [Ne _]. destruct e; [congruence|discriminate]. }
  change (write_selector (mksel e n v d)) with (e ++ attr_part n v ++ data_text d).
  assert (T : forall c, In c [" "%char; "{"%char] -> ~ In c (e ++ attr_part n v ++ data_text d)).
  { intros c Hc. rewrite !in_app_iff. intros [J|[J|J]].
    - revert J. apply (W c (L "_" ++ letters)); [destruct Hc as [<-|[<-|[]]]; reflexivity|exact He].
    - destruct n as [n|]; destruct v as [v|]; try (destruct J; fail). destruct Hnv as [Hn Hv]. unfold attr_part in J. rewrite !in_app_iff in J. destruct J as [J|[J|[J|[J|J]]]].
      all: try (destruct Hc as [<-|[<-|[]]]; cbn in J; destruct J as [J|[]]; discriminate J).
      all: revert J; apply (W c word); [destruct Hc as [<-|[<-|[]]]; reflexivity|assumption].
    - destruct d as [d|]; [|destruct J]. destruct Hd as [_ Hd]. unfold data_text in J. rewrite !in_app_iff in J. destruct J as [J|[J|J]].
      + destruct Hc as [<-|[<-|[]]]; cbn in J; repeat (destruct J as [J|J]; [discriminate J|]); destruct J.
      + apply (Hd c J). destruct Hc as [<-|[<-|[]]]; cbn; auto.
      + destruct Hc as [<-|[<-|[]]]; cbn in J; destruct J as [J|[]]; discriminate J. }
  split; apply T; cbn; auto.
Qed.
Definition words_of (s : str) : list str := filter nonempty (split_on " "%char s).
Lemma words_space : forall s, words_of (" "%char :: s) = words_of s.
Proof. reflexivity. Qed.
Lemma words_spaces : forall n s, words_of (spaces n ++ s) = words_of s.
Proof. induction n as [|n IH]; intros s; [reflexivity|]. cbn [spaces repeat app]. rewrite words_space. apply IH. Qed.
Lemma words_word : forall w s, w <> [] -> ~ In " "%char w -> match s with [] => True | c :: _ => c = " "%char end -> words_of (w ++ s) = w :: words_of s.
Proof.
  intros w s N H E. unfold words_of. destruct s as [|c s].
  - rewrite app_nil_r, split_none by exact H. destruct w; [congruence|reflexivity].
  - subst c. rewrite split_cons by exact H. cbn [filter]. destruct w; [congruence|]. reflexivity.
Qed.
Definition selectors_text (first : selector) (others : list (nat * selector)) (gap : nat) : str :=
  write_selector first ++ flat_map (fun ns => spaces (S (fst ns)) ++ write_selector (snd ns)) others ++ spaces gap.
Lemma read_selectors : forall others first gap, good_selector first -> (forall n s, In (n, s) others -> good_selector s) ->
  parse_pattern (selectors_text first others gap) = Ok (first :: map snd others).
Proof.
  intros others first gap Hf Ho. unfold parse_pattern. destruct (selector_text first Hf) as (N & _). unfold passert.
  replace (nonempty (selectors_text first others gap)) with true by (unfold selectors_text; destruct (write_selector first); [congruence|reflexivity]). cbn [bind]. f_equal.
  fold (words_of (selectors_text first others gap)). clear N. revert first Hf. induction others as [|[n s] others IH]; intros first Hf.
  - destruct (selector_text first Hf) as (N & B & _). unfold selectors_text. cbn [flat_map app]. rewrite words_word; [|exact N|exact B|destruct gap; [exact I|reflexivity]].
    rewrite <- (app_nil_r (spaces gap)), words_spaces. cbn [words_of split_on filter nonempty flat_map map app]. rewrite read_selector by exact Hf. reflexivity.
  - destruct (selector_text first Hf) as (N & B & _). unfold selectors_text. cbn [flat_map fst snd]. rewrite words_word; [|exact N|exact B|reflexivity].
    rewrite <- !app_assoc. rewrite words_spaces. specialize (IH (fun m t J => Ho m t (or_intror J)) s (Ho n s (or_introl eq_refl))). unfold selectors_text in IH.
    cbn [flat_map]. rewrite read_selector by exact Hf. cbn [app map snd]. f_equal. exact IH.
Qed.
(* ---- a line ---- *)
Lemma selectors_free : forall others first gap, good_selector first -> (forall n s, In (n, s) others -> good_selector s) -> ~ In "{"%char (selectors_text first others gap).
Proof.
  intros others first gap Hf Ho. unfold selectors_text. rewrite !in_app_iff. intros [J|[J|J]].
  - apply (selector_text first Hf). exact J.
  - apply in_flat_map in J. destruct J as ([n s] & J1 & J2). cbn [fst snd] in J2. apply in_app_iff in J2. destruct J2 as [J2|J2]; [apply repeat_spec in J2; discriminate|].
    apply (selector_text s (Ho n s J1)). exact J2.
  - apply repeat_spec in J. discriminate.
Qed.
Lemma selectors_head : forall others first gap, good_selector first -> match selectors_text first others gap with " "%char :: _ => False | _ => True end.
Proof.
  intros others first gap Hf. destruct (selector_text first Hf) as (N & B & _). unfold selectors_text. destruct (write_selector first) as [|c r]; [congruence|]. cbn [app].
  destruct (Ascii.eqb c " ") eqn:E; [apply Ascii.eqb_eq in E; subst c; exfalso; apply B; left; reflexivity|]. destruct c as [[|] [|] [|] [|] [|] [|] [|] [|]]; try exact I. discriminate E.
Qed.
Lemma head_app : forall (s rest : str), s <> [] -> match s with " "%char :: _ => False | _ => True end -> match s ++ rest with " "%char :: _ => False | _ => True end.
Proof. intros [|c s] rest N H; [congruence|exact H]. Qed.
Lemma items_free : forall l, (forall i, In i l -> good_item i) -> ~ In "]"%char (write_items l).
Proof.
  induction l as [|i l IH]; intros G J; [destruct J|]. destruct l as [|j l]; [revert J; cbn [write_items]; apply item_free; apply G; left; reflexivity|].
  change (write_items (i :: j :: l)) with (write_item i ++ L ";" ++ write_items (j :: l)) in J. rewrite !in_app_iff in J. destruct J as [J|[J|J]].
  - revert J. apply item_free. apply G. left. reflexivity.
  - destruct J as [J|[]]; discriminate J.
  - revert J. apply IH. intros x Jx. apply G. right. exact Jx.
Qed.
Lemma run_bol : forall k s g, run XBol k (mkspot true s g) = k (mkspot true s g).
Proof. reflexivity. Qed.
Lemma run_rule : forall w, good_rule w -> exists st, run rule_rx Some (mkspot true (write_rule w) []) = Some st
  /\ group (caps st) "pattern" = Some (selectors_text (first w) (others w) (gap w)) /\ group (caps st) "block" = Some (write_items (items w)).
Proof.
  intros [ind f os gp its tl] (Hf & Ho & Hi & Hn & Ht). cbn [first others items gap tail] in *.
  set (P := selectors_text f os gp). set (B := write_items its).
  assert (E : write_rule (mkwritten ind f os gp its tl) = spaces ind ++ P ++ L "{" ++ B ++ L "}" ++ tl).
  { unfold write_rule, P, selectors_text, B. cbn [indent first others items gap tail]. rewrite <- !app_assoc. reflexivity. }
  rewrite E. exists (mkspot false tl [("block", B); ("pattern", P)]). split; [|split; reflexivity].
  assert (PN : P <> []) by (unfold P, selectors_text; destruct (selector_text f Hf) as (N & _); destruct (write_selector f); [congruence|discriminate]).
  unfold rule_rx. rewrite xcats_cons. rewrite run_bol. rewrite xcats_cons. apply star_sp; [apply head_app; [exact PN|apply selectors_head; exact Hf]|]. rewrite xcats_cons.
  rewrite run_group. apply star_chars; [apply not_one; apply selectors_free; assumption|reflexivity|]. cbn [fresh left caps]. rewrite between_app.
  rewrite xcats_cons. apply (star_sp _ 0 (L "{" ++ B ++ L "}" ++ tl)); [exact I|]. rewrite xcats_cons. apply run_lit. rewrite xcats_cons. rewrite run_group.
  apply star_back; [apply not_one; apply items_free; exact Hi| |].
  - intros a b f' E1 Na. cbn [fresh left caps]. rewrite xcats_one. apply no_lit. destruct a as [|x a]; [congruence|]. cbn in E1. injection E1 as _ E1.
    destruct b as [|y b]; [exact I|]. destruct (Ascii.eqb "}" y) eqn:Q; [|reflexivity]. apply Ascii.eqb_eq in Q. subst y. exfalso. apply Ht. rewrite E1. apply in_app_iff. right. left. reflexivity.
  - cbn [fresh left caps]. rewrite between_app. rewrite xcats_one. apply run_lit. reflexivity.
Qed.
Lemma read_rule : forall path no w, good_rule w -> exists r, parse_rule path no (write_rule w) = Ok (Some r) /\ reads path r (no, w).
Proof.
  intros path no w G. destruct (run_rule w G) as (st & R & G1 & G2). destruct w as [ind f os gp its tl]. destruct G as (Hf & Ho & Hi & Hn & Ht). cbn [first others items gap tail] in *.
  exists (mkrule path no (f :: map snd os) (built (attributes its) [])). split.
  - unfold parse_rule. destruct (write_rule (mkwritten ind f os gp its tl)) as [|c r] eqn:E.
    + exfalso. unfold write_rule in E. cbn [indent first others items gap tail] in E. apply app_eq_nil in E. destruct E as [_ E]. apply app_eq_nil in E. destruct E as [E _]. destruct (selector_text f Hf). contradiction.
    + rewrite (search_first _ _ _ R), G1, G2. rewrite read_selectors by assumption. cbn [bind]. rewrite read_block by assumption. reflexivity.
  - unfold reads. cbn [r_path r_lineno pattern block fst snd first others items]. split; [reflexivity|]. split; [reflexivity|]. split; [reflexivity|]. apply built_holds.
Qed.
Lemma read_plain : forall path no l, no_rule l -> parse_rule path no l = Ok None.
Proof.
  intros path no l H. unfold parse_rule. destruct l as [|c l']; [reflexivity|]. set (l := c :: l') in *. clearbody l. destruct (search rule_rx l) as [g|] eqn:E; [|reflexivity]. exfalso.
  apply search_steps in E. destruct E as (f & pre & s' & w & st & E1 & _ & S1 & E2). unfold rule_rx, xcats in S1.
  apply inv_cat in S1. destruct S1 as (w1 & st1 & v1 & -> & _ & S1). apply inv_cat in S1. destruct S1 as (w2 & st2 & v2 & -> & _ & S1). apply inv_cat in S1. destruct S1 as (w3 & st3 & v3 & -> & _ & S1).
  apply inv_cat in S1. destruct S1 as (w4 & st4 & v4 & -> & _ & S1). apply inv_cat in S1. destruct S1 as (w5 & st5 & v5 & -> & S1 & S2). apply inv_lit in S1. destruct S1 as (-> & _).
  apply inv_cat in S2. destruct S2 as (w6 & st6 & v6 & -> & _ & S2). apply inv_lit in S2. destruct S2 as (-> & _).
  apply (H (pre ++ w1 ++ w2 ++ w3 ++ w4) w6 (left st)). rewrite E1, E2. rewrite <- !app_assoc. reflexivity.
Qed.
Lemma read_sheet : forall path l, (forall x, In x l -> good_line x) -> exists rs, load path (map write_line l) = Ok rs /\ Forall2 (reads path) rs (rules_from 1 l).
Proof.
  intros path l. unfold load. change 1%Z with (0 + 1)%Z. generalize 0%Z as no. induction l as [|x l IH]; intros no G; [exists []; split; [reflexivity|constructor]|].
  destruct (IH (no + 1)%Z (fun y J => G y (or_intror J))) as (rs & E & F). cbn [map parse_lines]. destruct x as [w|t].
  - destruct (read_rule path (no + 1) w (G _ (or_introl eq_refl))) as (r & R & Q). cbn [write_line]. rewrite R. cbn [bind]. rewrite E. cbn [bind]. exists (r :: rs). split; [reflexivity|].
    cbn [rules_from]. constructor; assumption.
  - cbn [write_line]. rewrite read_plain by (apply (G (Plain t)); left; reflexivity). cbn [bind]. rewrite E. cbn [bind]. exists rs. split; [reflexivity|]. exact F.
Qed.
(* comments are read as rules, a block without attributes stops everything, and a value with a blank is cut *)
Lemma sheet_refuted : exists path l r l' l'' r'',
  comment l /\ load path [l] = Ok [r] /\ load path [L "board {}"; l'] = Exc AssertionError /\ load path [l'] = Ok []
  /\ l'' = L "field {text: two words}" /\ load path [l''] = Ok [r''] /\ block r'' = [(L "text", L "two")].
Proof.
  exists [], (L "/* board {x: 1} */"), (mkrule [] 1 [mksel (L "board") None None None] [(L "x", L "1")]), (L "a line"), (L "field {text: two words}"),
    (mkrule [] 1 [mksel (L "field") None None None] [(L "text", L "two")]).
  split; [exists (L " board {x: 1} "); reflexivity|]. split; [vm_compute; reflexivity|]. split; [vm_compute; reflexivity|]. split; [vm_compute; reflexivity|].
  split; [reflexivity|]. split; [vm_compute; reflexivity|reflexivity].
Qed.
