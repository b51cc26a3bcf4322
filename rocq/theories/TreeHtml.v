(* Proofs about documents: their HTML *)
From Verif Require Import Py PyFacts HtmlModel HtmlSpec HtmlProofs TreeModel TreeSpec TreeProofs TreeVisit.
Open Scope nat_scope.

Lemma tags_app : forall a ins ts b, tags_from ins a = Some ts -> tags_from ins (a ++ b) = match tags b with Some us => Some (ts ++ us) | None => None end.
Proof.
  induction a as [|c a IH]; intros ins ts b H; cbn [tags_from app] in *.
  - destruct ins; [discriminate|]. injection H as <-. unfold tags. destruct (tags_from None b); reflexivity.
  - destruct ins as [w|].
    + destruct (Ascii.eqb c "<"); [discriminate|]. destruct (Ascii.eqb c ">"); [|apply IH; exact H].
      destruct (tags_from None a) as [us|] eqn:E; [|discriminate]. injection H as <-. rewrite (IH None us b E). destruct (tags b); reflexivity.
    + destruct (Ascii.eqb c "<"); [apply IH; exact H|]. destruct (Ascii.eqb c ">"); [discriminate|apply IH; exact H].
Qed.
Lemma tags_cat : forall a b ta tb, tags a = Some ta -> tags b = Some tb -> tags (a ++ b) = Some (ta ++ tb).
Proof. intros a b ta tb Ha Hb. unfold tags. rewrite (tags_app a None ta b Ha), Hb. reflexivity. Qed.
Lemma plain_cons : forall c s, plain (c :: s) -> Ascii.eqb c "<" = false /\ Ascii.eqb c ">" = false /\ plain s.
Proof.
  intros c s H. destruct (H c (or_introl eq_refl)) as [H1 H2]. split; [apply Ascii.eqb_neq; exact H1|]. split; [apply Ascii.eqb_neq; exact H2|].
  intros x Hx. apply H. right. exact Hx.
Qed.
Lemma plain_app : forall a b, plain a -> plain b -> plain (a ++ b).
Proof. intros a b Ha Hb c H. apply in_app_or in H. destruct H; auto. Qed.
Lemma tags_plain : forall s, plain s -> tags s = Some [].
Proof.
  unfold tags. induction s as [|c s IH]; intro H; [reflexivity|]. destruct (plain_cons _ _ H) as (H1 & H2 & H3). cbn [tags_from]. rewrite H1, H2. apply IH. exact H3.
Qed.
Lemma tags_inside : forall s w, plain s -> tags_from (Some w) (s ++ L ">") = Some [tag_of (rev w ++ s)].
Proof.
  induction s as [|c s IH]; intros w H.
  - cbn. rewrite app_nil_r. reflexivity.
  - destruct (plain_cons _ _ H) as (H1 & H2 & H3). specialize (IH (c :: w) H3). change ((c :: s) ++ L ">") with (c :: (s ++ L ">")). set (t := s ++ L ">") in *. cbn [tags_from]. rewrite H1, H2. refine (eq_trans IH _). cbn [rev]. rewrite <- app_assoc. reflexivity.
Qed.
Lemma tags_tag : forall s, plain s -> tags (L "<" ++ s ++ L ">") = Some [tag_of s].
Proof. intros s H. unfold tags. cbn [L list_ascii_of_string app tags_from Ascii.eqb]. apply (tags_inside s [] H). Qed.
Lemma tags_nl : forall s ts, tags s = Some ts -> tags (s ++ nl) = Some ts.
Proof. intros s ts H. rewrite <- (app_nil_r ts). apply tags_cat; [exact H|reflexivity]. Qed.

(* what closes itself *)
Definition inert (ts : list tag) : Prop := forall st rest, nested st (ts ++ rest) = nested st rest.
Lemma inert_nil : inert [].
Proof. intros st rest. reflexivity. Qed.
Lemma inert_app : forall a b, inert a -> inert b -> inert (a ++ b).
Proof. intros a b Ha Hb st rest. rewrite <- app_assoc, Ha, Hb. reflexivity. Qed.
Lemma inert_alone : forall n, inert [TAlone n].
Proof. intros n st rest. reflexivity. Qed.
Lemma str_eqb_refl : forall s, str_eqb s s = true.
Proof. intro s. apply str_eqb_eq. reflexivity. Qed.
Lemma inert_pair : forall n ts, inert ts -> inert ([TOpen n] ++ ts ++ [TClose n]).
Proof. intros n ts H st rest. rewrite <- !app_assoc. cbn [app nested]. rewrite H. cbn [app nested]. rewrite str_eqb_refl. reflexivity. Qed.
Lemma nested_inert : forall ts st, nested st ts = true -> forall st' rest, nested (st ++ st') (ts ++ rest) = nested st' rest.
Proof.
  induction ts as [|[n|n|n] ts IH]; intros st H st' rest; cbn [nested app] in *.
  - destruct st; [reflexivity|discriminate].
  - apply (IH (n :: st) H).
  - destruct st as [|m st]; [discriminate|]. apply andb_prop in H. destruct H as [H1 H2]. cbn [app]. rewrite H1. apply (IH st H2).
  - apply (IH st H).
Qed.
Lemma balanced_inert : forall s, balanced s = true -> exists ts, tags s = Some ts /\ inert ts.
Proof.
  intros s H. unfold balanced in H. destruct (tags s) as [ts|]; [|discriminate]. exists ts. split; [reflexivity|]. intros st rest. apply (nested_inert ts [] H st rest).
Qed.
Lemma inert_balanced : forall s ts, tags s = Some ts -> inert ts -> balanced s = true.
Proof. intros s ts H I. unfold balanced. rewrite H. rewrite <- (app_nil_r ts). apply (I [] []). Qed.

(* ---- the tag of an element ---- *)
Definition no_space (w : str) : Prop := ~ In " "%char w.
Lemma word_gap : forall w x, no_space w -> word (w ++ " "%char :: x) = w.
Proof.
  induction w as [|c w IH]; intros x H; [reflexivity|]. cbn [app word]. destruct (Ascii.eqb_spec c " ") as [->|n]; [exfalso; apply H; left; reflexivity|].
  f_equal. apply IH. intro F. apply H. right. exact F.
Qed.
Lemma word_all : forall w, no_space w -> word w = w.
Proof.
  induction w as [|c w IH]; intros H; [reflexivity|]. cbn [word]. destruct (Ascii.eqb_spec c " ") as [->|n]; [exfalso; apply H; left; reflexivity|].
  f_equal. apply IH. intro F. apply H. right. exact F.
Qed.
Lemma tag_of_last : forall s c, (forall n, s <> "/"%char :: n) -> s <> [] ->
  tag_of (s ++ [c]) = if Ascii.eqb c "/" then TAlone (word (s ++ [c])) else TOpen (word (s ++ [c])).
Proof.
  intros s c H Hn. destruct s as [|x s]; [contradiction|].
  assert (E : tag_of ((x :: s) ++ [c]) = match rev ((x :: s) ++ [c]) with "/"%char :: _ => TAlone (word ((x :: s) ++ [c])) | _ => TOpen (word ((x :: s) ++ [c])) end).
  { cbn [app tag_of]. destruct x as [[] [] [] [] [] [] [] []]; try reflexivity. exfalso. exact (H s eq_refl). }
  rewrite E, rev_app_distr. cbn [rev app]. destruct c as [[] [] [] [] [] [] [] []]; reflexivity.
Qed.
Lemma attr_shape : forall kv o, attr_string kv = Ok o -> exists x, o = x ++ [quote].
Proof.
  intros [k v] o H. unfold attr_string in H. cbn [fst snd] in H. destruct v as [s| | |]; try discriminate. injection H as <-.
  exists (L k ++ L "=" ++ [quote] ++ escape s). rewrite <- !app_assoc. reflexivity.
Qed.
Lemma plain_escape : forall s, plain (escape s).
Proof. intros s c H. exact (escape_clean s c H). Qed.
Lemma plain_list : forall s, forallb (fun c => negb (Ascii.eqb c "<") && negb (Ascii.eqb c ">")) s = true -> plain s.
Proof.
  intros s H c Hc. rewrite forallb_forall in H. specialize (H c Hc). apply andb_prop in H. destruct H as [H1 H2].
  split; apply Ascii.eqb_neq; [destruct (Ascii.eqb c "<")|destruct (Ascii.eqb c ">")]; (reflexivity || discriminate).
Qed.
Lemma attr_plain : forall k v o, plain (L k) -> attr_string (k, v) = Ok o -> plain o.
Proof.
  intros k v o H E. unfold attr_string in E. cbn [fst snd] in E. destruct v as [s| | |]; try discriminate. injection E as <-.
  apply plain_app; [exact H|]. apply (plain_app (L "=")); [apply plain_list; reflexivity|]. apply (plain_app [quote]); [apply plain_list; reflexivity|].
  apply plain_app; [apply plain_escape|apply plain_list; reflexivity].
Qed.
Lemma join_shape : forall a l, mapM attr_string a = Ok l -> a <> [] -> exists x, join_attrs l = x ++ [quote].
Proof.
  induction a as [|kv a IH]; intros l H Ha; [contradiction|]. cbn [mapM] in H. unfold bind in H.
  destruct (attr_string kv) as [o|] eqn:E; [|discriminate]. destruct (mapM attr_string a) as [r|] eqn:E'; [|discriminate]. injection H as <-.
  destruct (attr_shape _ _ E) as [x ->]. destruct a as [|kv' a].
  - cbn in E'. injection E' as <-. exists x. reflexivity.
  - destruct (IH r eq_refl) as [y Hy]; [discriminate|]. destruct r as [|o' r]; [cbn in Hy; destruct y; discriminate|].
    change (join_attrs ((x ++ [quote]) :: o' :: r)) with ((x ++ [quote]) ++ L " " ++ join_attrs (o' :: r)). rewrite Hy.
    exists ((x ++ [quote]) ++ L " " ++ y). rewrite !app_assoc. reflexivity.
Qed.
Lemma join_plain : forall a l, plain_attrs a -> mapM attr_string a = Ok l -> plain (join_attrs l).
Proof.
  induction a as [|[k v] a IH]; intros l P H; cbn [mapM] in H.
  - injection H as <-. intros c [].
  - unfold bind in H. destruct (attr_string (k, v)) as [o|] eqn:E; [|discriminate]. destruct (mapM attr_string a) as [r|] eqn:E'; [|discriminate]. injection H as <-.
    assert (Po : plain o) by (eapply attr_plain; [|exact E]; apply (P k v); left; reflexivity).
    assert (Pr : plain (join_attrs r)) by (apply (IH r); [intros k' v' H'; apply (P k' v'); right; exact H'|reflexivity]).
    destruct r as [|o' r]; [exact Po|]. change (join_attrs (o :: o' :: r)) with (o ++ L " " ++ join_attrs (o' :: r)).
    apply plain_app; [exact Po|]. apply plain_app; [apply plain_list; reflexivity|exact Pr].
Qed.
Definition element_tag (k : klass) (e : string) : tag := if is_single k then TAlone (L e) else TOpen (L e).
Lemma generic_tag : forall n e o, plain_attrs (attrs n) -> html_element (cls n) = Some e -> generic_open n = Ok o -> tags o = Some [element_tag (cls n) e].
Proof.
  intros n e o P He H. unfold generic_open in H. rewrite He in H.
  destruct (mapM attr_string (attrs n)) as [l|] eqn:E; [|discriminate]. apply (f_equal (fun x => match x with Ok a => a | Exc _ => [] end)) in H. cbv beta iota zeta in H. rewrite <- H. clear H.
  assert (W : no_space (L e) /\ (forall m, L e <> "/"%char :: m) /\ plain (L e) /\ exists w y, L e = w ++ [y] /\ w = removelast (L e) /\ Ascii.eqb y "/" = false).
  { destruct (cls n); cbn in He; inversion He; subst e; (split; [unfold no_space; cbn; intuition discriminate|split; [intros m F; cbn in F; discriminate F|split; [apply plain_list; reflexivity|]]]);
      eexists _, _; (split; [apply (app_removelast_last " "%char); discriminate|split; reflexivity]). }
  destruct W as (W1 & W2 & W3 & w & y & W4 & _ & W6).
  assert (Pj : plain (join_attrs l)) by (apply (join_plain _ _ P E)).
  set (gap := match join_attrs l with [] => [] | _ :: _ => L " " ++ join_attrs l end).
  assert (Pg : plain gap). { unfold gap. destruct (join_attrs l) eqn:Ej; [intros c []|]. apply plain_app; [apply plain_list; reflexivity|exact Pj]. }
  assert (G : gap = [] \/ exists x, gap = " "%char :: x ++ [quote]).
  { destruct (attrs n) as [|kv a] eqn:Ea; [left; cbn in E; injection E as <-; reflexivity|]. right.
    destruct (join_shape _ _ E) as [x Hx]; [discriminate|]. exists x. unfold gap. rewrite Hx. destruct x; reflexivity. }
  unfold element_tag. destruct (is_single (cls n)).
  - replace (L "<" ++ L e ++ gap ++ L " />" ++ nl) with ((L "<" ++ (L e ++ gap ++ L " /") ++ L ">") ++ nl) by (rewrite <- !app_assoc; reflexivity).
    apply tags_nl. rewrite tags_tag; [|apply plain_app; [exact W3|apply plain_app; [exact Pg|apply plain_list; reflexivity]]]. do 2 f_equal.
    replace (L e ++ gap ++ L " /") with ((L e ++ gap ++ L " ") ++ ["/"%char]) by (rewrite <- !app_assoc; reflexivity).
    rewrite tag_of_last.
    + change (Ascii.eqb "/" "/") with true. cbn iota. f_equal. rewrite <- app_assoc. destruct G as [-> |[x ->]]; apply (word_gap (L e)); exact W1.
    + intros m F. destruct (L e) as [|c r]; [destruct w; discriminate|]. cbn in F. injection F as -> _. exact (W2 r eq_refl).
    + destruct (L e); [destruct w; discriminate|discriminate].
  - replace (L "<" ++ L e ++ gap ++ L ">" ++ nl) with ((L "<" ++ (L e ++ gap) ++ L ">") ++ nl) by (rewrite <- !app_assoc; reflexivity).
    apply tags_nl. rewrite tags_tag; [|apply plain_app; assumption]. do 2 f_equal.
    destruct G as [-> |[x ->]].
    + rewrite app_nil_r. destruct w as [|c w].
      * rewrite W4. cbn [app]. cbn in W4. assert (y <> "/"%char) by (intros ->; exact (W2 [] W4)).
        assert (N : no_space [y]) by (rewrite <- W4; exact W1).
        unfold tag_of. rewrite (word_all [y] N). cbn [rev app]. destruct y as [[] [] [] [] [] [] [] []]; try reflexivity; contradiction.
      * rewrite W4. rewrite tag_of_last, W6; [f_equal; rewrite <- W4; apply word_all; exact W1|intros m F; rewrite W4 in W2; cbn in F; injection F as -> ->; exact (W2 _ eq_refl)|discriminate].
    + replace (L e ++ " "%char :: x ++ [quote]) with ((L e ++ " "%char :: x) ++ [quote]) by (rewrite <- app_assoc; reflexivity).
      rewrite tag_of_last.
      * change (Ascii.eqb quote "/") with false. cbn iota. f_equal. rewrite <- app_assoc. apply (word_gap (L e)). exact W1.
      * intros m F. destruct (L e) as [|c r]; [destruct w; discriminate|]. cbn in F. injection F as -> _. exact (W2 r eq_refl).
      * destruct (L e); discriminate.
Qed.
Lemma generic_close_tag : forall n e, html_element (cls n) = Some e -> tags (generic_close n) = Some (if is_single (cls n) then [] else [TClose (L e)]).
Proof. intros n e He. unfold generic_close. rewrite He. destruct (cls n); cbn in He; inversion He; subst e; reflexivity. Qed.

Section Balanced.
Variable order : list string.
Variable rst : str -> res str.
Hypothesis rst_balanced : forall s o, rst s = Ok o -> balanced o = true.
Lemma node_tags : forall n o c, plain_attrs (attrs n) -> (cls n = Text -> plain (text n)) -> open order n = Ok o -> close order rst n = Ok c ->
  exists to tc, tags o = Some to /\ tags c = Some tc /\ forall ts, inert ts -> inert (to ++ ts ++ tc).
Proof.
  intros n o c P T Ho Hc.
  assert (Gen : open order n = generic_open n -> close order rst n = Ok (generic_close n) ->
    exists to tc, tags o = Some to /\ tags c = Some tc /\ forall ts, inert ts -> inert (to ++ ts ++ tc)).
  { intros E1 E2. rewrite E1 in Ho. rewrite E2 in Hc. injection Hc as <-. destruct (html_element (cls n)) as [e|] eqn:He.
    - exists [element_tag (cls n) e], (if is_single (cls n) then [] else [TClose (L e)]). split; [apply generic_tag; assumption|]. split; [apply generic_close_tag; exact He|].
      intros ts I. unfold element_tag. destruct (is_single (cls n)); [|apply inert_pair; exact I]. rewrite app_nil_r. apply inert_app; [apply inert_alone|exact I].
    - unfold generic_open in Ho. rewrite He in Ho. injection Ho as <-. exists [], []. split; [reflexivity|]. unfold generic_close. rewrite He. split; [reflexivity|].
      intros ts I. rewrite app_nil_r. exact I. }
  assert (Pair : forall w, tags o = Some [TOpen w] -> tags c = Some [TClose w] ->
    exists to tc, tags o = Some to /\ tags c = Some tc /\ forall ts, inert ts -> inert (to ++ ts ++ tc)).
  { intros w E1 E2. exists [TOpen w], [TClose w]. split; [exact E1|]. split; [exact E2|]. intros ts I. apply inert_pair. exact I. }
  destruct (klass_eq_dec (cls n) Text) as [Et|nt].
  { unfold open in Ho. unfold close in Hc. rewrite Et in Ho, Hc. injection Ho as <-. injection Hc as <-. exists [], [].
    split; [apply tags_plain; apply T; exact Et|]. split; [reflexivity|]. intros ts I. rewrite app_nil_r. exact I. }
  unfold open in Ho, Gen. unfold close in Hc, Gen. destruct (cls n) eqn:En; try contradiction; try (apply Gen; reflexivity).
  - injection Ho as <-. injection Hc as <-. apply (Pair (L "span")); [reflexivity|]. unfold generic_close. rewrite En. reflexivity.
  - injection Ho as <-. injection Hc as <-. apply (Pair (L "span")); [reflexivity|]. unfold generic_close. rewrite En. reflexivity.
  - injection Hc as <-. assert (Ec : tags (generic_close n) = Some [TClose (L "li")]) by (unfold generic_close; rewrite En; reflexivity).
    destruct (get (attrs n) "style") as [[s| | |]|]; try discriminate.
    + injection Ho as <-. apply (Pair (L "li")); [reflexivity|exact Ec].
    + destruct (sign_class (sign_of (attrs n))) as [w|] eqn:Es; [|discriminate]. injection Ho as <-. apply (Pair (L "li")); [|exact Ec].
      unfold sign_class in Es. destruct (sign_of (attrs n)) as [[s| | |]|]; try discriminate.
      repeat match type of Es with (if ?b then _ else _) = _ => destruct b; [injection Es as <-; reflexivity|] end. discriminate.
  - injection Ho as <-. injection Hc as <-. exists [TOpen (L "blockquote"); TOpen (L "p")], [TClose (L "p"); TClose (L "blockquote")].
    split; [reflexivity|]. split; [reflexivity|]. intros ts I.
    change (inert ([TOpen (L "blockquote")] ++ ([TOpen (L "p")] ++ (ts ++ ([TClose (L "p")] ++ [TClose (L "blockquote")]))))).
    replace ([TOpen (L "p")] ++ (ts ++ ([TClose (L "p")] ++ [TClose (L "blockquote")]))) with (([TOpen (L "p")] ++ ts ++ [TClose (L "p")]) ++ [TClose (L "blockquote")])
      by (rewrite <- !app_assoc; reflexivity).
    apply inert_pair. apply inert_pair. exact I.
  - injection Ho as <-. injection Hc as <-. apply (Pair (L "p")); reflexivity.
  - injection Ho as <-. injection Hc as <-. apply (Pair (L "blockquote")); reflexivity.
  - destruct (list_tag order n) as [[t k]|] eqn:El; [|discriminate]. injection Hc as <-.
    assert (Et : (t = "ul"%string \/ t = "ol"%string) /\ (k = None \/ k = Some "sign"%string \/ k = Some "loweralpha"%string \/ k = Some "lowerroman"%string)).
    { unfold list_tag in El. destruct (design_name order (attrs n)) as [name|]; [|discriminate]. unfold design_tag in El.
      repeat match type of El with (if ?b then _ else _) = _ => destruct b; [injection El as <- <-; auto|] end. discriminate. }
    destruct Et as [[-> | ->] [-> |[-> |[-> | ->]]]]; injection Ho as <-; (apply (Pair (L "ul")); reflexivity) || (apply (Pair (L "ol")); reflexivity).
  - injection Ho as <-. assert (G : balanced c = true).
    { assert (Pre : forall s, balanced (quoted "<pre class=" "wiki" ">" ++ escape s ++ L "</pre>" ++ nl) = true).
      { intro s. apply (inert_balanced _ ([TOpen (L "pre")] ++ [] ++ [TClose (L "pre")])); [|apply (inert_pair (L "pre") []); apply inert_nil].
        apply tags_cat; [reflexivity|]. apply tags_cat; [apply tags_plain; apply plain_escape|reflexivity]. }
      destruct (processor n) as [p|]; [|injection Hc as <-; apply Pre].
      destruct (string_dec p "rst") as [->|np]; [apply (rst_balanced _ _ Hc)|].
      assert (Hc' : Ok (quoted "<pre class=" "wiki" ">" ++ escape (text n) ++ L "</pre>" ++ nl) = Ok c).
      { rewrite <- Hc. destruct p as [|[[] [] [] [] [] [] [] []] p]; try reflexivity. destruct p as [|[[] [] [] [] [] [] [] []] p]; try reflexivity.
        destruct p as [|[[] [] [] [] [] [] [] []] p]; try reflexivity. destruct p; [contradiction|reflexivity]. }
      injection Hc' as <-. apply Pre. }
    destruct (balanced_inert _ G) as (tc & E1 & E2). exists [], tc. split; [reflexivity|]. split; [exact E1|]. intros ts I. exact (inert_app ts tc I E2).
Qed.
Definition clean (ns : list node) : Prop := forall i n, nth_error ns i = Some n -> plain_attrs (attrs n) /\ (cls n = Text -> plain (text n)).
Lemma visit_tags : forall ns, clean ns -> forall f i l ss, accept f ns i = Ok l -> mapM (write1 order rst ns) l = Ok ss -> exists ts, tags (List.concat ss) = Some ts /\ inert ts.
Proof.
  intros ns C. induction f as [|f IH]; intros i l ss H M; [discriminate|]. apply accept_inv in H. destruct H as (n & ls & f' & E & Hn & H & ->). injection E as <-.
  change (VEnter i :: List.concat ls ++ [VLeave i]) with ([VEnter i] ++ List.concat ls ++ [VLeave i]) in M.
  apply mapM_app_ok in M. destruct M as (r1 & r2 & M1 & M2 & ->). apply mapM_app_ok in M2. destruct M2 as (r3 & r4 & M3 & M4 & ->).
  apply mapM_forall2 in M1. inversion M1 as [|? o ? ? O1 O2]; subst. inversion O2; subst.
  apply mapM_forall2 in M4. inversion M4 as [|? c ? ? C1 C2]; subst. inversion C2; subst.
  cbn [write1] in O1, C1. rewrite Hn in O1, C1. destruct (C _ _ Hn) as [P T]. destruct (node_tags n o c P T O1 C1) as (to & tc & E1 & E2 & E3).
  assert (G : exists ts, tags (List.concat r3) = Some ts /\ inert ts).
  { clear - IH H M3. revert r3 M3. induction H as [|c l cs ls H1 H2 IH2]; intros r3 M3.
    - cbn in M3. injection M3 as <-. exists []. split; [reflexivity|apply inert_nil].
    - cbn [List.concat] in M3. apply mapM_app_ok in M3. destruct M3 as (a & b & Ma & Mb & ->). destruct (IH _ _ _ H1 Ma) as (ta & A1 & A2). destruct (IH2 b Mb) as (tb & B1 & B2).
      exists (ta ++ tb). rewrite concat_app. split; [apply tags_cat; assumption|apply inert_app; assumption]. }
  destruct G as (ts & G1 & G2). exists (to ++ ts ++ tc). split; [|apply E3; exact G2].
  rewrite !concat_app. cbn [List.concat]. rewrite !app_nil_r. apply tags_cat; [exact E1|]. apply tags_cat; assumption.
Qed.
End Balanced.

(* ---- what the editor stores ---- *)
Lemma clean_new : clean (nodes new_doc).
Proof. intros [|[|i]] n H; cbn in H; inversion H; subst; split; try discriminate; intros k v []. Qed.
Lemma clean_set : forall ns i n n', clean ns -> nth_error ns i = Some n -> plain_attrs (attrs n') -> (cls n' = Text -> plain (text n')) -> clean (set_node ns i n').
Proof.
  intros ns i n n' C Hn P T j m H. rewrite (set_nth _ _ _ _ _ Hn) in H. destruct (Nat.eqb j i); [injection H as <-; auto|apply (C _ _ H)].
Qed.
Lemma clean_attach : forall ns c n new, clean ns -> nth_error ns c = Some n -> plain_attrs (attrs new) -> (cls new = Text -> plain (text new)) -> clean (attach ns c n new).
Proof.
  intros ns c n new C Hn P T i m H. destruct (attach_inv _ _ _ _ _ _ Hn H) as [[-> ->]|(m0 & Hm & E1 & _ & E3 & E4 & _)]; [auto|].
  rewrite E1, E3, E4. apply (C _ _ Hm).
Qed.
Lemma set_key_plain : forall a k v, plain_attrs a -> plain (L k) -> plain_attrs (set_key a k v).
Proof.
  induction a as [|[k' v'] a IH]; intros k v P Pk; cbn [set_key].
  - intros x y [E|[]]. injection E as <- <-. exact Pk.
  - destruct (String.eqb k' k).
    + intros x y [E|E]; [injection E as <- <-; exact Pk|apply (P x y); right; exact E].
    + intros x y [E|E]; [apply (P x y); left; exact E|]. apply (IH k v) in E; [exact E| |exact Pk]. intros p q H. apply (P p q). right. exact H.
Qed.
Lemma change_clean : forall d o d' r, clean (nodes d) -> plain_op o -> change d o d' r -> clean (nodes d').
Proof.
  intros d o d' r C P H.
  destruct H as [cur r Hcur _|k a x c n e r He Hx Hl Hn Ha Hk|s c n Ho Hc Hn|s c n i m Ho Hc Hn Hl Hi Hm Ht|i c n r Ho Hn|i k v n r Ho Hn|i s n r Ho Hn Hw|i p n r Ho Hn Hw]; cbn [nodes].
  - exact C.
  - apply clean_attach; auto.
    + cbn [created attrs]. assert (Pa : plain_attrs a) by (destruct He as [[-> _]|[-> _]]; exact P). destruct k; try exact Pa. intros u v [].
    + intros _ c0 [].
  - subst o. apply clean_attach; auto. intros u v [].
  - subst o. destruct (C _ _ Hm) as [C1 C2]. eapply clean_set; eauto. intros _. cbn. apply plain_app; [apply C2; exact Ht|exact P].
  - destruct (C _ _ Hn) as [C1 C2]. eapply clean_set; eauto.
  - subst o. destruct (C _ _ Hn) as [C1 C2]. eapply clean_set; eauto. cbn. apply set_key_plain; [exact C1|exact P].
  - destruct (C _ _ Hn) as [C1 C2]. eapply clean_set; eauto. cbn. congruence.
  - destruct (C _ _ Hn) as [C1 C2]. eapply clean_set; eauto.
Qed.
Lemma edit_clean : forall ops d, wf d -> clean (nodes d) -> Forall plain_op ops -> clean (nodes (edit d ops)).
Proof.
  induction ops as [|o ops IH]; intros d W C P; [exact C|]. inversion P; subst. cbn. apply IH; [apply exec_wf; exact W| |assumption].
  eapply change_clean; [exact C|eassumption|apply exec_change; exact W].
Qed.

(* why rendering fails *)
Lemma mapM_exc : forall (A B : Type) (f : A -> res B) l e, mapM f l = Exc e -> exists x, In x l /\ f x = Exc e.
Proof.
  intros A B f. induction l as [|x l IH]; intros e H; cbn [mapM] in H; [discriminate|]. unfold bind in H.
  destruct (f x) as [y|e'] eqn:E; [|injection H as <-; exists x; split; [left; reflexivity|exact E]].
  destruct (mapM f l) as [r|e'] eqn:E'; [discriminate|]. injection H as <-. destruct (IH e' eq_refl) as (z & Z1 & Z2). exists z. split; [right; exact Z1|exact Z2].
Qed.
Lemma rendering : forall order rst ops, (forall s o, rst s = Ok o -> balanced o = true) -> Forall plain_op ops ->
  let d := edit new_doc ops in
  (exists l, accept (S (fuel d)) (nodes d) root = Ok l /\ in_order (nodes d) root (entered l) /\ NoDup (entered l) /\ forall j, In j (entered l) <-> below (nodes d) root j)
  /\ forall out, render order rst d = Ok out -> balanced out = true.
Proof.
  intros order rst ops R P d. assert (W : wf d) by (apply edit_wf; apply wf_new). split; [apply visit_ok; exact W|].
  intros out H. unfold render in H. destruct (accept (S (fuel d)) (nodes d) root) as [l|] eqn:E; [|discriminate].
  destruct (mapM (write1 order rst (nodes d)) l) as [ss|] eqn:M; [|discriminate]. injection H as <-.
  assert (C : clean (nodes d)) by (apply edit_clean; [apply wf_new|apply clean_new|exact P]).
  destruct (visit_tags order rst R (nodes d) C _ _ _ _ E M) as (ts & T1 & T2). apply (inert_balanced _ ts T1 T2).
Qed.
