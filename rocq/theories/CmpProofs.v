(* The comparison of HTML texts: what it sees of a page *)
From Verif Require Import Py PyFacts Re Rx RxFacts HtmlModel HtmlSpec CmpModel CmpSpec WellSpec WikiWell.
Open Scope string_scope.
Open Scope list_scope.
Open Scope nat_scope.

(* ---- greedy repetition of a class ---- *)
Definition all_in (p : cset) (s : str) : Prop := forall c, In c s -> inset p c = true.
Definition stops (p : cset) (s : str) : Prop := match s with [] => True | c :: _ => inset p c = false end.
Definition loop_of (a : rx) (k : spot -> option spot) : nat -> spot -> option spot :=
  fix loop (n : nat) (st : spot) {struct n} : option spot :=
    match n with
    | 0 => k st
    | S n => match run a (fun st' => if Nat.ltb (List.length (left st')) (List.length (left st)) then loop n st' else None) st with
             | Some x => Some x
             | None => k st
             end
    end.
Lemma run_star : forall a k st, run (XStar a) k st = loop_of a k (List.length (left st)) st.
Proof. reflexivity. Qed.
Lemma loop_chars : forall p k w rest f g n x, all_in p w -> stops p rest -> List.length (w ++ rest) <= n ->
  k (mkspot (match w with [] => f | _ => false end) rest g) = Some x -> loop_of (XChr p) k n (mkspot f (w ++ rest) g) = Some x.
Proof.
  intros p k w. induction w as [|c w IH]; intros rest f g n x A St Ln K.
  - destruct n; cbn [loop_of app]; [exact K|]. cbn [run left caps]. destruct rest as [|c r]; [exact K|]. cbn in St. rewrite St. exact K.
  - destruct n; [cbn in Ln; lia|]. cbn [loop_of app]. cbn [run left caps]. rewrite (A c (or_introl eq_refl)).
    replace (Nat.ltb (List.length (w ++ rest)) (List.length (c :: w ++ rest))) with true by (symmetry; apply Nat.ltb_lt; cbn; lia).
    fold (loop_of (XChr p) k). rewrite (IH rest false g n x); [reflexivity|intros d I; apply A; right; exact I|exact St|cbn in Ln; lia|].
    destruct w; exact K.
Qed.
Lemma star_chars : forall p k w rest f g x, all_in p w -> stops p rest ->
  k (mkspot (match w with [] => f | _ => false end) rest g) = Some x -> run (XStar (XChr p)) k (mkspot f (w ++ rest) g) = Some x.
Proof. intros. rewrite run_star. apply loop_chars; auto. Qed.
Lemma plus_chars : forall p k w rest f g x, w <> [] -> all_in p w -> stops p rest ->
  k (mkspot false rest g) = Some x -> run (xplus (XChr p)) k (mkspot f (w ++ rest) g) = Some x.
Proof.
  intros p k w rest f g x N A St K. destruct w as [|c w]; [congruence|]. unfold xplus. cbn [run left caps app]. rewrite (A c (or_introl eq_refl)).
  apply (star_chars p k w rest false g x); [intros d I; apply A; right; exact I|exact St|]. destruct w; exact K.
Qed.
(* a group *)
Lemma run_group : forall n a k f s g, run (XGroup n a) k (mkspot f s g) = run a (fun st' => k (mkspot (fresh st') (left st') ((n, between s (left st')) :: caps st'))) (mkspot f s g).
Proof. reflexivity. Qed.
Lemma run_chr : forall c k f s g, run (XChr (One c)) k (mkspot f (c :: s) g) = k (mkspot false s g).
Proof. intros. cbn [run left caps inset]. rewrite Ascii.eqb_refl. reflexivity. Qed.
Lemma run_cat : forall a b k st, run (XCat a b) k st = run a (run b k) st.
Proof. reflexivity. Qed.
Lemma group_plus : forall n p k w rest f g x, w <> [] -> all_in p w -> stops p rest ->
  k (mkspot false rest ((n, w) :: g)) = Some x -> run (XGroup n (xplus (XChr p))) k (mkspot f (w ++ rest) g) = Some x.
Proof.
  intros n p k w rest f g x N A St K. rewrite run_group. apply plus_chars; try assumption. cbn [fresh left caps]. rewrite between_app. exact K.
Qed.

(* ---- the classes ---- *)
Lemma chars_in : forall cs p s, forallb (inset p) cs = true -> of_chars cs s -> s <> [] /\ all_in p s.
Proof. intros cs p s F [N H]. split; [exact N|]. intros c I. rewrite forallb_forall in F. apply F. apply H. exact I. Qed.
Lemma name_in : forall s, tag_name s -> s <> [] /\ all_in element_set s.
Proof. intros s H. eapply chars_in; [|exact H]. reflexivity. Qed.
Lemma key_in : forall s, key_name s -> s <> [] /\ all_in attrname_set s.
Proof. intros s H. eapply chars_in; [|exact H]. reflexivity. Qed.
Lemma value_in : forall s, key_value s -> s <> [] /\ all_in attrvalue_set s.
Proof. intros s H. eapply chars_in; [|exact H]. reflexivity. Qed.
Lemma one_false : forall c d, inset (Ranges false [xone c]) d = true -> d = c.
Proof. exact WikiMatch.one_only. Qed.
Lemma bare_in : forall s, bare s -> all_in text_set s.
Proof.
  intros s H c I. specialize (H c I). unfold text_set. cbn [inset existsb xone]. unfold in_range.
  assert (X : forall d, d <> c -> (if chr_leb d c then chr_leb c d else false) = false).
  { intros d N. destruct (chr_leb d c) eqn:E1; [|reflexivity]. destruct (chr_leb c d) eqn:E2; [|reflexivity]. exfalso. apply N. symmetry.
    apply (one_false d c). cbn [inset existsb xone]. unfold in_range. rewrite E1, E2. reflexivity. }
  rewrite !X; [reflexivity| | |]; intro E; subst c; apply H; unfold special; auto.
Qed.

(* ---- one attribute ---- *)
Definition attr_text (kv : str * str) : str := fst kv ++ L "=" ++ ["034"%char] ++ snd kv ++ ["034"%char].
Definition attr_caps (kv : str * str) (g : list (string * str)) : list (string * str) :=
  ("attribute", attr_text kv) :: ("attrvalue", snd kv) :: ("attrname", fst kv) :: g.
Definition good_attr (kv : str * str) : Prop := key_name (fst kv) /\ key_value (snd kv).
Lemma run_attr : forall kv k rest f g x, good_attr kv -> k (mkspot false rest (attr_caps kv g)) = Some x ->
  run ATTRIBUTE k (mkspot f (attr_text kv ++ rest) g) = Some x.
Proof.
  intros [n v] k rest f g x [Hn Hv] K. cbn [fst snd] in *. destruct (key_in _ Hn) as [Nn An]. destruct (value_in _ Hv) as [Nv Av].
  unfold ATTRIBUTE. rewrite run_group. unfold xcats. rewrite run_cat. unfold ATTRNAME.
  replace (attr_text (n, v) ++ rest) with (n ++ "="%char :: "034"%char :: v ++ "034"%char :: rest).
  2:{ unfold attr_text. cbn [fst snd]. rewrite <- !app_assoc. reflexivity. }
  apply group_plus; [exact Nn|exact An|reflexivity|]. rewrite run_cat, run_chr. rewrite run_cat, run_chr. rewrite run_cat. unfold ATTRVALUE.
  apply group_plus; [exact Nv|exact Av|reflexivity|]. rewrite run_chr. cbn [fresh left caps].
  replace (n ++ "="%char :: "034"%char :: v ++ "034"%char :: rest) with (attr_text (n, v) ++ rest).
  2:{ unfold attr_text. cbn [fst snd]. rewrite <- !app_assoc. reflexivity. }
  rewrite between_app. exact K.
Qed.
Lemma no_attr : forall k s f g, stops attrname_set s -> run ATTRIBUTE k (mkspot f s g) = None.
Proof.
  intros k s f g H. unfold ATTRIBUTE. rewrite run_group. unfold xcats. rewrite run_cat. unfold ATTRNAME. rewrite run_group. unfold xplus. rewrite run_cat.
  cbn [run left caps]. destruct s as [|c s]; [reflexivity|]. unfold stops in H. rewrite H. reflexivity.
Qed.

(* ---- the attribute list ---- *)
Fixpoint list_caps (l : list (str * str)) (g : list (string * str)) : list (string * str) :=
  match l with [] => g | kv :: l => list_caps l (attr_caps kv g) end.
(* the attributes without the first blank *)
Fixpoint attrs_text (l : list (str * str)) : str :=
  match l with [] => [] | [kv] => attr_text kv | kv :: l => attr_text kv ++ L " " ++ attrs_text l end.
Lemma attrs_cons : forall kv l, attrs_text (kv :: l) = attr_text kv ++ write_attrs l.
Proof.
  intros kv l. revert kv. induction l as [|kv' l IH]; intros kv; [cbn; rewrite app_nil_r; reflexivity|].
  change (attrs_text (kv :: kv' :: l)) with (attr_text kv ++ L " " ++ attrs_text (kv' :: l)). rewrite IH. reflexivity.
Qed.
Lemma write_head : forall kv l, write_attrs (kv :: l) = " "%char :: attrs_text (kv :: l).
Proof. intros. rewrite attrs_cons. unfold write_attrs. cbn [flat_map]. unfold attr_text. rewrite <- !app_assoc. reflexivity. Qed.
Definition one_attr : rx := XCat ATTRIBUTE (XStar (XChr (One " "))).
Lemma attr_pos : forall kv, 0 < List.length (attr_text kv).
Proof. intros. unfold attr_text. rewrite !app_length. cbn. lia. Qed.
Lemma loop_attrs : forall l k rest f g n x, (forall kv, In kv l -> good_attr kv) -> stops attrname_set rest -> stops (One " ") rest ->
  List.length (attrs_text l ++ rest) <= n -> k (mkspot (match l with [] => f | _ => false end) rest (list_caps l g)) = Some x ->
  loop_of one_attr k n (mkspot f (attrs_text l ++ rest) g) = Some x.
Proof.
  induction l as [|kv l IH]; intros k rest f g n x G S1 S2 Ln K.
  - cbn [attrs_text app list_caps] in *. destruct n; cbn [loop_of]; [exact K|]. unfold one_attr. rewrite run_cat, no_attr by exact S1. exact K.
  - rewrite attrs_cons in *. rewrite <- app_assoc in *. destruct n.
    { rewrite app_length in Ln. pose proof (attr_pos kv). lia. }
    cbn [loop_of]. fold (loop_of one_attr k). unfold one_attr at 1. rewrite run_cat.
    rewrite (run_attr kv _ (write_attrs l ++ rest) f g x); [reflexivity|apply G; left; reflexivity|].
    destruct l as [|kv' l].
    + cbn [write_attrs flat_map app] in *. apply (star_chars (One " ") _ [] rest false); [intros c []|exact S2|]. cbn [left].
      replace (Nat.ltb _ _) with true by (symmetry; apply Nat.ltb_lt; rewrite app_length; pose proof (attr_pos kv); lia).
      change rest with (attrs_text [] ++ rest) at 1. apply IH; [intros y []|exact S1|exact S2|rewrite app_length in Ln; pose proof (attr_pos kv); cbn [attrs_text app]; lia|]. exact K.
    + rewrite write_head in *. cbn [app] in *. change (" "%char :: attrs_text (kv' :: l) ++ rest) with ([" "%char] ++ (attrs_text (kv' :: l) ++ rest)).
      apply star_chars; [intros c [<-|[]]; reflexivity| |].
      { rewrite attrs_cons. assert (N : good_attr kv') by (apply G; right; left; reflexivity). destruct N as [N _]. destruct (key_in _ N) as [N1 N2]. unfold attr_text.
        destruct (fst kv') as [|c r] eqn:E; [congruence|]. cbn [app stops inset]. destruct N as [_ N]. specialize (N c (or_introl eq_refl)). clear N2. destruct (Ascii.eqb " " c) eqn:Q; [|reflexivity].
        apply Ascii.eqb_eq in Q. subst c. cbn in N. repeat (destruct N as [N|N]; [discriminate N|]). destruct N. }
      cbn [left]. rewrite app_length in Ln. cbn [List.length] in Ln.
      replace (Nat.ltb _ _) with true by (symmetry; apply Nat.ltb_lt; rewrite app_length; cbn [List.length]; pose proof (attr_pos kv); rewrite ?app_length; lia).
      apply IH; [intros y I; apply G; right; exact I|exact S1|exact S2|pose proof (attr_pos kv); lia|]. exact K.
Qed.

(* ---- a tag ---- *)
Lemma group_skip : forall n m u g, n <> m -> group ((m, u) :: g) n = group g n.
Proof. intros n m u g H. unfold group. cbn [find fst]. destruct (String.eqb m n) eqn:E; [apply String.eqb_eq in E; congruence|reflexivity]. Qed.
Lemma group_hit : forall n u g, group ((n, u) :: g) n = Some u.
Proof. intros. unfold group. cbn [find fst]. rewrite String.eqb_refl. reflexivity. Qed.
Lemma caps_skip : forall n l g, ~ In n ["attribute"; "attrvalue"; "attrname"] -> group (list_caps l g) n = group g n.
Proof.
  intros n l. induction l as [|kv l IH]; intros g N; [reflexivity|]. cbn [list_caps]. rewrite IH by exact N. unfold attr_caps.
  rewrite !group_skip; [reflexivity| | |]; intros ->; apply N; cbn; auto.
Qed.
Lemma run_tag : forall t rest f, tag_name (tname t) -> (forall k v, In (k, v) (tattrs t) -> key_name k /\ key_value v) ->
  exists g, run TAG_OR_TEXT Some (mkspot f (write_tag t ++ rest) []) = Some (mkspot false rest g)
    /\ group_or g "element" = tname t /\ group_or g "attribute_list" = attrs_text (tattrs t).
Proof.
  intros [n l] rest f Hn Hl. cbn [tname tattrs] in *. destruct (name_in _ Hn) as [Nn An].
  assert (G : forall kv, In kv l -> good_attr kv) by (intros [k v] I; exact (Hl k v I)).
    pose (s := write_tag (mktag n l) ++ rest).
  assert (T : exists g, run TAG Some (mkspot f s []) = Some (mkspot false rest g) /\ group_or g "element" = n /\ group_or g "attribute_list" = attrs_text l).
  2:{ destruct T as (g & T & E). exists g. fold s. change (run TAG_OR_TEXT Some (mkspot f s [])) with (match run TAG Some (mkspot f s []) with Some y => Some y | None => run TEXT Some (mkspot f s []) end). rewrite T. split; [reflexivity|exact E]. }
  unfold TAG. destruct l as [|kv l].
  - exists [("tag", write_tag (mktag n [])); ("element", n)]. split; [|split; reflexivity].
    rewrite run_group. unfold xcats. rewrite run_cat.
    assert (E : s = "<"%char :: n ++ ">"%char :: rest) by (unfold s, write_tag; cbn [tname tattrs write_attrs flat_map app]; rewrite <- !app_assoc; reflexivity).
    replace (mkspot f s []) with (mkspot f ("<"%char :: n ++ ">"%char :: rest) []) by (rewrite <- E; reflexivity). rewrite run_chr, run_cat. unfold ELEMENT. apply group_plus; [exact Nn|exact An|reflexivity|]. rewrite run_cat.
    unfold xopt. cbn [run left caps inset]. replace (Ascii.eqb " " ">") with false by reflexivity. cbn [run left caps inset]. rewrite Ascii.eqb_refl. cbn [fresh left caps].
    unfold s. rewrite between_app. reflexivity.
  - eexists. split; [|split].
    + rewrite run_group. unfold xcats. rewrite run_cat.
      assert (E : s = "<"%char :: n ++ " "%char :: attrs_text (kv :: l) ++ ">"%char :: rest).
      { unfold s, write_tag. cbn [tname tattrs]. rewrite write_head. cbn [app]. rewrite <- !app_assoc. cbn [app]. rewrite <- app_assoc. reflexivity. }
      replace (mkspot f s []) with (mkspot f ("<"%char :: n ++ " "%char :: attrs_text (kv :: l) ++ ">"%char :: rest) []) by (rewrite <- E; reflexivity). rewrite run_chr, run_cat. unfold ELEMENT. apply group_plus; [exact Nn|exact An|reflexivity|]. rewrite run_cat.
      unfold xopt. match goal with |- run (XAlt ?a ?b) ?k ?st = _ => change (run (XAlt a b) k st) with (match run a k st with Some y => Some y | None => run b k st end) end.
      rewrite run_cat, run_chr. unfold ATTRIBUTE_LIST. rewrite run_group. fold one_attr. rewrite run_star.
      erewrite loop_attrs; [reflexivity|exact G|reflexivity|reflexivity|cbn [left]; lia|]. cbn [fresh left caps]. rewrite between_app. rewrite run_chr. cbn [fresh left caps].
      unfold s. rewrite between_app. reflexivity.
    + unfold group_or. rewrite group_skip by discriminate. rewrite group_skip by discriminate. rewrite caps_skip by (cbn; intuition discriminate). rewrite group_hit. reflexivity.
    + unfold group_or. rewrite group_skip by discriminate. rewrite group_hit. reflexivity.
Qed.
(* ---- a text ---- *)
Lemma run_text : forall s rest f, all_in text_set s -> stops text_set rest -> match s ++ rest with "<"%char :: _ => False | _ => True end ->
  exists f' g, run TAG_OR_TEXT Some (mkspot f (s ++ rest) []) = Some (mkspot f' rest g) /\ group_or g "element" = [] /\ group_or g "text" = s.
Proof.
  intros s rest f A St N. exists (match s with [] => f | _ => false end), [("text", s)]. split; [|split; reflexivity].
  unfold TAG_OR_TEXT.
  match goal with |- run (XAlt ?a ?b) ?k ?st = _ => change (run (XAlt a b) k st) with (match run a k st with Some y => Some y | None => run b k st end) end.
  replace (run TAG Some (mkspot f (s ++ rest) [])) with (@None spot).
  2:{ unfold TAG. rewrite run_group. unfold xcats. rewrite run_cat. cbn [run left caps inset]. destruct (s ++ rest) as [|c r]; [reflexivity|].
      destruct (Ascii.eqb "<" c) eqn:E; [|reflexivity]. apply Ascii.eqb_eq in E. subst c. destruct N. }
  unfold TEXT. rewrite run_group. apply star_chars; [exact A|exact St|]. cbn [fresh left caps]. rewrite between_app. reflexivity.
Qed.

(* ---- all attributes of a tag ---- *)
Definition attr_of (d : list (string * str)) : str * str := (group_or d "attrname", group_or d "attrvalue").
Lemma find_attrs : forall l n f, (forall kv, In kv l -> good_attr kv) -> List.length (attrs_text l) < n ->
  map attr_of (finditer n ATTRIBUTE f (attrs_text l)) = l.
Proof.
  induction l as [|kv l IH]; intros n f G Ln.
  - destruct n; [lia|]. cbn [attrs_text finditer]. rewrite no_attr by exact I. reflexivity.
  - destruct n; [lia|]. rewrite attrs_cons in *. cbn [finditer].
    rewrite (run_attr kv Some (write_attrs l) f [] (mkspot false (write_attrs l) (attr_caps kv []))); [|apply G; left; reflexivity|reflexivity].
    cbn [left caps]. rewrite app_length in *. pose proof (attr_pos kv) as P.
    replace (Nat.ltb _ _) with true by (symmetry; apply Nat.ltb_lt; lia). cbn [map]. f_equal; [destruct kv; reflexivity|].
    destruct l as [|kv' l].
    + destruct n; [lia|]. cbn [write_attrs flat_map finditer]. rewrite no_attr by exact I. reflexivity.
    + rewrite write_head in *. destruct n; [lia|]. cbn [finditer]. rewrite no_attr by reflexivity. apply IH; [intros y J; apply G; right; exact J|cbn [List.length] in Ln; lia].
Qed.

Section View.
Variable items : list (str * str) -> list (str * str).
Definition tok (d : list (string * str)) : list token :=
  match group_or d "element" with
  | [] => match group_or d "text" with [] => [] | t => [Text (strip t)] end
  | e => [Element e (dictify_attr items (group_or d "attribute_list"))]
  end.
Definition body (l : list (tag * str)) : str := flat_map (fun ts => write_tag (fst ts) ++ newline :: unbroken (snd ts)) l.
Definition seen (l : list (tag * str)) : list token :=
  flat_map (fun ts => [Element (tname (fst ts)) (items (tattrs (fst ts))); Text (squeezed (snd ts))]) l.
Definition good_tags (l : list (tag * str)) : Prop := forall t s, In (t, s) l ->
    tag_name (tname t) /\ (forall k v, In (k, v) (tattrs t) -> key_name k /\ key_value v) /\ bare s.
Lemma body_head : forall l, match body l with [] => True | c :: _ => c = "<"%char end.
Proof. intros [|[t s] l]; [exact I|reflexivity]. Qed.
Lemma body_stops : forall l, stops text_set (body l).
Proof. intros l. pose proof (body_head l) as H. destruct (body l); [exact I|]. subst a. reflexivity. Qed.
Lemma unbroken_in : forall s, bare s -> all_in text_set (unbroken s).
Proof. intros s H c J. apply (bare_in s H). unfold unbroken in J. apply filter_In in J. tauto. Qed.
Lemma strip_nl : forall s, strip (newline :: s) = strip s.
Proof. reflexivity. Qed.
Lemma find_body : forall l n f, good_tags l -> List.length (body l) < n -> flat_map tok (finditer n TAG_OR_TEXT f (body l)) = seen l.
Proof.
  induction l as [|[t s] l IH]; intros n f G Ln.
  - destruct n; [lia|]. cbn [body flat_map finditer]. destruct (run_text [] [] f) as (f' & g & R & E1 & E2); [intros c []|exact I|exact I|].
    cbn [app] in R. rewrite R. cbn [left caps List.length Nat.ltb Nat.leb flat_map]. unfold tok. rewrite E1, E2. reflexivity.
  - destruct (G t s (or_introl eq_refl)) as (H1 & H2 & H3). destruct n; [lia|].
    change (body ((t, s) :: l)) with ((write_tag t ++ newline :: unbroken s) ++ body l) in *. rewrite <- app_assoc in *. cbn [finditer].
    destruct (run_tag t ((newline :: unbroken s) ++ body l) f H1 H2) as (g & R & E1 & E2). rewrite R. cbn [left caps].
    assert (P : 0 < List.length (write_tag t)) by (unfold write_tag; rewrite app_length; cbn; lia). rewrite app_length in Ln.
    replace (Nat.ltb _ _) with true by (symmetry; apply Nat.ltb_lt; rewrite (app_length (write_tag t)); lia). cbn [flat_map].
    replace (tok g) with [Element (tname t) (items (tattrs t))].
    2:{ unfold tok. rewrite E1. destruct (tname t) as [|c r] eqn:Et; [destruct H1; congruence|]. rewrite E2. unfold dictify_attr. f_equal. f_equal. f_equal. symmetry.
        apply find_attrs; [intros [k v] J; exact (H2 k v J)|lia]. }
    change (seen ((t, s) :: l)) with ([Element (tname t) (items (tattrs t)); Text (squeezed s)] ++ seen l). cbn [app]. f_equal.
    destruct n; [lia|]. cbn [finditer].
    destruct (run_text (newline :: unbroken s) (body l) false) as (f' & g' & R' & E1' & E2'); [intros c [<-|J]; [reflexivity|exact (unbroken_in s H3 c J)]|apply body_stops|exact I|].
    cbn [app] in R', Ln. cbn [app]. rewrite R'. cbn [left caps]. cbn [List.length] in *. rewrite app_length in Ln.
    replace (Nat.ltb _ _) with true by (symmetry; apply Nat.ltb_lt; rewrite app_length; lia). cbn [flat_map].
    unfold tok at 1. rewrite E1', E2'. cbn [app]. f_equal. apply IH; [intros t' s' J; apply G; right; exact J|lia].
Qed.
Definition view (d : page) : list token := match unbroken (fst d) with [] => [] | t => [Text (strip t)] end ++ seen (snd d).
Lemma find_page : forall d, simple d -> flat_map tok (find_all TAG_OR_TEXT (unbroken (fst d) ++ body (snd d))) = view d.
Proof.
  intros [t0 l] [B G]. cbn [fst snd] in *. unfold find_all, view. cbn [fst snd]. destruct (unbroken t0) as [|c r] eqn:E.
  - cbn [app]. apply find_body; [exact G|lia].
  - assert (A : all_in text_set (c :: r)) by (rewrite <- E; apply unbroken_in; exact B).
    cbn [finditer]. destruct (run_text (c :: r) (body l) true) as (f' & g & R & E1 & E2); [exact A|apply body_stops| |].
    { cbn [app]. specialize (A c (or_introl eq_refl)). destruct (Ascii.eqb c "<") eqn:Q; [apply Ascii.eqb_eq in Q; subst c; discriminate A|].
      destruct c as [[|] [|] [|] [|] [|] [|] [|] [|]]; try exact I. discriminate Q. }
    rewrite R. cbn [left caps]. replace (Nat.ltb _ _) with true by (symmetry; apply Nat.ltb_lt; cbn [app List.length]; rewrite ?app_length; lia). cbn [flat_map].
    unfold tok at 1. rewrite E1, E2. cbn [app]. f_equal. apply find_body; [exact G|cbn [app List.length]; rewrite ?app_length; lia].
Qed.
(* ---- normalising a page ---- *)
Definition broken_up (s : str) : str := flat_map (fun c => if Ascii.eqb c ">" then [">"%char; newline] else [c]) s.
Lemma nomalize_app : forall a b, nomalize (a ++ b) = nomalize a ++ nomalize b.
Proof. intros. unfold nomalize. rewrite filter_app, flat_map_app. reflexivity. Qed.
Lemma nomalize_same : forall s, (forall c, In c s -> c <> newline /\ c <> ">"%char) -> nomalize s = s.
Proof.
  induction s as [|c s IH]; intros H; [reflexivity|]. change (c :: s) with ([c] ++ s). rewrite nomalize_app, IH by (intros d J; apply H; right; exact J).
  f_equal. destruct (H c (or_introl eq_refl)) as [H1 H2]. unfold nomalize. cbn [filter].
  destruct (Ascii.eqb c newline) eqn:E; [apply Ascii.eqb_eq in E; congruence|]. cbn [negb flat_map].
  destruct (Ascii.eqb c ">") eqn:E2; [apply Ascii.eqb_eq in E2; congruence|]. reflexivity.
Qed.
Lemma nomalize_bare : forall s, bare s -> nomalize s = unbroken s.
Proof.
  intros s B. replace (nomalize s) with (nomalize (unbroken s)).
  - apply nomalize_same. intros c J. unfold unbroken in J. apply filter_In in J. destruct J as [J N]. split; [intros ->; discriminate N|]. intros ->. apply (B _ J). unfold special. auto.
  - clear B. induction s as [|c s IH]; [reflexivity|]. unfold unbroken. cbn [filter]. change (c :: s) with ([c] ++ s). rewrite nomalize_app. destruct (Ascii.eqb c line_break) eqn:E; cbn [negb].
    + apply Ascii.eqb_eq in E. subst c. exact IH.
    + change (c :: filter (fun c => negb (Ascii.eqb c line_break)) s) with ([c] ++ unbroken s). rewrite nomalize_app, IH. reflexivity.
Qed.
Lemma chars_quiet : forall cs s, of_chars cs s -> forallb (fun c => negb (Ascii.eqb c newline) && negb (Ascii.eqb c ">")) cs = true -> forall c, In c s -> c <> newline /\ c <> ">"%char.
Proof.
  intros cs s [_ H] F c J. rewrite forallb_forall in F. specialize (F c (H c J)). apply andb_true_iff in F. destruct F as [F1 F2].
  split; intros ->; discriminate.
Qed.
Lemma nomalize_tag : forall t, tag_name (tname t) -> (forall k v, In (k, v) (tattrs t) -> key_name k /\ key_value v) -> nomalize (write_tag t) = write_tag t ++ [newline].
Proof.
  intros [n l] H1 H2. cbn [tname tattrs] in *. unfold write_tag. cbn [tname tattrs]. rewrite !nomalize_app.
  rewrite (nomalize_same n) by (eapply chars_quiet; [exact H1|reflexivity]).
  replace (nomalize (write_attrs l)) with (write_attrs l); [rewrite <- !app_assoc; reflexivity|].
  induction l as [|[k v] l IH]; [reflexivity|]. unfold write_attrs. cbn [flat_map fst snd]. rewrite !nomalize_app. fold (write_attrs l).
  destruct (H2 k v (or_introl eq_refl)) as [Hk Hv].
  rewrite (nomalize_same k) by (eapply chars_quiet; [exact Hk|reflexivity]). rewrite (nomalize_same v) by (eapply chars_quiet; [exact Hv|reflexivity]).
  rewrite <- IH by (intros k' v' J; apply H2; right; exact J). reflexivity.
Qed.
Lemma nomalize_page : forall d, simple d -> nomalize (write d) = unbroken (fst d) ++ body (snd d).
Proof.
  intros [t0 l] [B G]. cbn [fst snd] in *. unfold write. cbn [fst snd]. rewrite nomalize_app, nomalize_bare by exact B. f_equal.
  induction l as [|[t s] l IH]; [reflexivity|]. cbn [flat_map fst snd]. destruct (G t s (or_introl eq_refl)) as (H1 & H2 & H3).
  rewrite !nomalize_app, nomalize_tag, nomalize_bare by assumption. rewrite IH by (intros t' s' J; apply G; right; exact J).
  unfold body. cbn [flat_map fst snd]. rewrite <- !app_assoc. reflexivity.
Qed.
Lemma tupdict_page : forall d, simple d -> tupdict items (nomalize (write d)) = view d.
Proof. intros d S. rewrite nomalize_page by exact S. apply find_page. exact S. Qed.
(* ---- equal views ---- *)
Lemma seen_alike : forall l l', seen l = seen l' <->
  Forall2 (fun x y => tname (fst x) = tname (fst y) /\ items (tattrs (fst x)) = items (tattrs (fst y)) /\ squeezed (snd x) = squeezed (snd y)) l l'.
Proof.
  induction l as [|[t s] l IH]; intros [|[t' s'] l']; cbn [seen flat_map app]; split; intro H; try discriminate; try (inversion H; fail).
  - constructor.
  - reflexivity.
  - cbn [fst snd] in H. injection H as E1 E2 E3 E4. constructor; [cbn [fst snd]; auto|]. apply IH. exact E4.
  - inversion H as [|x y xs ys (E1 & E2 & E3) F]; subst. cbn [fst snd] in *. rewrite E1, E2, E3. f_equal. f_equal. apply IH. exact F.
Qed.
Lemma view_alike : forall d d', view d = view d' <-> alike (fun a a' => items a = items a') d d'.
Proof.
  intros [t0 l] [t0' l']. unfold view, alike, squeezed. cbn [fst snd]. rewrite <- seen_alike.
  assert (D : forall l x y, Text x :: y <> seen l) by (intros [|[t s] m] x y; discriminate).
  destruct (unbroken t0) as [|c r]; destruct (unbroken t0') as [|c' r']; cbn [app]; split; intro H.
  - tauto.
  - tauto.
  - exfalso. symmetry in H. exact (D _ _ _ H).
  - exfalso. destruct H as ([H _] & _). specialize (H eq_refl). discriminate.
  - exfalso. exact (D _ _ _ H).
  - exfalso. destruct H as ([_ H] & _). specialize (H eq_refl). discriminate.
  - injection H as H1 H2. split; [split; discriminate|]. split; assumption.
  - destruct H as (_ & -> & ->). reflexivity.
Qed.
End View.

(* ---- the verdict ---- *)
Lemma verdict : forall items changes, finds changes -> forall a b,
  assert_html_equal items changes a b = Ok tt <-> tupdict items (nomalize a) = tupdict items (nomalize b).
Proof.
  intros items changes F a b. unfold assert_html_equal, cmp_tuple. destruct (str_eqb a b) eqn:E.
  - apply str_eqb_eq in E. subst b. tauto.
  - specialize (F (tupdict items (nomalize a)) (tupdict items (nomalize b))). destruct (changes _ _); [tauto|]. split; [discriminate|]. intro H. apply F in H. discriminate.
Qed.
Lemma alike_weaken : forall (R Q : list (str * str) -> list (str * str) -> Prop) d d', (forall a b, R a b -> Q a b) -> alike R d d' -> alike Q d d'.
Proof.
  intros R Q d d' H (A & B & C). split; [exact A|]. split; [exact B|]. induction C as [|x y l l' (E1 & E2 & E3) F IH]; constructor; [|exact IH].
  split; [exact E1|]. split; [apply H; exact E2|exact E3].
Qed.
Lemma compare_pages : forall items changes, lists_dict items -> finds changes -> forall d d', simple d -> simple d' ->
  (assert_html_equal items changes (write d) (write d') = Ok tt -> alike same_dict d d')
  /\ (alike eq d d' -> assert_html_equal items changes (write d) (write d') = Ok tt)
  /\ (settled items -> alike same_dict d d' -> assert_html_equal items changes (write d) (write d') = Ok tt).
Proof.
  intros items changes LD F d d' S S'.
  assert (V : assert_html_equal items changes (write d) (write d') = Ok tt <-> alike (fun a a' => items a = items a') d d').
  { rewrite verdict by exact F. rewrite !tupdict_page by assumption. apply view_alike. }
  split; [|split].
  - intro H. apply V in H. revert H. apply alike_weaken. intros a b E k v. destruct (LD a) as [_ Ha]. destruct (LD b) as [_ Hb]. rewrite <- Ha, <- Hb, E. tauto.
  - intro H. apply V. revert H. apply alike_weaken. intros a b ->. reflexivity.
  - intros St H. apply V. revert H. apply alike_weaken. exact St.
Qed.
Lemma compare_texts : forall items changes, finds changes ->
  (forall a, assert_html_equal items changes a a = Ok tt)
  /\ (forall a b, assert_html_equal items changes a b = assert_html_equal items changes b a)
  /\ (forall a b c, assert_html_equal items changes a b = Ok tt -> assert_html_equal items changes b c = Ok tt -> assert_html_equal items changes a c = Ok tt)
  /\ (forall a b, unbroken a = unbroken b -> assert_html_equal items changes a b = Ok tt).
Proof.
  intros items changes F. split; [|split; [|split]].
  - intros a. apply verdict; [exact F|reflexivity].
  - intros a b. pose proof (verdict items changes F a b) as V. pose proof (verdict items changes F b a) as W.
    assert (B : forall a b, assert_html_equal items changes a b = Ok tt \/ assert_html_equal items changes a b = Exc AssertionError).
    { intros x y. unfold assert_html_equal. destruct (cmp_tuple _ _ _ _); auto. }
    destruct (B a b) as [E|E]; destruct (B b a) as [E'|E']; rewrite E, E'; try reflexivity.
    + apply V in E. symmetry in E. apply W in E. congruence.
    + apply W in E'. symmetry in E'. apply V in E'. congruence.
  - intros a b c H1 H2. apply verdict in H1; [|exact F]. apply verdict in H2; [|exact F]. apply verdict; [exact F|]. congruence.
  - intros a b E. apply verdict; [exact F|]. f_equal. unfold nomalize. unfold unbroken in E. unfold newline, line_break in *. rewrite E. reflexivity.
Qed.
Lemma compare_refuted : forall items changes, finds changes ->
  (exists a b, well_formed a /\ ~ well_formed b /\ assert_html_equal items changes a b = Ok tt)
  /\ (exists a, well_formed a /\ exists b, well_formed b /\ a = L " " ++ b /\ assert_html_equal items changes a b <> Ok tt).
Proof.
  intros items changes F. split.
  - exists (L "<p>R&amp;D</p>"), (L "<p>R&&amp;D</p>"). split; [|split].
    + apply (simple_well "p" (L "R&amp;D")); [reflexivity|]. apply wf_data. apply (data_escape (L "R&D")). apply WikiKeep.lg_list. reflexivity.
    + intro W. apply well_refers in W. destruct (W (L "<p>R") (L "&amp;D</p>") eq_refl) as (t & r & I & E). cbn in I. repeat (destruct I as [<-|I]; [discriminate E|]). destruct I.
    + apply verdict; [exact F|]. vm_compute. reflexivity.
  - exists (L " <p>a</p>"). split.
    + change (L " <p>a</p>") with (L " " ++ L "<p>a</p>"). apply wf_text; [apply data_list; reflexivity|]. apply (simple_well "p" (L "a")); [reflexivity|]. apply wf_data. apply data_list; reflexivity.
    + exists (L "<p>a</p>"). split; [apply (simple_well "p" (L "a")); [reflexivity|]; apply wf_data; apply data_list; reflexivity|]. split; [reflexivity|].
      intro H. apply verdict in H; [|exact F]. apply (f_equal (fun l => match l with Text _ :: _ => true | _ => false end)) in H. vm_compute in H. discriminate H.
Qed.
