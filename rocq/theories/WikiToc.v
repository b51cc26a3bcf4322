(* Writing documents built from wiki text, with their tables of contents *)
From Verif Require Import Py PyFacts Re Rx RxFacts HtmlModel HtmlSpec HtmlProofs TreeModel TreeSpec TreeProofs TreeVisit TreeHtml TreeText TocModel TocSpec TocProofs WikiModel WikiSpec WikiInv.
From Coq Require Import Permutation.
Open Scope string_scope.
Open Scope list_scope.
Open Scope nat_scope.

(* ---- the tags of a table of contents ---- *)
Definition olist : str := L "ol".
Lemma lines_tags : forall n s t, tags (L s ++ [newline]) = Some [t] -> tags (lines n s) = Some (repeat t n).
Proof.
  intros n s t H. induction n as [|n IH]; [reflexivity|]. cbn [lines repeat]. change (t :: repeat t n) with ([t] ++ repeat t n). rewrite app_assoc. apply tags_cat; assumption.
Qed.
Lemma nested_open : forall n st rest, nested st (repeat (TOpen olist) n ++ rest) = nested (repeat olist n ++ st) rest.
Proof.
  induction n as [|n IH]; intros st rest; [reflexivity|]. cbn [repeat app nested]. rewrite IH. f_equal.
  clear. induction n as [|n IH]; [reflexivity|]. cbn [repeat app]. rewrite IH. reflexivity.
Qed.
Lemma nested_close : forall n st rest, nested (repeat olist n ++ st) (repeat (TClose olist) n ++ rest) = nested st rest.
Proof. induction n as [|n IH]; intros st rest; [reflexivity|]. cbn [repeat app nested]. rewrite str_eqb_refl. cbn [andb]. apply IH. Qed.
Lemma repeat_more : forall (X : Type) (x : X) a b, repeat x a ++ repeat x b = repeat x (a + b).
Proof. intros. symmetry. apply repeat_app. Qed.
Lemma plain_mark : forall k, plain (L "#" ++ mark k).
Proof.
  intros k c I. apply in_app_or in I. destruct I as [[<-|[]]|I]; [split; discriminate|]. apply mark_chars in I. split; intros ->; discriminate.
Qed.
Lemma link_tags : forall k, tags (L "<li><a href=" ++ [quote] ++ L "#" ++ mark k ++ [quote] ++ L ">" ++ [newline]) = Some [TOpen (L "li"); TOpen (L "a")].
Proof.
  intros k. change (L "<li><a href=" ++ [quote] ++ L "#" ++ mark k ++ [quote] ++ L ">" ++ [newline])
    with (L "<li>" ++ (L "<a href=" ++ [quote] ++ L "#" ++ mark k ++ [quote] ++ L ">" ++ [newline])).
  change [TOpen (L "li"); TOpen (L "a")] with ([TOpen (L "li")] ++ [TOpen (L "a")]). apply tags_cat; [reflexivity|].
  set (x := L "a href=" ++ [quote] ++ (L "#" ++ mark k) ++ [quote]).
  replace (L "<a href=" ++ [quote] ++ L "#" ++ mark k ++ [quote] ++ L ">" ++ [newline]) with ((L "<" ++ x ++ L ">") ++ nl) by (unfold x; rewrite <- !app_assoc; reflexivity).
  apply tags_nl. assert (P : plain x).
  { unfold x. apply plain_app; [apply plain_list; reflexivity|]. apply plain_app; [apply plain_list; reflexivity|]. apply plain_app; [apply plain_mark|apply plain_list; reflexivity]. }
  rewrite (tags_tag x P). f_equal. f_equal. assert (x = (L "a" ++ " "%char :: L "href=" ++ [quote] ++ (L "#" ++ mark k)) ++ [quote]) as Ex by (unfold x; rewrite <- !app_assoc; reflexivity).
  rewrite Ex, tag_of_last; [|intros m F; discriminate F|discriminate]. change (Ascii.eqb quote "/") with false. cbv iota. rewrite <- app_assoc. reflexivity.
Qed.
Lemma labels_tags : forall labels, (forall s, In s labels -> plain s) -> tags (List.concat (map (fun s => s ++ [newline]) labels)) = Some [].
Proof.
  intros labels H. apply tags_plain. intros c I. apply in_concat in I. destruct I as (x & Ix & Ic). apply in_map_iff in Ix. destruct Ix as (s & <- & Is).
  apply in_app_or in Ic. destruct Ic as [Ic|[<-|[]]]; [apply (H s Is c Ic)|split; discriminate].
Qed.
Lemma contents_tags : forall es d k, (forall l labels s, In (l, labels) es -> In s labels -> plain s) ->
  exists ts, tags (contents d k es) = Some ts /\ forall st rest, nested (repeat olist (S d) ++ st) (ts ++ rest) = nested st rest.
Proof.
  induction es as [|[l labels] es IH]; intros d k H.
  - exists (repeat (TClose olist) (S d)). split; [apply lines_tags; reflexivity|]. intros st rest. apply nested_close.
  - destruct (IH l (S k)) as (ts & T1 & T2); [intros l' b s I; apply (H l' b s); right; exact I|]. cbn [contents].
    exists (repeat (TOpen olist) (l - d) ++ repeat (TClose olist) (d - l) ++ [TOpen (L "li"); TOpen (L "a")] ++ [TClose (L "a"); TClose (L "li")] ++ ts). split.
    + apply tags_cat; [apply lines_tags; reflexivity|]. apply tags_cat; [apply lines_tags; reflexivity|].
      replace (L "<li><a href=" ++ [quote] ++ L "#" ++ mark k ++ [quote] ++ L ">" ++ [newline] ++ List.concat (map (fun s => s ++ [newline]) labels) ++ L "</a>" ++ [newline] ++ L "</li>" ++ [newline] ++ contents l (S k) es)
        with ((L "<li><a href=" ++ [quote] ++ L "#" ++ mark k ++ [quote] ++ L ">" ++ [newline]) ++ List.concat (map (fun s => s ++ [newline]) labels) ++ (L "</a>" ++ [newline] ++ L "</li>" ++ [newline]) ++ contents l (S k) es)
        by (rewrite <- !app_assoc; reflexivity).
      apply tags_cat; [apply link_tags|]. apply (tags_cat _ _ []); [apply labels_tags; intros s I; apply (H l labels s); [left; reflexivity|exact I]|].
      apply (tags_cat _ _ [TClose (L "a"); TClose (L "li")] ts); [reflexivity|exact T1].
    + intros st rest. rewrite <- !app_assoc. rewrite nested_open. rewrite app_assoc, repeat_more.
      replace (l - d + S d) with (d - l + S l) by lia. rewrite <- repeat_more, <- app_assoc, nested_close.
      set (u := repeat olist (S l) ++ st). cbn [app nested]. rewrite !str_eqb_refl. cbn [andb]. apply T2.
Qed.
Lemma contents_inert : forall es, (forall l labels s, In (l, labels) es -> In s labels -> plain s) -> exists ts, tags (contents_html es) = Some ts /\ inert ts.
Proof.
  intros es H. destruct (contents_tags es 0 0 H) as (ts & T1 & T2). exists ([TOpen olist] ++ ts). split.
  - unfold contents_html. rewrite app_assoc. apply tags_cat; [reflexivity|exact T1].
  - intros st rest. cbn [app nested]. apply (T2 st rest).
Qed.

(* ---- documents ---- *)
Section Written.
Variables (order : list string) (rst : str -> res str).
Hypothesis HP : Permutation order design_names.
Variables (tc : bool) (md : mode) (nq : care) (ks : string -> Prop) (F : list (nat * (str * option string))) (d : doc).
Hypothesis Hid : ks "id".
Hypothesis J : inv tc md nq ks F d.
Notation fine := (fine tc md nq ks).
Notation ns := (nodes d).

Lemma child_text : forall i n c, nth_error ns i = Some n -> In c (children n) -> no_label ns c \/ exists s, label ns c s.
Proof.
  intros i n c Hn Hc. assert (Lt : c < List.length ns) by apply (wf_children d (i_wf _ _ _ _ _ _ J) _ _ _ Hn Hc).
  destruct (nth_error ns c) as [m|] eqn:Em; [|apply nth_error_None in Em; lia].
  assert (Dec : {cls m = Text} + {cls m = Anchor} + {cls m <> Text /\ cls m <> Anchor}) by (destruct (cls m); first [left; left; reflexivity|left; right; reflexivity|right; split; discriminate]).
  destruct Dec as [[K|K]|[K1 K2]].
  - right. exists (text m). exists m. split; [exact Em|]. left. split; [exact K|]. split; [apply (i_leaf _ _ _ _ _ _ J c m Em K)|reflexivity].
  - right. assert (G : exists ss, Forall2 (own_text ns) (children m) ss).
    { assert (B : forall x, In x (children m) -> x < List.length ns) by (intros x Hx; apply (wf_children d (i_wf _ _ _ _ _ _ J) _ _ _ Em Hx)).
      clear - B. induction (children m) as [|x l IH]; [exists []; constructor|]. destruct IH as [ss Hs]; [intros y Hy; apply B; right; exact Hy|].
      specialize (B x (or_introl eq_refl)). destruct (nth_error ns x) as [q|] eqn:Eq; [|apply nth_error_None in Eq; lia].
      destruct (klass_eq_dec (cls q) Text) as [Kq|Kq]; [exists (text q :: ss)|exists ([] :: ss)]; (constructor; [exists q; split; [exact Eq|]; auto|exact Hs]). }
    destruct G as [ss G]. exists (List.concat ss). exists m. split; [exact Em|]. right. split; [exact K|]. exists ss. auto.
  - left. exists m. auto.
Qed.
Lemma titled_listed : forall i, titled ns i = true -> listed ns i.
Proof.
  intros i H. unfold titled in H. destruct (nth_error ns i) as [n|] eqn:En; [|discriminate]. exists n. split; [exact En|]. split; [|intros c Hc; eapply child_text; eassumption].
  destruct (i_fine _ _ _ _ _ _ J i n En) as (_ & _ & S). unfold style_ok in S. destruct (cls n); try discriminate H; try discriminate; elim S.
Qed.
Lemma entries : forall l, exists es, Forall2 (entry_of ns) (titles ns l) es.
Proof. intros l. apply entries_exist. apply Forall_forall. intros i I. unfold titles in I. apply filter_In in I. apply titled_listed. apply I. Qed.
Lemma own_plain : forall i s, own_text ns i s -> plain s.
Proof.
  intros i s (n & Hn & [[K ->]|[_ ->]]); [|intros c []]. destruct (i_fine _ _ _ _ _ _ J i n Hn) as (_ & P & _). apply P. exact K.
Qed.
Lemma label_plain : forall i s, label ns i s -> plain s.
Proof.
  intros i s (n & Hn & [(K & _ & ->)|(K & ss & G & ->)]).
  - destruct (i_fine _ _ _ _ _ _ J i n Hn) as (_ & P & _). apply P. exact K.
  - intros c I. apply in_concat in I. destruct I as (x & Ix & Ic). assert (P : forall x, In x ss -> plain x).
    { clear - G J. induction G as [|i s l ss H _ IH]; [intros x []|]. intros x [<-|I]; [eapply own_plain; exact H|apply IH; exact I]. }
    apply (P x Ix c Ic).
Qed.
Lemma kept_plain : forall hs es, Forall2 (entry_of ns) hs es -> forall l labels s, In (l, labels) (kept es) -> In s labels -> plain s.
Proof.
  intros hs es G l labels s I Is. unfold kept in I. apply in_map_iff in I. destruct I as (e & Ee & I). injection Ee as _ <-.
  revert I. induction G as [|i e0 hs es (n & Hn & _ & H) _ IH]; [intros []|]. intros [<-|I]; [|apply IH; exact I].
  clear - H Is J. induction H as [|c o cs os H _ IH]; [destruct Is|]. unfold keep in Is. cbn [flat_map] in Is. apply in_app_or in Is. destruct Is as [Is|Is]; [|apply IH; exact Is].
  destruct o as [t|]; [|destruct Is]. destruct Is as [<-|[]]. eapply label_plain. exact H.
Qed.

(* the table of contents, and the nodes before and after it is written *)
Definition order_of (l : list nat) : Prop := in_order ns root l.
Variables (l : list nat) (es : list (nat * list (option str))).
Hypothesis Hl : order_of l.
Hypothesis He : Forall2 (entry_of ns) (titles ns l) es.
Definition table_text : res str := if existsb (fun e => gap (snd e)) es then Exc AttributeError else Ok (contents_html (kept es)).
Notation ns1 := (mark_all 0 (titles ns l) ns).
Lemma titles_nodup : NoDup (titles ns l).
Proof. unfold titles. apply NoDup_filter. destruct (visit_ok d (i_wf _ _ _ _ _ _ J)) as (vs & _ & O & N & _). rewrite (order_det _ _ _ Hl _ O). exact N. Qed.
Lemma table_first : toc_open order rst ns = (ns1, table_text).
Proof. apply (contents_any order rst HP d l es (i_wf _ _ _ _ _ _ J) Hl He). Qed.
Lemma table_next : toc_open order rst ns1 = (ns1, table_text).
Proof.
  pose proof (mark_all_alike (titles ns l) 0 ns) as Al.
  pose proof (contents_any order rst HP (mkdoc ns1 (current d)) l es (mark_all_wf (titles ns l) 0 d (i_wf _ _ _ _ _ _ J)) (alike_order _ _ _ _ Al Hl) (alike_entries_of _ _ _ _ Al He)) as E.
  cbn [nodes] in E. rewrite E. rewrite (alike_titles _ _ _ Al), (mark_all_twice _ _ titles_nodup). reflexivity.
Qed.
(* a node, with its mark or without *)
Definition maybe_marked (n n' : node) : Prop := n' = n \/ exists k, depth (cls n) <> None /\ n' = marked n k.
Lemma titled_in : forall i, In i (titles ns l) -> titled ns i = true.
Proof. intros i I. unfold titles in I. apply filter_In in I. apply I. Qed.
Lemma marked_nodes : forall i, match nth_error ns i with Some n => exists n', nth_error ns1 i = Some n' /\ maybe_marked n n' | None => nth_error ns1 i = None end.
Proof.
  intros i. destruct (nth_error ns i) as [n|] eqn:En; [|apply (alike_none ns); [apply mark_all_alike|exact En]].
  destruct (in_dec Nat.eq_dec i (titles ns l)) as [I|I].
  - destruct (In_nth_error _ _ I) as [j Hj]. exists (marked n (0 + j)). split; [apply (mark_all_nth _ _ _ titles_nodup _ _ _ Hj En)|]. right. exists (0 + j). split; [|reflexivity].
    destruct (titled_listed i (titled_in i I)) as (m & Hm & D & _). congruence.
  - exists n. split; [rewrite mark_all_other by exact I; exact En|left; reflexivity].
Qed.
Lemma maybe_close : forall n n', maybe_marked n n' -> close order rst n' = close order rst n.
Proof. intros n n' [->|(k & D & ->)]; [reflexivity|]. unfold close, generic_close, marked. cbn [cls with_attrs]. destruct (cls n); try reflexivity; elim D; reflexivity. Qed.
Lemma maybe_cls : forall n n', maybe_marked n n' -> cls n' = cls n.
Proof. intros n n' [->|(k & D & ->)]; reflexivity. Qed.
Lemma set_values : forall a v, Forall (value_ok nq ks) a -> value_ok nq ks ("id", v) -> Forall (value_ok nq ks) (set_key a "id" v).
Proof.
  intros a v H V. induction H as [|[k w] a H1 H2 IH]; cbn [set_key]; [repeat constructor; apply V|]. destruct (String.eqb_spec k "id") as [->|]; constructor; auto.
Qed.
Lemma mark_value : forall k, value_ok nq ks ("id", VStr (mark k)).
Proof.
  intros k. split; [|split; [exact Hid|]].
  - split; [discriminate|]. intros c I. cbn in I. repeat (destruct I as [<-|I]; [reflexivity|]). destruct I.
  - exists (mark k). split; [reflexivity|]. intros _ I. apply mark_chars in I. apply key_char_safe in I. destruct I as [_ I]. apply I. reflexivity.
Qed.
Lemma set_marks : forall a k, (forall x v, In (x, v) a -> exists j, (x, v) = ("id", VStr (mark j))) -> forall x v, In (x, v) (set_key a "id" (VStr (mark k))) -> exists j, (x, v) = ("id", VStr (mark j)).
Proof.
  induction a as [|[y w] a IH]; intros k H x v I; cbn [set_key] in I.
  - destruct I as [I|[]]. exists k. congruence.
  - destruct (String.eqb y "id"); (destruct I as [I|I]; [|try (apply (H x v); right; exact I)]).
    + exists k. congruence.
    + apply (H x v). left. exact I.
    + apply (IH k) in I; [exact I|]. intros p q J0. apply (H p q). right. exact J0.
Qed.
Lemma maybe_fine : forall n n', fine n -> maybe_marked n n' -> fine n'.
Proof.
  intros n n' Fn [->|(k & D & ->)]; [exact Fn|]. destruct Fn as (P & T & S). unfold marked. split; [|split; [exact T|]].
  - cbn [attrs with_attrs]. apply set_key_plain; [exact P|]. apply plain_list. reflexivity.
  - unfold style_ok in *. cbn [cls with_attrs attrs]. destruct (cls n); try (elim D; reflexivity); (split; [apply set_values; [apply S|apply mark_value]|]; intros x v I; destruct S as [_ S]; revert I; apply set_marks; exact S).
Qed.

(* what is written for a visit *)
Definition piece (v : visit) (r : res str) : Prop :=
  match v with
  | VEnter i => exists n, nth_error ns i = Some n /\ ((cls n = MacroNode /\ r = table_text) \/ (cls n <> MacroNode /\ exists n', maybe_marked n n' /\ r = open order n'))
  | VLeave i => exists n, nth_error ns i = Some n /\ r = close order rst n
  end.
Definition valid (v : visit) : Prop := exists j n, (v = VEnter j \/ v = VLeave j) /\ nth_error ns j = Some n.
Lemma pieces : forall vs ms, (ms = ns \/ ms = ns1) -> (forall v, In v vs -> valid v) ->
  match snd (write_all order rst vs ms) with
  | Ok s => exists ss, s = List.concat ss /\ Forall2 (fun v s => piece v (Ok s)) vs ss
  | Exc e => exists v, In v vs /\ piece v (Exc e)
  end.
Proof.
  induction vs as [|v vs IH]; intros ms Hms V; [exists []; split; [reflexivity|constructor]|].
  assert (Step : exists ms' r, (ms' = ns \/ ms' = ns1) /\ piece v r /\ write_all order rst (v :: vs) ms
    = match r with Exc e => (ms', Exc e) | Ok s => match write_all order rst vs ms' with (ns', Ok s') => (ns', Ok (s ++ s')) | (ns', Exc e) => (ns', Exc e) end end).
  { destruct (V v (or_introl eq_refl)) as (j & n & Hv & Hn). pose proof (marked_nodes j) as Mk. rewrite Hn in Mk. destruct Mk as (n1 & Hn1 & Mk).
    assert (Hm : exists n', nth_error ms j = Some n' /\ maybe_marked n n') by (destruct Hms as [->| ->]; [exists n; split; [exact Hn|left; reflexivity]|exists n1; auto]).
    destruct Hm as (n' & Hn' & Mk'). pose proof (maybe_cls _ _ Mk') as Kc. destruct Hv as [-> | ->]; cbn [write_all]; rewrite Hn'.
    - destruct (klass_eq_dec (cls n) MacroNode) as [K|K].
      + exists ns1, table_text. split; [right; reflexivity|]. split; [exists n; split; [exact Hn|left; auto]|]. rewrite Kc, K.
        destruct Hms as [->| ->]; [rewrite table_first|rewrite table_next]; destruct table_text; reflexivity.
      + exists ms, (open order n'). split; [exact Hms|]. split; [exists n; split; [exact Hn|right; split; [exact K|eauto]]|].
        rewrite Kc. destruct (cls n); try reflexivity. elim K. reflexivity.
    - exists ms, (close order rst n). split; [exact Hms|]. split; [exists n; auto|]. rewrite (maybe_close _ _ Mk'). reflexivity. }
  destruct Step as (ms' & r & Hms' & Pr & ->). destruct r as [s|e]; [|exists v; split; [left; reflexivity|exact Pr]].
  specialize (IH ms' Hms' (fun x I => V x (or_intror I))). destruct (write_all order rst vs ms') as [q [s'|e]]; cbn [snd] in *.
  - destruct IH as (ss & -> & G). exists (s :: ss). split; [reflexivity|constructor; assumption].
  - destruct IH as (x & I & P). exists x. split; [right; exact I|exact P].
Qed.
Hypothesis rst_balanced : forall s o, rst s = Ok o -> balanced o = true.
Lemma pieces_tags : forall f i vs ss, accept f ns i = Ok vs -> Forall2 (fun v s => piece v (Ok s)) vs ss -> exists ts, tags (List.concat ss) = Some ts /\ inert ts.
Proof.
  induction f as [|f IH]; intros i vs ss H M; [discriminate|]. apply accept_inv in H. destruct H as (n & ls & f' & E & Hn & H & ->). injection E as <-.
  inversion M as [|? o ? r1 O1 M1]; subst. apply Forall2_app_inv_l in M1. destruct M1 as (r3 & r4 & M3 & M4 & ->). inversion M4 as [|? c ? r5 C1 C2]; subst. inversion C2; subst.
  assert (G : exists ts, tags (List.concat r3) = Some ts /\ inert ts).
  { clear - IH H M3. revert r3 M3. induction H as [|c l cs ls H1 H2 IH2]; intros r3 M3.
    - inversion M3; subst. exists []. split; [reflexivity|apply inert_nil].
    - cbn [List.concat] in M3. apply Forall2_app_inv_l in M3. destruct M3 as (a & b & Ma & Mb & ->). destruct (IH _ _ _ H1 Ma) as (ta & A1 & A2). destruct (IH2 b Mb) as (tb & B1 & B2).
      exists (ta ++ tb). rewrite concat_app. split; [apply tags_cat; assumption|apply inert_app; assumption]. }
  destruct G as (ts & G1 & G2).
  assert (T : exists to tc, tags o = Some to /\ tags c = Some tc /\ forall ts, inert ts -> inert (to ++ ts ++ tc)).
  { cbn [piece] in O1, C1. destruct O1 as (n0 & Hn0 & O1). destruct C1 as (n2 & Hn2 & C1). rewrite Hn in Hn0, Hn2. injection Hn0 as <-. injection Hn2 as <-.
    destruct O1 as [[K O1]|(K & n' & Mk & O1)].
    - unfold table_text in O1. destruct (existsb _ es); [discriminate|]. injection O1 as ->. destruct (contents_inert (kept es) (kept_plain _ _ He)) as (to & T1 & T2).
      exists to, []. split; [exact T1|]. split; [unfold close, generic_close in C1; rewrite K in C1; injection C1 as ->; reflexivity|].
      intros ts0 I. rewrite app_nil_r. apply inert_app; assumption.
    - destruct (maybe_fine _ _ (i_fine _ _ _ _ _ _ J i n Hn) Mk) as (P1 & P2 & _). apply (node_tags order rst rst_balanced n' o c P1 P2 (eq_sym O1)). rewrite (maybe_close _ _ Mk). congruence. }
  destruct T as (to & tc0 & E1 & E2 & E3). exists (to ++ ts ++ tc0). split; [|apply E3; exact G2].
  cbn [List.concat]. rewrite concat_app. cbn [List.concat]. rewrite app_nil_r. apply tags_cat; [exact E1|]. apply tags_cat; assumption.
Qed.
End Written.
