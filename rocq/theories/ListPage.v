(* Pages with lists *)
From Verif Require Import Py PyFacts Re Rx RxFacts HtmlModel HtmlSpec HtmlProofs TreeModel TreeSpec TreeProofs TreeVisit TreeHtml TreeText TreeStream TocModel TocSpec TocProofs WikiModel WikiSpec WikiInv WikiMatch WikiWalk WikiText WikiProofs WikiLink CmpProofs AnalysisPage ShowSpec ShowRead ShowMatch ShowProofs ShowPage ShowWhole ListSpec ListMatch.
From Coq Require Import Permutation.
Open Scope string_scope.
Open Scope list_scope.
Open Scope nat_scope.

(* ---- what a bullet says ---- *)
Definition design (b : bullet) : string :=
  match b with Star => "star" | Plus _ | Minus _ => "sign" | Number _ _ => "ordered_numeric" | Letter _ _ => "ordered_alpha" | Roman _ _ => "ordered_roman" end.
Definition the_sign (b : bullet) : option value := match b with Plus _ | Minus _ => Some (VStr (bullet_text b)) | _ => None end.
Lemma get_groupdict : forall g n, In n line_names -> get (groupdict g) n = Some (match group g n with Some s => VStr s | None => VNone end).
Proof.
  intros g n. unfold groupdict. generalize line_names. induction l as [|x l IH]; intros I; [destruct I|]. unfold get. cbn [map find fst]. destruct (String.eqb_spec x n) as [->|N]; [reflexivity|].
  destruct I as [->|I]; [congruence|]. exact (IH I).
Qed.
Lemma text_truthy : forall b, good_bullet b -> truthy (VStr (bullet_text b)) = true.
Proof.
  intros b G. destruct b as [|n|n|c dot|c dot|s dot]; cbn [good_bullet bullet_text] in *; try reflexivity; try (destruct n; [lia|reflexivity]). destruct G as [N _]. destruct s; [congruence|reflexivity].
Qed.
Lemma groups_of : forall i b n, In n (design_names) -> get (groupdict (item_caps i b)) n = Some (if String.eqb n (design b) then VStr (bullet_text b) else VNone).
Proof.
  intros i b n I. rewrite get_groupdict.
  - cbn in I. destruct b; repeat (destruct I as [<-|I]; [reflexivity|]); destruct I.
  - assert (X : forallb (fun n => existsb (String.eqb n) line_names) design_names = true) by (vm_compute; reflexivity). rewrite forallb_forall in X. specialize (X n I). apply existsb_exists in X. destruct X as (y & Iy & E). apply String.eqb_eq in E. subst y. exact Iy.
Qed.
Lemma design_in : forall b, In (design b) design_names.
Proof. intros []; cbn; tauto. Qed.
Lemma sign_groups : forall i b, good_bullet b -> sign_of (groupdict (item_caps i b)) = match b with Plus _ | Minus _ => Some (VStr (bullet_text b)) | _ => Some VNone end.
Proof.
  intros i b G. pose proof (text_truthy b G) as T. unfold sign_of. rewrite !get_groupdict.
  - destruct b; cbn [item_caps bullet_caps group find fst snd String.eqb Ascii.eqb Bool.eqb]; try reflexivity. cbn in T |- *. rewrite T. reflexivity.
  - vm_compute. tauto.
  - vm_compute. tauto.
Qed.
Section Lists.
Variables (order : list string) (wikipath now : str) (urlencode : list (string * str) -> str) (analysis : str -> res (list table)) (rst : str -> res str).
Hypothesis order_designs : Permutation order design_names.
Definition fits (b : bullet) (a : list (string * value)) : Prop := design_name order a = Ok (design b).
Lemma item_fits : forall i b, good_bullet b -> fits b (groupdict (item_caps i b)).
Proof.
  intros i b G. unfold fits. assert (A : forall k, In k order -> In k design_names) by (intros k I; eapply Permutation_in; eassumption).
  assert (Hd : In (design b) order) by (eapply Permutation_in; [symmetry; exact order_designs|apply design_in]). clear order_designs. revert A Hd. generalize order. induction order0 as [|k l IH]; intros A Hd; [destruct Hd|].
  cbn [design_name]. rewrite groups_of by (apply A; left; reflexivity). destruct (String.eqb_spec k (design b)) as [->|N].
  - rewrite text_truthy by exact G. reflexivity.
  - cbn [truthy]. apply IH; [intros x I; apply A; right; exact I|]. destruct Hd as [E|I]; [congruence|exact I].
Qed.
(* ---- the elements that are open ---- *)
Notation attrs_t := (list (string * value)).
Definition base_of (es : list (attrs_t * attrs_t)) : list (klass * attrs_t) := flat_map (fun e => [(Itemize, snd e); (ListEl, fst e)]) es ++ [(Div, [])].
Definition in_lists (ls : list bullet) (es : list (attrs_t * attrs_t)) : Prop := Forall2 (fun b e => fits b (fst e)) ls es.
Lemma base_span : forall es k, is_a k Span = true -> is_acceptable (base_top (base_of es)) k = true.
Proof. intros [|e es] k H; unfold base_of, base_top; cbn [flat_map app]; unfold is_acceptable, is_any; cbn [acceptables existsb]; rewrite H, ?orb_true_r; reflexivity. Qed.
Lemma base_in : forall es k a, In (k, a) (base_of es) -> k = Itemize \/ k = ListEl \/ k = Div.
Proof.
  intros es k a I. unfold base_of in I. apply in_app_or in I. destruct I as [I|[I|[]]]; [|injection I as <- _; auto]. apply in_flat_map in I. destruct I as (e & _ & [I|[I|[]]]); injection I as <- _; auto.
Qed.
Lemma base_marks : forall es k a m, In (k, a) (base_of es) -> is_any k [mark_klass m] = false.
Proof. intros es k a m I. apply base_in in I. destruct I as [->|[->| ->]]; destruct m; reflexivity. Qed.
Lemma base_heads : forall es l, es = [] \/ no_headings l = true -> Forall (heads_fit (base_of es)) l.
Proof.
  intros es l [->|H]; [exact (div_heads l)|]. apply Forall_forall. intros t I m -> Hm. unfold no_headings in H. rewrite forallb_forall in H. specialize (H _ I). cbn in H. rewrite Hm in H. discriminate H.
Qed.
Lemma open_list : forall b a, fits b a -> open order (created ListEl a None) = Ok (list_open b).
Proof. intros b a F. unfold fits in F. unfold open, created, list_tag. cbn [cls attrs]. rewrite F. destruct b; reflexivity. Qed.
Lemma close_list : forall b a, fits b a -> close order rst (mknode ListEl a [] None None []) = Ok (list_close b).
Proof. intros b a F. unfold fits in F. unfold close, list_tag. cbn [cls attrs]. rewrite F. destruct b; reflexivity. Qed.
Lemma close_item : forall a, close order rst (mknode Itemize a [] None None []) = Ok item_close.
Proof. intros a. reflexivity. Qed.
Definition signed (b : bullet) : bool := match b with Plus _ | Minus _ => true | _ => false end.
Definition style (b : bullet) : value := if signed b then VSign else VNone.
Lemma style_is : forall b n, fits b (attrs n) -> get_style order n = Ok (style b).
Proof. intros b n F. unfold fits in F. unfold get_style. rewrite F. destruct b; reflexivity. Qed.
Lemma open_item : forall first i b o, good_bullet b -> item_open first b = Some o -> open order (created Itemize (set_key (groupdict (item_caps i b)) "style" (style first)) None) = Ok o.
Proof.
  intros first i b o G H. unfold open, created. cbn [cls attrs]. rewrite get_set_same.
  assert (X : sign_of (set_key (groupdict (item_caps i b)) "style" (style first)) = sign_of (groupdict (item_caps i b))) by (unfold sign_of; rewrite !get_set_other by discriminate; reflexivity).
  rewrite X, sign_groups by exact G. clear X.
  destruct first as [|m|m|m dm|m dm|m dm]; cbn [style signed item_open] in *; try congruence; destruct b as [|n|n|c dot|c dot|s dot]; try discriminate H; injection H as <-; cbn [good_bullet] in G; destruct n as [|[|[|[|n]]]]; try lia; reflexivity.
Qed.
(* ---- counting, leaving and going on ---- *)
Fixpoint count_lists (st : list (klass * attrs_t)) : nat := match st with [] => 0 | (k, _) :: st => (if is_any k [ListEl] then 1 else 0) + count_lists st end.
Lemma count_path : forall d c st, wf d -> path (nodes d) c st -> forall f, c + 2 <= f -> count_up f (nodes d) (fun n => is_any (cls n) [ListEl]) (Some c) = Ok (count_lists st).
Proof.
  intros d c st W H. induction H as [n Hn K|p q n st Hn Hp Hl K1 K2 K3 K4 H IH]; intros f Lf.
  - destruct (wf_root d W) as (m & Hm & _ & Pm). assert (m = n) by congruence. subst m. destruct f as [|[|f]]; [lia|lia|]. cbn [count_up]. rewrite Hn, Pm, K. reflexivity.
  - destruct f as [|f]; [lia|]. cbn [count_up]. rewrite Hn, Hp, IH by lia. cbn [count_lists]. destruct (is_any (cls n) [ListEl]); reflexivity.
Qed.
Lemma count_base : forall es, count_lists (base_of es) = List.length es.
Proof. induction es as [|e es IH]; [reflexivity|]. unfold base_of in *. cbn [flat_map app count_lists List.length]. rewrite IH. reflexivity. Qed.
Lemma keeps_count : forall d es s pend, keeps order rst d (base_of es) s pend -> m_count [ListEl] d = (d, Ok (List.length es)).
Proof.
  intros d es s pend [B _]. destruct (back_path order rst d _ s pend B) as (c & Hc & P & Lf). unfold m_count, count_nesting. rewrite Hc. rewrite (count_path d c _ (ab_wf _ _ _ _ _ _ B) P) by exact Lf. rewrite count_base. reflexivity.
Qed.
Lemma keeps_current : forall d k a st s pend, keeps order rst d ((k, a) :: st) s pend -> exists n, m_current d = (d, Ok n) /\ cls n = k /\ attrs n = a.
Proof.
  intros d k a st s pend [B _]. destruct (back_path order rst d _ s pend B) as (c & Hc & P & Lf). inversion P as [|p q n st' Hn Hp Hl K1 K2 K3 K4 H' E1 E2]. subst. exists n. unfold m_current. rewrite Hc, Hn. auto.
Qed.
Lemma leave_list : forall d e es b s pend, fits b (fst e) -> keeps order rst d (base_of (e :: es)) s pend -> exists d', m_leave [ListEl] d = (d', Ok tt) /\ keeps order rst d' (base_of es) (s ++ pended pend ++ item_close ++ list_close b) None.
Proof.
  intros d e es b s pend F [B N]. destruct (back_leaves order rst [(Itemize, snd e)] d ListEl (fst e) (base_of es) s pend [ListEl] [item_close; list_close b] B) as (d' & E & Nd & B').
  - intros k a [I|[]]. injection I as <- _. reflexivity.
  - reflexivity.
  - cbn [app mapM fst snd]. rewrite close_item, (close_list b _ F). reflexivity.
  - exists d'. split; [exact E|]. split; [|unfold no_contents; rewrite Nd; exact N]. cbn [List.concat] in B'. rewrite app_nil_r in B'. exact B'.
Qed.
Lemma leave_lists : forall es1 ls1 d es2 s pend, in_lists ls1 es1 -> keeps order rst d (base_of (es1 ++ es2)) s pend ->
  exists d' s' pend', m_each m_leave (repeat [ListEl] (List.length es1)) d = (d', Ok tt) /\ keeps order rst d' (base_of es2) s' pend' /\ s' ++ pended pend' = s ++ pended pend ++ lists_end ls1.
Proof.
  induction es1 as [|e es1 IH]; intros ls1 d es2 s pend F K.
  - inversion F; subst. exists d, s, pend. split; [reflexivity|]. split; [exact K|]. cbn [lists_end flat_map]. rewrite app_nil_r. reflexivity.
  - inversion F as [|b ? ls ? Fb F']; subst. cbn [app] in K. destruct (leave_list d e (es1 ++ es2) b s pend Fb K) as (d1 & E1 & K1). destruct (IH ls d1 es2 _ None F' K1) as (d2 & s2 & pend2 & E2 & K2 & Q). exists d2, s2, pend2.
    split; [cbn [List.length repeat m_each]; unfold andthen; rewrite E1; exact E2|]. split; [exact K2|]. rewrite Q. cbn [pended lists_end flat_map app]. fold (lists_end ls). rewrite <- !app_assoc. reflexivity.
Qed.
Lemma indent_of : forall i b rest, good_bullet b -> calc_indent (repeat " "%char i ++ bullet_text b ++ rest) " " = Some i.
Proof.
  intros i b rest G. induction i as [|i IH]; cbn [repeat app calc_indent]; [|rewrite IH; reflexivity]. pose proof (bullet_head b rest G) as H.
  destruct (bullet_text b ++ rest) as [|c r] eqn:E.
  - exfalso. pose proof (text_truthy b G) as T. destruct (bullet_text b); [discriminate T|discriminate E].
  - cbn [head_is calc_indent] in *. rewrite H. reflexivity.
Qed.
Lemma item_moves : forall i b ls es out ls' d s pend, 1 <= i -> good_bullet b -> in_lists ls es -> item_shown ls i b = Some (out, ls') -> keeps order rst d (base_of es) s pend ->
  exists d' es', handle_itemize order (item_caps i b) (item_start i b) d = (d', Ok tt) /\ in_lists ls' es' /\ keeps order rst d' (base_of es') (s ++ pended pend ++ out) None /\ es' <> [].
Proof.
  intros i b ls es out ls' d s pend Hi G F H K. assert (Ln : List.length ls = List.length es) by (clear -F; induction F; cbn; congruence).
  unfold handle_itemize. unfold item_start at 1. rewrite indent_of by exact G. unfold andthen at 1. rewrite (keeps_count d es s pend K). unfold item_shown in H. rewrite Ln in H. destruct (Nat.eqb_spec i (S (List.length es))) as [->|N].
  - destruct (item_open b b) as [o|] eqn:Eo; [|discriminate H]. injection H as <- <-.
    unfold andthen at 1, unnest. unfold andthen at 1. replace (List.length es - S (List.length es)) with 0 by lia. cbn [repeat m_each]. unfold ret at 1 2. replace (Nat.min (List.length es) (S (List.length es))) with (List.length es) by lia.
    destruct (Nat.eqb_spec (S (List.length es)) (List.length es)) as [X0|_]; [lia|].
    unfold andthen at 1. unfold andthen at 1. unfold nest_more. unfold andthen at 1. cbn [Nat.sub]. rewrite Nat.sub_0_r, Nat.sub_diag. cbn [repeat m_each]. unfold ret at 1 2. rewrite Nat.max_id.
    unfold andthen at 1. unfold m_assert. replace (List.length es + 1) with (S (List.length es)) by lia. rewrite Nat.eqb_refl. unfold ret at 1.
    pose proof (item_fits (S (List.length es)) b G) as Ft.
    destruct (keeps_push order rst ListEl (groupdict (item_caps (S (List.length es)) b)) (list_open b) d (base_of es) s pend) as (d1 & E1 & K1); [destruct es; reflexivity|discriminate..|apply open_list; exact Ft|exact K|].
    rewrite E1. destruct (keeps_current d1 _ _ _ _ _ K1) as (n & En & Cn & An). unfold andthen at 1. rewrite En. unfold andthen at 1. rewrite Cn, (style_is b n) by (rewrite An; exact Ft).
    destruct (keeps_push order rst Itemize (set_key (groupdict (item_caps (S (List.length es)) b)) "style" (style b)) o d1 ((ListEl, groupdict (item_caps (S (List.length es)) b)) :: base_of es) (s ++ pended pend ++ list_open b) None) as (d2 & E2 & K2); [reflexivity|discriminate..|apply open_item; assumption|exact K1|].
    exists d2, ((groupdict (item_caps (S (List.length es)) b), set_key (groupdict (item_caps (S (List.length es)) b)) "style" (style b)) :: es).
    split; [exact E2|]. split; [constructor; [exact Ft|exact F]|]. split; [|discriminate]. cbn [pended app] in K2. rewrite <- !app_assoc in K2. exact K2.
  - destruct (Nat.leb_spec i (List.length es)) as [Le|]; [|discriminate H].
    set (k := List.length es - i) in *. assert (Fs : in_lists (firstn k ls) (firstn k es) /\ in_lists (skipn k ls) (skipn k es)).
    { clearbody k. clear -F. revert k. induction F as [|x y l l' Fx F IH]; intros k; [rewrite !firstn_nil, !skipn_nil; split; constructor|]. destruct k; cbn [firstn skipn]; [split; [constructor|constructor; assumption]|]. destruct (IH k). split; [constructor; assumption|assumption]. }
    destruct Fs as [F1 F2]. rewrite <- (firstn_skipn k es) in K. destruct (leave_lists (firstn k es) (firstn k ls) d (skipn k es) s pend F1 K) as (d1 & s1 & pend1 & E1 & K1 & Q).
    assert (Lk : List.length (firstn k es) = k) by (rewrite firstn_length; lia). rewrite Lk in E1.
    destruct (skipn k ls) as [|first ls2] eqn:El; [discriminate H|]. inversion F2 as [|? e ? es2 Fe F3 X Y]; subst. destruct (item_open first b) as [o|] eqn:Eo; [|discriminate H]. injection H as <- <-. rewrite <- Y in K1.
    unfold andthen at 1. unfold unnest. unfold andthen at 1. fold k. rewrite E1. unfold ret at 1. replace (Nat.min (List.length es) i) with i by lia. rewrite Nat.eqb_refl.
    destruct (keeps_leave order rst Itemize (snd e) item_close d1 ((ListEl, fst e) :: base_of es2) s1 pend1 eq_refl K1) as (d2 & E2 & K2). unfold andthen at 1. rewrite E2.
    destruct (keeps_current d2 _ _ _ _ _ K2) as (n & En & Cn & An). unfold andthen at 1. rewrite En. unfold andthen at 1. rewrite Cn, (style_is first n) by (rewrite An; exact Fe).
    destruct (keeps_push order rst Itemize (set_key (groupdict (item_caps i b)) "style" (style first)) o d2 ((ListEl, fst e) :: base_of es2) (s1 ++ pended pend1 ++ item_close) None) as (d3 & E3 & K3); [reflexivity|discriminate..|apply open_item; assumption|exact K2|].
    exists d3, ((fst e, set_key (groupdict (item_caps i b)) "style" (style first)) :: es2). split; [exact E3|]. split; [constructor; [exact Fe|exact F3]|]. split; [|discriminate].
    cbn [pended app] in K3. rewrite (app_assoc s1 (pended pend1)), Q in K3. rewrite <- !app_assoc in K3. rewrite <- ?app_assoc. exact K3.
Qed.
(* ---- whole pages ---- *)
Definition lists_at (d : doc) (st : list_state) (s : str) : Prop :=
  match st with Some (ls, o, pend) => exists es, in_lists ls es /\ shows order rst (base_of es) d o s pend | None => keeps order rst d [] s None end.
Lemma at_stack : forall d st s, lists_at d st s -> exists stk pend, keeps order rst d stk s pend /\ (forall k a, In (k, a) stk -> k = Itemize \/ k = ListEl \/ k = Div \/ exists m, k = mark_klass m).
Proof.
  intros d st s H. destruct st as [[[ls o] pend]|]; [|exists [], None; split; [exact H|intros k a []]]. destruct H as (es & _ & H). exists (stack (base_of es) o), pend. split; [exact H|].
  intros k a I. unfold stack in I. apply in_app_or in I. destruct I as [I|I]; [|apply base_in in I; tauto]. apply in_map_iff in I. destruct I as (m & E & _). injection E as <- _. eauto.
Qed.
Lemma lists_unwrapped : forall d st s line, lists_at d st s -> parse_line order wikipath now urlencode analysis line d = line_parse order wikipath now urlencode analysis line d.
Proof.
  intros d st s line H. unfold parse_line. destruct (at_stack d st s H) as (stk & pend & [B _] & N). destruct (back_path order rst d stk s pend B) as (c & -> & P & _). inversion P as [n Hn K|p q n st' Hn Hp Hl K1 K2 K3 K4 P' E1 E2]; subst.
  - rewrite Hn, K. reflexivity.
  - rewrite Hn. specialize (N (cls n) (attrs n) (or_introl eq_refl)). destruct (cls n); try reflexivity. destruct N as [N|[N|[N|[m N]]]]; try discriminate N. destruct m; discriminate N.
Qed.
Definition base_closed (ls : list bullet) : list str := flat_map (fun b => [item_close; list_close b]) ls ++ [L "</div>" ++ ShowSpec.nl].
Lemma close_base : forall ls es, in_lists ls es -> mapM (fun ka => close order rst (mknode (fst ka) (snd ka) [] None None [])) (base_of es) = Ok (base_closed ls).
Proof.
  intros ls es F. induction F as [|b e ls es Fb F IH]; [reflexivity|]. unfold base_of in *. cbn [flat_map app mapM fst snd]. rewrite close_item, (close_list b _ Fb). cbn [bind]. rewrite IH. reflexivity.
Qed.
Lemma close_stack : forall ls es o, in_lists ls es -> mapM (fun ka => close order rst (mknode (fst ka) (snd ka) [] None None [])) (stack (base_of es) o) = Ok (map mark_close o ++ base_closed ls).
Proof.
  intros ls es o F. unfold stack. induction o as [|m o IH]; [exact (close_base ls es F)|]. cbn [map app mapM fst snd]. rewrite close_mark. cbn [bind]. rewrite IH. reflexivity.
Qed.
Lemma concat_all : forall ls o, List.concat (map mark_close o ++ base_closed ls) = flat_map mark_close o ++ lists_end ls ++ L "</div>" ++ ShowSpec.nl.
Proof.
  intros ls o. rewrite concat_app, <- flat_map_concat_map. f_equal. unfold base_closed. rewrite concat_app. f_equal. induction ls as [|b ls IH]; [reflexivity|]. cbn [flat_map app List.concat lists_end]. rewrite IH. unfold lists_end. rewrite <- !app_assoc. reflexivity.
Qed.
Lemma base_div : forall es o, exists st1, stack (base_of es) o = st1 ++ [(Div, [])] /\ forall k a, In (k, a) st1 -> is_any k [Div] = false.
Proof.
  intros es o. exists (map (fun m => (mark_klass m, [])) o ++ flat_map (fun e => [(Itemize, snd e); (ListEl, fst e)]) es). split; [unfold stack, base_of; rewrite <- app_assoc; reflexivity|].
  intros k a I. apply in_app_or in I. destruct I as [I|I].
  - apply in_map_iff in I. destruct I as (m & E & _). injection E as <- _. destruct m; reflexivity.
  - apply in_flat_map in I. destruct I as (e & _ & [I|[I|[]]]); injection I as <- _; reflexivity.
Qed.
Lemma lists_empty_line : forall d st s, lists_at d st s -> exists d', line_parse order wikipath now urlencode analysis [] d = (d', Ok tt) /\ lists_at d' None (s ++ all_ended st).
Proof.
  intros d st s H. unfold line_parse, andthen, m_leave, run_op.
  assert (G : exists d', exec d (Leave [Div]) = (d', Ok tt) /\ keeps order rst d' [] (s ++ all_ended st) None).
  { destruct st as [[[ls o] pend]|].
    - destruct H as (es & F & [B N]). destruct (base_div es o) as (st1 & Es & D). pose proof (close_stack ls es o F) as C. rewrite Es in B, C. destruct (back_leaves order rst st1 d Div [] [] s pend [Div] _ B D eq_refl C) as (d' & E & Nd & B').
      exists d'. split; [exact E|]. split; [|unfold no_contents; rewrite Nd; exact N]. cbn [all_ended]. rewrite concat_all in B'. rewrite settled_pended in B'. exact B'.
    - exists d. split; [apply (keeps_same order rst [Div] d [] s None H); [reflexivity|intros k a []]|]. cbn [all_ended]. rewrite app_nil_r. exact H. }
  destruct G as (d' & E & K). rewrite E. cbn [exec]. unfold done. eexists. split; [reflexivity|]. destruct K as [B N]. destruct (back_path order rst d' [] _ None B) as (c & Hc & P & _).
  inversion P as [n Hn Kn|]; subst. unfold goto. assert (X : mkdoc (nodes d') (Some root) = d') by (destruct d'; cbn in *; congruence). rewrite X. split; assumption.
Qed.
(* a line that is not empty begins in a paragraph *)
Lemma begin_line : forall d st s, lists_at d st s -> let '(ls, o, pend) := in_div st in
  exists d0 es, start_on_not_exist Div [] d = (d0, Ok tt) /\ in_lists ls es /\ shows order rst (base_of es) d0 o (s ++ line_begun st) pend.
Proof.
  intros d st s H. destruct st as [[[ls o] pend]|]; cbn [in_div line_begun].
  - destruct H as (es & F & H). exists d, es. split; [|split; [exact F|rewrite app_nil_r; exact H]]. destruct (keeps_some order rst Div d (stack (base_of es) o) s pend H eq_refl) as [p Hp].
    { exists []. destruct (base_div es o) as (st1 & -> & _). apply in_or_app. right. left. reflexivity. }
    unfold start_on_not_exist, andthen. rewrite Hp. reflexivity.
  - destruct (keeps_push order rst Div [] (L "<div>" ++ ShowSpec.nl) d [] s None eq_refl ltac:(discriminate) ltac:(discriminate) ltac:(discriminate) ltac:(discriminate) eq_refl H) as (d0 & E & K).
    exists d0, []. split; [|split; [constructor|exact K]]. unfold start_on_not_exist, andthen. rewrite (keeps_none order rst Div d [] s None H eq_refl); [exact E|intros k a []].
Qed.
Lemma leave_nothing : forall ks d es o s pend, shows order rst (base_of es) d o s pend -> is_any BgRoot ks = false -> is_any Div ks = false -> is_any ListEl ks = false -> is_any Itemize ks = false -> (forall m, is_any (mark_klass m) ks = false) -> m_leave ks d = (d, Ok tt).
Proof.
  intros ks d es o s pend K H1 H2 H3 H4 H5. apply (keeps_same order rst ks d _ s pend K H1). apply stack_any; [intros m _; apply H5|]. intros k a I. apply base_in in I. destruct I as [->|[->| ->]]; assumption.
Qed.
Lemma plain_line : forall l d st s ls o pend out o' pend', lists_at d st s -> good_line l -> l <> [] -> in_div st = (ls, o, pend) -> (ls = [] \/ no_headings l = true) ->
  line_shown wikipath o pend l = Some (out, o', pend') ->
  exists d', line_parse order wikipath now urlencode analysis (line_text l) d = (d', Ok tt) /\ lists_at d' (Some (ls, o', pend')) (s ++ line_begun st ++ out).
Proof.
  intros l d st s ls o pend out o' pend' H G N Ei Hd Hl. pose proof (line_matches l G) as Ms. destruct G as (A & Hh & Nd & O). pose proof (ends_false analysis rst _ Nd) as Ew.
  pose proof (begin_line d st s H) as E0. rewrite Ei in E0. destruct E0 as (d0 & es & E0 & F & K0).
  assert (Hf : Forall (heads_fit (base_of es)) l) by (apply base_heads; destruct Hd as [->|Hd]; [left; inversion F; reflexivity|right; exact Hd]).
  destruct (line_moves order wikipath now urlencode analysis rst (base_of es) (base_span es) (base_marks es) l o pend out o' pend' A Hf Hl d0 _ K0) as (d1 & E1 & K1).
  exists d1. split; [|exists es; split; [exact F|rewrite <- app_assoc in K1; exact K1]].
  destruct (line_text l) as [|c r] eqn:El.
  { exfalso. destruct l as [|t l]; [congruence|]. change (token_text t ++ line_text l = []) in El. apply app_eq_nil in El. destruct A as [A _]. exact (token_some t _ A (proj1 El)). }
  cbn [head_is] in Hh. apply orb_false_iff in Hh. destruct Hh as [H1 H2]. unfold line_parse. rewrite Ew, Ms, H1, H2. unfold andthen at 1. rewrite E0.
  unfold andthen at 1. rewrite (leave_nothing _ d0 es o _ pend K0) by (reflexivity || (intros []; reflexivity)).
  unfold andthen at 1. rewrite (leave_nothing _ d0 es o _ pend K0) by (reflexivity || (intros []; reflexivity)). unfold andthen at 1, ret at 1. unfold andthen at 1. rewrite E1. reflexivity.
Qed.
Lemma item_ends : forall i b t, (forall s, t <> s ++ L "::") -> ends_with "::" (item_start i b ++ t) = false.
Proof.
  intros i b t Nd. apply (ends_false analysis rst). intros s E. unfold item_start in E.
  destruct t as [|c t _] using rev_ind.
  - rewrite app_nil_r, !app_assoc in E. change (s ++ L "::") with (s ++ [":"%char] ++ [":"%char]) in E. rewrite app_assoc in E. apply app_inj_tail in E. destruct E as [_ E]. discriminate E.
  - destruct t as [|c2 t _] using rev_ind.
    + cbn [app] in E. change (s ++ L "::") with (s ++ [":"%char] ++ [":"%char]) in E. rewrite (app_assoc s) in E. apply app_inj_tail in E. destruct E as [E _]. rewrite !app_assoc in E. apply app_inj_tail in E. destruct E as [_ E]. discriminate E.
    + change (s ++ L "::") with (s ++ [":"%char] ++ [":"%char]) in E. rewrite (app_assoc s), !app_assoc in E. apply app_inj_tail in E. destruct E as [E ->]. apply app_inj_tail in E. destruct E as [_ ->]. apply (Nd t). rewrite <- app_assoc. reflexivity.
Qed.
Lemma idle_caps : forall g b, good_bullet b -> m_each (handle_group order wikipath now urlencode analysis g) (bullet_caps b) = m_each (fun _ => ret tt) (bullet_caps b).
Proof.
  intros g b G. pose proof (text_truthy b G) as T. destruct (bullet_text b) as [|c r] eqn:E; [discriminate T|].
  assert (Nb : Ascii.eqb c "!" = false).
  { destruct b as [|n|n|c' dot|c' dot|s dot]; cbn [good_bullet bullet_text] in *.
    - injection E as <- _. reflexivity.
    - destruct n; [lia|]. injection E as <- _. reflexivity.
    - destruct n; [lia|]. injection E as <- _. reflexivity.
    - injection E as <- _. cbn in G. repeat (destruct G as [<-|G]; [reflexivity|]). destruct G.
    - injection E as <- _. cbn in G. repeat (destruct G as [<-|G]; [reflexivity|]). destruct G.
    - destruct G as [N A]. destruct s as [|x s]; [congruence|]. injection E as <- _. specialize (A x (or_introl eq_refl)). destruct A as [<-|[<-|[]]]; reflexivity. }
  destruct b; cbn [bullet_caps]; rewrite E; cbn [m_each]; unfold handle_group; rewrite Nb; cbn [andb]; reflexivity.
Qed.
Lemma each_ret : forall {X} (l : list X) d, m_each (fun _ => ret tt) l d = (d, Ok tt).
Proof. intros X l d. induction l as [|x l IH]; [reflexivity|]. cbn [m_each]. unfold andthen, ret at 1. exact IH. Qed.
Lemma item_line : forall i b l d st s ls pend out1 ls' out2 o' pend', lists_at d st s -> good (Item i b l) -> in_div st = (ls, [], pend) -> item_shown ls i b = Some (out1, ls') -> no_headings l = true ->
  line_shown wikipath [] None l = Some (out2, o', pend') ->
  exists d', line_parse order wikipath now urlencode analysis (written (Item i b l)) d = (d', Ok tt) /\ lists_at d' (Some (ls', o', pend')) (s ++ line_begun st ++ settled pend ++ out1 ++ out2).
Proof.
  intros i b l d st s ls pend out1 ls' out2 o' pend' H (Hi & G & A & Nd & O) Ei Hs Hd Hl. pose proof (item_matches i b l Hi G A Nd O) as Ms.
  pose proof (begin_line d st s H) as E0. rewrite Ei in E0. destruct E0 as (d0 & es & E0 & F & K0).
  destruct (item_moves i b ls es out1 ls' d0 _ pend Hi G F Hs K0) as (d1 & es' & E1 & F1 & K1 & _).
  destruct (line_moves order wikipath now urlencode analysis rst (base_of es') (base_span es') (base_marks es') l [] None out2 o' pend' A (base_heads es' l (or_intror Hd)) Hl d1 _ K1) as (d2 & E2 & K2).
  exists d2. split; [|exists es'; split; [exact F1|rewrite settled_pended, <- !app_assoc in K2; exact K2]].
  assert (Ew : written (Item i b l) = item_start i b ++ line_text l) by (cbn [written]; unfold item_start; rewrite <- !app_assoc; reflexivity).
  rewrite Ew in *. pose proof (item_ends i b (line_text l) Nd) as En. destruct i as [|i]; [lia|].
  assert (Ec : item_start (S i) b ++ line_text l = " "%char :: item_start i b ++ line_text l) by reflexivity. unfold line_parse. rewrite Ec in Ms, En |- *. rewrite Ms, En.
  unfold andthen at 1. rewrite E0. unfold andthen at 1. cbn [Ascii.eqb Bool.eqb]. unfold ret at 1. unfold andthen at 1. rewrite (leave_nothing _ d0 es [] _ pend K0) by (reflexivity || (intros []; reflexivity)).
  unfold andthen at 1, ret at 1. unfold andthen at 1. cbn [m_each]. unfold andthen at 1. unfold item_caps at 2. cbn [m_each]. unfold andthen at 1.
  change (handle_group order wikipath now urlencode analysis (item_caps (S i) b) ("_pattern_itemize", item_start (S i) b)) with (handle_itemize order (item_caps (S i) b) (item_start (S i) b)). rewrite E1.
  rewrite idle_caps by exact G. rewrite each_ret. rewrite E2. reflexivity.
Qed.
Lemma lists_lines : forall xs d st s out, lists_at d st s -> Forall good xs -> list_page wikipath st xs = Some out ->
  exists d' st' s', m_each (parse_line order wikipath now urlencode analysis) (map written xs) d = (d', Ok tt) /\ lists_at d' st' s' /\ s' ++ all_ended st' = s ++ out.
Proof.
  induction xs as [|x xs IH]; intros d st s out H F P.
  - injection P as <-. exists d, st, s. split; [reflexivity|]. split; [exact H|]. reflexivity.
  - inversion F as [|? ? G F']; subst. cbn [map m_each]. unfold andthen at 1. rewrite (lists_unwrapped d st s _ H). destruct x as [l|i b l].
    + destruct l as [|t l].
      * cbn [list_page] in P. destruct (list_page wikipath None xs) as [out2|] eqn:E2; [|discriminate P]. injection P as <-. destruct (lists_empty_line d st s H) as (d1 & E1 & H1). cbn [written line_text flat_map]. rewrite E1.
        destruct (IH d1 None _ out2 H1 F' E2) as (d' & st' & s' & E & H' & Q). exists d', st', s'. split; [exact E|]. split; [exact H'|]. rewrite Q. rewrite <- app_assoc. reflexivity.
      * cbn [list_page] in P. remember (t :: l) as l1. assert (N : l1 <> []) by (subst; discriminate). clear Heql1 t l.
        destruct (in_div st) as [[ls o] pend] eqn:Est. destruct (match ls with [] => true | _ => no_headings l1 end) eqn:Hd; [|discriminate P].
        destruct (line_shown wikipath o pend l1) as [[[out1 o1] pend1]|] eqn:El; [|discriminate P]. destruct (list_page wikipath (Some (ls, o1, pend1)) xs) as [out2|] eqn:E2; [|discriminate P]. injection P as <-.
        destruct (plain_line l1 d st s ls o pend out1 o1 pend1 H G N Est) as (d1 & E1 & H1); [destruct ls; auto|exact El|]. cbn [written]. rewrite E1.
        destruct (IH d1 (Some (ls, o1, pend1)) _ out2 H1 F' E2) as (d' & st' & s' & E & H' & Q). exists d', st', s'. split; [exact E|]. split; [exact H'|]. rewrite Q. rewrite <- !app_assoc. reflexivity.
    + cbn [list_page] in P. destruct (in_div st) as [[ls [|m o]] pend] eqn:Est; [|discriminate P]. destruct (item_shown ls i b) as [[out1 ls1]|] eqn:Es; [|discriminate P].
      destruct (no_headings l) eqn:Hd; [|discriminate P]. destruct (line_shown wikipath [] None l) as [[[out2 o2] pend2]|] eqn:El; [|discriminate P]. destruct (list_page wikipath (Some (ls1, o2, pend2)) xs) as [out3|] eqn:E3; [|discriminate P]. injection P as <-.
      destruct (item_line i b l d st s ls pend out1 ls1 out2 o2 pend2 H G Est Es Hd El) as (d1 & E1 & H1). rewrite E1.
      destruct (IH d1 (Some (ls1, o2, pend2)) _ out3 H1 F' E3) as (d' & st' & s' & E & H' & Q). exists d', st', s'. split; [exact E|]. split; [exact H'|]. rewrite Q. rewrite <- !app_assoc. reflexivity.
Qed.
Lemma lists_html : forall d st s, lists_at d st s -> make_html order rst d = Ok (s ++ all_ended st).
Proof.
  intros d st s H. assert (G : forall stk pend t, keeps order rst d stk s pend -> mapM (fun ka => close order rst (mknode (fst ka) (snd ka) [] None None [])) stk = Ok t -> make_html order rst d = Ok (s ++ pended pend ++ List.concat t)).
  { intros stk pend t [B N] Ht. pose proof (back_whole order rst d stk s pend t B Ht) as R. rewrite make_html_contents. unfold render_contents. unfold render in R.
    destruct (visit_ok d (ab_wf _ _ _ _ _ _ B)) as (vs & A & _). rewrite A in R |- *.
    rewrite write_plain; [exact R|]. intros i _ (n & Hn & K). unfold no_contents in N. rewrite Forall_forall in N. apply nth_error_In in Hn. exact (N n Hn K). }
  destruct st as [[[ls o] pend]|].
  - destruct H as (es & F & H). rewrite (G _ _ _ H (close_stack ls es o F)). cbn [all_ended]. rewrite concat_all, settled_pended. reflexivity.
  - apply (G _ _ [] H). reflexivity.
Qed.
Lemma bullet_line : forall b, good_bullet b -> one_line (bullet_text b).
Proof.
  intros b G c I. destruct b as [|n|n|x dot|x dot|s dot]; cbn [good_bullet bullet_text] in *.
  - destruct I as [<-|[]]. split; discriminate.
  - apply repeat_spec in I. subst c. split; discriminate.
  - apply repeat_spec in I. subst c. split; discriminate.
  - destruct I as [<-|I]; [cbn in G; repeat (destruct G as [<-|G]; [split; discriminate|]); destruct G|]. destruct dot; [destruct I as [<-|[]]; split; discriminate|destruct I].
  - destruct I as [<-|I]; [cbn in G; repeat (destruct G as [<-|G]; [split; discriminate|]); destruct G|]. destruct dot; [destruct I as [<-|[]]; split; discriminate|destruct I].
  - unfold dotted in I. apply in_app_or in I. destruct I as [I|I]; [destruct G as [_ A]; specialize (A c I); destruct A as [<-|[<-|[]]]; split; discriminate|]. destruct dot; [destruct I as [<-|[]]; split; discriminate|destruct I].
Qed.
Lemma written_line : forall x, good x -> one_line (written x).
Proof.
  intros [l|i b l] G; [apply G|]. destruct G as (_ & Gb & _ & _ & O). cbn [written]. intros c I. apply in_app_or in I. destruct I as [I|I]; [apply repeat_spec in I; subst c; split; discriminate|].
  apply in_app_or in I. destruct I as [I|I]; [exact (bullet_line b Gb c I)|]. destruct I as [<-|I]; [split; discriminate|exact (O c I)].
Qed.
Lemma lists_shown : forall xs out, Forall good xs -> list_page wikipath None xs = Some out -> html order wikipath now urlencode analysis rst (lines_text (map written xs)) = Ok out.
Proof.
  intros xs out F P. unfold html, parse. rewrite splitlines_text.
  - assert (H0 : lists_at new_doc None []) by (split; [apply back_new|constructor; [discriminate|constructor]]).
    destruct (lists_lines xs new_doc None [] out H0 F P) as (d & st & s & E & H & Q). rewrite E. rewrite (lists_html d st s H). rewrite Q. reflexivity.
  - intros s I. apply in_map_iff in I. destruct I as (l & <- & I). rewrite Forall_forall in F. apply written_line. apply F. exact I.
Qed.
End Lists.
Lemma lists_partial : forall order wikipath now urlencode analysis rst, Permutation order design_names -> forall xs out, Forall good xs -> list_page wikipath None xs = Some out ->
  html order wikipath now urlencode analysis rst (lines_text (map written xs)) = Ok out.
Proof. intros order wikipath now urlencode analysis rst P xs out F H. apply lists_shown; assumption. Qed.
(* items that are indented by more than one at once *)
Lemma over_indented : exists out before after, html design_names [] [] (fun _ => []) (fun _ => Exc KeyError) (fun s => Ok s) (lines_text [L " * a"; L "   * b"; L "  * c"]) = Ok out
  /\ out = before ++ L "c" ++ after /\ lists_around before = 1.
Proof.
  destruct (html design_names [] [] (fun _ => []) (fun _ => Exc KeyError) (fun s => Ok s) (lines_text [L " * a"; L "   * b"; L "  * c"])) as [out|e] eqn:E; [|vm_compute in E; discriminate E].
  exists out, (firstn 61 out), (skipn 62 out). split; [reflexivity|]. vm_compute in E. injection E as <-. split; vm_compute; reflexivity.
Qed.
