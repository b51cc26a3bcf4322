(* Every handler keeps the invariants *)
From Verif Require Import Py PyFacts Re Rx RxFacts HtmlModel HtmlSpec HtmlProofs TreeModel TreeSpec TreeProofs TreeHtml TreeText TocModel TocSpec WikiModel WikiSpec WikiInv WikiMatch.
Open Scope string_scope.
Open Scope list_scope.
Open Scope nat_scope.

Lemma good_key_of : forall k, k <> EmptyString -> forallb key_char (L k) = true -> good_key k.
Proof. intros k N H. split; [exact N|]. rewrite forallb_forall in H. exact H. Qed.
Lemma good_key_plain : forall k, good_key k -> plain (L k).
Proof. intros k [_ H] c I. specialize (H c I). split; intros ->; discriminate. Qed.
Lemma get_set_same : forall a k v, get (set_key a k v) k = Some v.
Proof.
  intros a k v. induction a as [|[k' v'] a IH]; cbn [set_key].
  - unfold get. cbn [find fst]. rewrite String.eqb_refl. reflexivity.
  - destruct (String.eqb k' k) eqn:E; unfold get; cbn [find fst]; [rewrite String.eqb_refl; reflexivity|rewrite E; exact IH].
Qed.
Lemma get_set_other : forall a k v x, x <> k -> get (set_key a k v) x = get a x.
Proof.
  intros a k v x N. induction a as [|[k' v'] a IH]; cbn [set_key].
  - unfold get. cbn [find fst]. destruct (String.eqb_spec k x); [congruence|reflexivity].
  - destruct (String.eqb_spec k' k) as [->|E]; unfold get; cbn [find fst].
    + destruct (String.eqb_spec k x); [congruence|reflexivity].
    + destruct (String.eqb k' x); [reflexivity|exact IH].
Qed.

Ltac each_case i Hi :=
  lazymatch type of Hi with
  | nth_error [] _ = _ => exfalso; destruct i; discriminate Hi
  | _ => destruct i as [|i]; cbn [nth_error] in Hi; [|each_case i Hi]
  end.
Lemma prefixed_head : forall p c q w, L p = c :: L q -> prefixed p w = true -> exists v, w = c :: v.
Proof.
  intros p c q w E H. unfold prefixed in H. rewrite E in H. apply str_eqb_eq in H. destruct w as [|d w]; [discriminate|]. cbn [List.length firstn] in H. injection H as -> _. eauto.
Qed.
Lemma hit_cited : forall name r line pre w f st, hit 26 name r line pre w f st -> exists k, calc_indent w ">" = Some k.
Proof.
  intros name r line pre w f st (Hi & El & Hf & S & _). assert (Er : r = xcats [XBol; xplus (xset [xone ">"%char]); blank]) by (pattern_is Hi). rewrite Er in S. clear Er Hi.
  cbn [xcats] in S. apply inv_cat in S. destruct S as (u & st1 & v & -> & S1 & S2). apply inv_cat in S2. destruct S2 as (a & st2 & b & -> & _ & S3).
  apply inv_chr in S3. destruct S3 as (c & -> & I & _). apply one_only in I. subst c. rewrite app_assoc. induction (u ++ a) as [|c l [k IH]]; cbn [app calc_indent].
  - exists 0. reflexivity.
  - destruct (Ascii.eqb c ">"); [rewrite IH|]; eauto.
Qed.
Lemma inner_nothing : forall a b c d e n s g, In n inner_names -> handle a b c d e n s g = ret tt.
Proof.
  intros a b c d e n s g H. assert (I : inner_names = ["macro_name"; "macro_args"; "url_1"; "disp"; "url_2"; "star"; "sign"; "plus"; "minus"; "ordered_numeric"; "ordered_alpha"; "ordered_roman"; "lt"; "gt"; "amp"; "question"]) by reflexivity.
  rewrite I in H. clear I. cbn [In] in H. repeat (destruct H as [<-|H]; [reflexivity|]). destruct H.
Qed.
Section Walk.
Variable tc : bool.
Notation link := (made tc).
Notation good := (stands tc).
Notation roomy := (roomy tc).
Variable md : mode.
Variable nq : care.
Variable ks : string -> Prop.
Hypothesis Hks : forall k, In k wiki_keys -> ks k.
Variable F : list (nat * (str * option string)).
Variable E : exn -> Prop.
Notation triple := (triple E).
Notation at_ := (at_ tc md nq ks F).
Notation fine := (fine tc md nq ks).
Notation counted := (counted tc md nq ks F).
Variables (design_order : list string) (wikipath now : str) (urlencode : list (string * str) -> str) (analysis : str -> res (list table)).
Hypothesis Hdesign : incl design_order design_names.
Hypothesis Hwiki : quiets nq = true -> quiet wikipath.
Hypothesis Hnow : plain now.
Hypothesis Hnow_whole : wholes nq = true -> references now.
Hypothesis Hurl : forall p, quiets nq = true -> quiet (urlencode p).
Hypothesis Hana : forall p ts t, analysis p = Ok ts -> In t ts -> table_ok t /\ (quiets nq = true -> table_quiet t) /\ (forall r c k v, In r (rows t) -> In c (snd r) -> In (k, v) (cattrs c) -> ks k).
Hypothesis Hana_whole : forall p ts t r c, analysis p = Ok ts -> In t ts -> In r (rows t) -> In c (snd r) -> wholes nq = true -> references (ctext c).

Definition ordinary0 (k : klass) : bool := stands false k && negb (klass_eqb k Itemize) && negb (klass_eqb k Heading).
Definition ordinary (k : klass) : bool := ordinary0 k && match depth k with None => true | _ => false end.
Lemma fine_ordinary : forall k a x, ordinary k = true -> Forall (value_ok nq ks) a -> fine (created k a x).
Proof.
  intros k a x Hk Ha.
  assert (Ea : attrs (created k a x) = match k with Wrapping => [] | _ => a end) by reflexivity.
  assert (P : plain_attrs a) by (intros k' v' I; rewrite Forall_forall in Ha; destruct (Ha _ I) as [G _]; apply good_key_plain; exact G).
  unfold fine, style_ok. destruct k; try discriminate Hk; (split; [exact P|]; split; [discriminate|exact Ha]).
Qed.
Lemma vo : forall k s, k <> EmptyString -> existsb (String.eqb k) wiki_keys = true -> (quiets nq = true -> quiet s) -> value_ok nq ks (k, VStr s).
Proof.
  intros k s H1 H2 H3. apply existsb_exists in H2. destruct H2 as (x & I & Ex). apply String.eqb_eq in Ex. subst x. split; [|split; [apply Hks; exact I|exists s; auto]].
  cbn [fst]. apply good_key_of; [exact H1|]. repeat (destruct I as [<-|I]; [reflexivity|]). destruct I.
Qed.
Lemma ordinary_good : forall k, ordinary k = true -> good k = true.
Proof. intros k H. destruct k; try discriminate H; reflexivity. Qed.
Lemma good_link : forall k p, klass_eqb k Itemize = false -> good p = true -> link k p = true.
Proof.
  intros k p Hk Hp. unfold made. rewrite Hk. destruct p; try discriminate Hp; try reflexivity. cbn [stands] in Hp. rewrite Hp. cbn [andb negb]. apply Bool.orb_true_r.
Qed.
Lemma p_push : forall k a, ordinary k = true -> Forall (value_ok nq ks) a -> triple (at_ good) (m_push k a) (fun _ => at_ good).
Proof.
  intros k a Hk Ha. apply t_push.
  - intros p Hp. apply good_link; [|exact Hp]. destruct k; try discriminate Hk; reflexivity.
  - intros ->. discriminate.
  - intro x. apply fine_ordinary; assumption.
  - apply ordinary_good. exact Hk.
Qed.
Lemma p_push0 : forall k, ordinary0 k = true -> triple (at_ good) (m_push k []) (fun _ => at_ good).
Proof.
  intros k Hk. apply t_push.
  - intros p Hp. apply good_link; [|exact Hp]. destruct k; try discriminate Hk; reflexivity.
  - intros ->. discriminate.
  - intro x. unfold fine, style_ok. destruct k; try discriminate Hk; (split; [intros ? ? []|]; split; [discriminate|]); cbn [cls created attrs]; first [constructor; fail|split; [constructor|intros ? ? []]].
  - destruct k; try discriminate Hk; reflexivity.
Qed.
Definition leave_ok (kl : list klass) : bool :=
  negb (is_any BgRoot kl) && forallb (fun t => forallb (fun k => forallb (fun p => implb (is_any k kl && made t k p) (stands t p)) all_klass) all_klass) [true; false].
Lemma p_leave : forall kl, leave_ok kl = true -> triple (at_ good) (m_leave kl) (fun _ => at_ good).
Proof.
  intros kl H. apply andb_prop in H. destruct H as [H1 H2]. apply t_leave; [auto|destruct (is_any BgRoot kl); [discriminate|reflexivity]|].
  intros k p Hk Hp. rewrite forallb_forall in H2. assert (H3 := H2 tc). cbv beta in H3. assert (H4 : In tc [true; false]) by (destruct tc; cbn; auto).
  pose proof (klass_all _ (klass_all _ (H3 H4) k) p) as J. cbv beta in J. rewrite Hk, Hp in J. exact J.
Qed.
Lemma p_text : forall s, plain s -> (wholes nq = true -> references s) -> triple (at_ good) (m_text s) (fun _ => at_ good).
Proof. intros s H R. apply t_text; [exact H|exact R|]. intros p Hp. apply good_link; [reflexivity|exact Hp]. Qed.
Lemma p_not_exist : forall k a, ordinary k = true -> Forall (value_ok nq ks) a -> triple (at_ good) (start_on_not_exist k a) (fun _ => at_ good).
Proof.
  intros k a Hk Ha. unfold start_on_not_exist. eapply t_bind; [apply t_ancestor|]. intros [b|].
  - apply t_ret. intros d [H _]. exact H.
  - eapply t_pre; [|apply p_push; assumption]. intros d [H _]. exact H.
Qed.
Lemma p_start_end : forall k, ordinary0 k = true -> leave_ok [k] = true -> triple (at_ good) (start_or_end k []) (fun _ => at_ good).
Proof.
  intros k Hk Hl. unfold start_or_end. eapply t_bind; [apply t_ancestor|]. intros [b|].
  - eapply t_pre; [|apply p_leave; exact Hl]. intros d [H _]. exact H.
  - eapply t_pre; [|apply p_push0; assumption]. intros d [H _]. exact H.
Qed.
Lemma p_seq : forall X (P : doc -> Prop) m (k : M X) Q, triple P m (fun _ : unit => P) -> triple P k Q -> triple P (andthen m (fun _ => k)) Q.
Proof. intros X P m k Q H1 H2. eapply t_bind; [exact H1|]. intro u. exact H2. Qed.
Lemma p_pure : forall X (P : doc -> Prop) (r : res X), (forall d e, P d -> r = Exc e -> E e) -> triple P (fun d => (d, r)) (fun x d => P d /\ r = Ok x).
Proof. intros X P r H d Pd. cbn [fst snd]. destruct r as [x|e]; [auto|]. eapply H; [exact Pd|reflexivity]. Qed.
Lemma p_done : triple (at_ good) (ret tt) (fun _ => at_ good).
Proof. apply t_ret. auto. Qed.

(* ---- macros ---- *)
Lemma p_cell : forall t r c, table_ok t -> (quiets nq = true -> table_quiet t) -> (forall r c k v, In r (rows t) -> In c (snd r) -> In (k, v) (cattrs c) -> ks k) -> In r (rows t) -> In c (snd r) -> (wholes nq = true -> references (ctext c)) -> triple (at_ good) (write_cell c) (fun _ => at_ good).
Proof.
  intros t r c T1 T2 T3 Ir Ic Wc. unfold write_cell. destruct (T1 r c Ir Ic) as [P G].
  assert (A : Forall (value_ok nq ks) (map (fun kv => (fst kv, VStr (snd kv))) (cattrs c))).
  { apply Forall_forall. intros kv I. apply in_map_iff in I. destruct I as ([k v] & <- & I). split; [eapply G; exact I|]. split; [eapply T3; eassumption|]. exists v. split; [reflexivity|].
    intro N. destruct (T2 N) as [_ Q]. destruct (Q r Ir) as [_ Q']. eapply Q'; eassumption. }
  destruct (header c); (apply p_seq; [apply p_push; [reflexivity|exact A]|]; apply p_seq; [apply p_text; [exact P|exact Wc]|]; apply p_leave; reflexivity).
Qed.
Lemma p_table : forall t, table_ok t -> (quiets nq = true -> table_quiet t) -> (forall r c k v, In r (rows t) -> In c (snd r) -> In (k, v) (cattrs c) -> ks k) -> (forall r c, In r (rows t) -> In c (snd r) -> wholes nq = true -> references (ctext c)) -> triple (at_ good) (write_table t) (fun _ => at_ good).
Proof.
  intros t T1 T2 T3 T4. unfold write_table. apply p_seq; [apply p_push; [reflexivity|]|].
  - constructor; [|constructor]. apply vo; [discriminate|reflexivity|]. intro N. apply (T2 N).
  - apply p_seq; [|apply p_leave; reflexivity]. apply t_each. intros r Ir. unfold write_row. apply p_seq; [apply p_push; [reflexivity|]|].
    + constructor; [|constructor]. apply vo; [discriminate|reflexivity|]. intro N. destruct (T2 N) as [_ Q]. apply (Q r Ir).
    + apply p_seq; [|apply p_leave; reflexivity]. apply t_each. intros c Ic. eapply p_cell; try eassumption. exact (T4 r c Ir Ic).
Qed.
Lemma p_error : forall s, plain s -> references s -> triple (at_ good) (m_push Span [("class", VStr (L "error"))] ;; m_text s ;; m_leave [Span])%list (fun _ => at_ good).
Proof.
  intros s P R. apply p_seq; [apply p_push; [reflexivity|]|].
  - constructor; [|constructor]. apply vo; [discriminate|reflexivity|]. intros _. apply quiet_list. reflexivity.
  - apply p_seq; [apply p_text; [exact P|intros _; exact R]|apply p_leave; reflexivity].
Qed.
Lemma plain_const : forall s, forallb (fun c => negb (Ascii.eqb c "<") && negb (Ascii.eqb c ">")) s = true -> plain s.
Proof. exact plain_list. Qed.
Lemma p_bad_args : forall name args, plain name -> references name -> triple (at_ good) (bad_args name args) (fun _ => at_ good).
Proof.
  intros name args P R. apply p_error.
  - repeat (apply plain_app; [first [apply plain_escape|apply plain_list; reflexivity|exact P]|]). apply plain_list. reflexivity.
  - repeat (apply references_app; [first [apply references_escape|apply references_list; reflexivity|exact R]|]). apply references_list. reflexivity.
Qed.
Lemma p_bad_name : forall name args, triple (at_ good) (bad_name name args) (fun _ => at_ good).
Proof.
  intros name args. apply p_error.
  - repeat (apply plain_app; [first [apply plain_escape|apply plain_list; reflexivity]|]). apply plain_list. reflexivity.
  - repeat (apply references_app; [first [apply references_escape|apply references_list; reflexivity]|]). apply references_list. reflexivity.
Qed.
Lemma p_dispatch : forall name args,
  ((name = L "Position" \/ name = L "Analysis") -> args = None -> E TypeError) -> (name = L "TableOfContent" -> tc = true) ->
  (name = L "Analysis" -> args <> None -> forall p e, analysis p = Exc e -> E e) ->
  triple (at_ good) (dispatch now urlencode analysis name args) (fun _ => at_ good).
Proof.
  intros name args H1 H2 H3. unfold dispatch, macro.
  assert (PP : forall e, parse_position args = Exc e -> args = None /\ e = TypeError).
  { intros e He. unfold parse_position in He. destruct args as [a|]; [|injection He as <-; auto]. destruct (run arg_pattern Some (mkspot true a [])); discriminate. }
  destruct (str_eqb name (L "BR")) eqn:E1.
  { eapply t_bind with (Q := fun _ => at_ good).
    - apply p_seq; [apply p_push0; reflexivity|]. apply p_seq; [apply p_leave; reflexivity|]. apply t_ret. auto.
    - intros []; [apply p_done|]. apply str_eqb_eq in E1. apply p_bad_args; rewrite E1; [apply plain_list; reflexivity|apply references_list; reflexivity]. }
  destruct (str_eqb name (L "Timestamp")) eqn:E2.
  { eapply t_bind with (Q := fun _ => at_ good).
    - apply p_seq; [apply p_push0; reflexivity|]. apply p_seq; [apply p_text; [exact Hnow|exact Hnow_whole]|]. apply p_seq; [apply p_leave; reflexivity|]. apply t_ret. auto.
    - intros []; [apply p_done|]. apply str_eqb_eq in E2. apply p_bad_args; rewrite E2; [apply plain_list; reflexivity|apply references_list; reflexivity]. }
  destruct (str_eqb name (L "TableOfContent")) eqn:E3.
  { apply str_eqb_eq in E3. eapply t_bind with (Q := fun _ => at_ good); [apply p_seq; [apply t_contents; apply H2; exact E3|apply t_ret; auto]|]. intros []; [apply p_done|]. apply p_bad_args; rewrite E3; [apply plain_list; reflexivity|apply references_list; reflexivity]. }
  destruct (str_eqb name (L "Position")) eqn:E4.
  { apply str_eqb_eq in E4. eapply t_bind with (Q := fun _ => at_ good).
    - eapply t_bind; [apply p_pure|].
      + intros d e _ He. destruct (PP e He) as [Ha ->]. apply H1; auto.
      + intros [p|]; [|apply t_ret; intros d [A _]; exact A]. eapply t_pre; [intros d [A _]; exact A|].
        apply p_seq; [apply p_push; [reflexivity|]|].
        * constructor; [|constructor]. apply vo; [discriminate|reflexivity|]. intros _. apply quiet_list. reflexivity.
        * apply p_seq; [apply p_push; [reflexivity|]|].
          -- constructor; [|constructor]. apply vo; [discriminate|reflexivity|]. intro N. apply quiet_app; [apply quiet_list; reflexivity|apply Hurl; exact N].
          -- apply p_seq; [apply p_leave; reflexivity|]. apply t_ret. auto.
    - intros []; [apply p_done|]. apply p_bad_args; rewrite E4; [apply plain_list; reflexivity|apply references_list; reflexivity]. }
  destruct (str_eqb name (L "Analysis")) eqn:E5; [|apply p_bad_name].
  apply str_eqb_eq in E5. eapply t_bind with (Q := fun _ => at_ good).
  - eapply t_bind; [apply p_pure|].
    + intros d e _ He. destruct (PP e He) as [Ha ->]. apply H1; auto.
    + intros [p|]; [|apply t_ret; intros d [A _]; exact A].
      eapply t_bind; [apply p_pure|].
      * intros d e [_ Hp] He. eapply H3; [exact E5| |exact He]. intro N. rewrite N in Hp. discriminate.
      * intros ts d [[A _] Hts]. revert d A. change (triple (at_ good) (m_each write_table ts ;; ret true) (fun _ => at_ good)).
        apply p_seq; [|apply t_ret; auto]. apply t_each. intros t It. destruct (Hana _ _ _ Hts It) as (T1 & T2 & T3). apply p_table; try assumption. intros r c Ir Ic. exact (Hana_whole _ _ _ _ _ Hts It Ir Ic).
  - intros []; [apply p_done|]. apply p_bad_args; rewrite E5; [apply plain_list; reflexivity|apply references_list; reflexivity].
Qed.

(* ---- lists ---- *)
Lemma get_groupdict : forall g k, In k ("minus" :: "plus" :: design_names) -> get (groupdict g) k = Some (match group g k with Some s => VStr s | None => VNone end).
Proof. intros g k H. repeat (destruct H as [<-|H]; [reflexivity|]). destruct H. Qed.
Lemma groupdict_plain : forall g, plain_attrs (groupdict g).
Proof.
  intros g k v I. unfold groupdict in I. apply in_map_iff in I. destruct I as (n & En & I). injection En as <- _.
  assert (G : forallb (fun n => forallb (fun c => negb (Ascii.eqb c "<") && negb (Ascii.eqb c ">")) (L n)) line_names = true) by reflexivity.
  rewrite forallb_forall in G. apply plain_list. apply G. exact I.
Qed.
Definition item_ok (g : list (string * str)) : Prop :=
  (md = Unsigned -> group g "sign" = None) /\ (md = Signed -> exists c, sign_class (sign_of (groupdict g)) = Ok c).
Lemma style_of : forall n, fine n -> cls n = ListEl -> exists v, get_style design_order n = Ok v /\ (v = VNone \/ (v = VSign /\ md <> Unsigned)).
Proof.
  intros n (_ & _ & St) K. unfold style_ok in St. rewrite K in St. destruct St as [Has Un]. unfold get_style.
  assert (D : forall order, incl order design_names -> exists name, design_name order (attrs n) = Ok name /\ In name design_names /\ (name = "sign" -> exists v, get (attrs n) "sign" = Some v /\ truthy v = true)).
  { induction order as [|k order IH]; intros I; cbn [design_name]; [exists "star"; split; [reflexivity|split; [left; reflexivity|discriminate]]|].
    destruct (Has k) as [v Hv]; [apply I; left; reflexivity|]. rewrite Hv. destruct (truthy v) eqn:Tv.
    - exists k. split; [reflexivity|]. split; [apply I; left; reflexivity|]. intros ->. eauto.
    - apply IH. intros x J. apply I. right. exact J. }
  destruct (D design_order Hdesign) as (name & En & In_ & Sg). rewrite En.
  assert (T : exists t, design_tag name = Ok t) by (repeat (destruct In_ as [<-|In_]; [eexists; reflexivity|]); destruct In_).
  destruct T as [t ->]. destruct (String.eqb_spec name "sign") as [Es|Es].
  - exists VSign. split; [reflexivity|]. right. split; [reflexivity|]. intro U. specialize (Un U). destruct (Sg Es) as (v & Hv & Tv). rewrite Un in Hv. injection Hv as <-. discriminate.
  - exists VNone. auto.
Qed.
Lemma p_itemize : forall g n m, item_ok g -> m <> [] -> (forall c, In c m -> c <> " "%char) ->
  triple (at_ good) (handle_itemize design_order g (repeat " "%char (S n) ++ m ++ [" "%char])) (fun _ => at_ good).
Proof.
  intros g n m [G1 G2] Nm Hm. unfold handle_itemize.
  assert (I : calc_indent (repeat " "%char (S n) ++ m ++ [" "%char]) " " = Some (S n)).
  { generalize (S n). intro k. induction k as [|k IH]; cbn [repeat app calc_indent].
    - destruct m as [|c m]; [congruence|]. cbn [app calc_indent]. destruct (Ascii.eqb_spec c " "); [exfalso; apply (Hm c); [left; reflexivity|assumption]|reflexivity].
    - change (Ascii.eqb " " " ") with true. cbv iota. rewrite IH. reflexivity. }
  rewrite I.
  eapply t_bind; [apply t_count_lists|]. intro nest.
  eapply t_bind; [eapply t_pre; [|apply unnest_lists]; intros d [A C]; split; [|exact C]; eapply at_weak; [|exact A]; intros k Hk; unfold roomy; rewrite Hk; reflexivity|].
  intro nest'. eapply t_bind with (Q := fun _ => at_ (klass_eqb ListEl)).
  - destruct (Nat.eqb_spec (S n) nest') as [En|En].
    + eapply t_pre; [|apply (leave_item tc md nq ks F E (S n)); lia]. intros d [_ C]. rewrite <- En in C. exact C.
    + assert (Push : forall a, (forall x, fine (created ListEl a x)) -> triple (at_ roomy) (m_push ListEl a) (fun _ => at_ (klass_eqb ListEl))).
      { intros a Ha. apply t_push; [|discriminate|exact Ha|reflexivity]. intros p Hp. unfold WikiInv.roomy in Hp. apply orb_prop in Hp. destruct Hp as [Hp|Hp]; [apply good_link; [reflexivity|exact Hp]|].
        apply klass_eqb_eq in Hp. subst p. reflexivity. }
      eapply t_bind with (Q := fun r d => r = max nest' (S n - 1) /\ nest' <= n /\ at_ roomy d).
      * eapply t_pre with (P' := fun d => nest' <= n /\ at_ roomy d); [intros d (E1 & A & _); split; [lia|exact A]|]. intros d [Le A]. revert d A.
        change (triple (at_ roomy) (nest_more (S n - 1) nest' ListEl no_design) (fun r d => r = max nest' (S n - 1) /\ nest' <= n /\ at_ roomy d)).
        unfold nest_more. eapply t_bind with (Q := fun _ => at_ roomy); [|intros []; apply t_ret; auto].
        apply t_each. intros k Hk. apply repeat_spec in Hk. subst k. eapply t_post; [|apply Push].
        -- intros u_ d A. eapply at_weak; [|exact A]. intros k Hk. apply klass_eqb_eq in Hk. subst k. reflexivity.
        -- intro x. split; [|split; [discriminate|]].
           ++ intros k v J. cbn in J. repeat (destruct J as [J|J]; [injection J as <- _; apply plain_list; reflexivity|]). destruct J.
           ++ split; [|reflexivity]. intros k J. cbn in J. repeat (destruct J as [<-|J]; [eexists; reflexivity|]). destruct J.
      * intro r. eapply t_bind with (Q := fun _ => at_ roomy).
        -- intros d (Er & Le & A). unfold m_assert. replace (Nat.eqb (S n) (r + 1)) with true; [exact A|]. symmetry. apply Nat.eqb_eq. lia.
        -- intros []. apply Push. intro x. split; [apply groupdict_plain|]. split; [discriminate|]. split.
           ++ intros k J. eexists. apply get_groupdict. right. right. exact J.
           ++ intro U. cbn [attrs created]. rewrite get_groupdict by (cbn; tauto). rewrite (G1 U). reflexivity.
  - intros []. eapply t_bind with (Q := fun n d => at_ (klass_eqb ListEl) d /\ fine n /\ cls n = ListEl).
    + intros d A. pose proof A as [J (c & x & Hc & Hx & Hk)]. unfold m_current. cbn [fst snd]. rewrite Hc, Hx. split; [exact A|]. split; [exact (i_fine tc md nq ks F d J _ _ Hx)|].
      apply klass_eqb_eq in Hk. auto.
    + intro x. eapply t_bind with (Q := fun v d => at_ (klass_eqb ListEl) d /\ (v = VNone \/ (v = VSign /\ md <> Unsigned))).
      * intros d (A & Fx & Cx). cbn [fst snd]. destruct (style_of x Fx Cx) as (v & Hv & Sv). rewrite Cx, Hv. auto.
      * intros v d [A Sv]. revert d A. apply t_push; [intros p Hp; apply klass_eqb_eq in Hp; subst p; reflexivity|discriminate| |reflexivity].
        intro y. split; [apply set_key_plain; [apply groupdict_plain|apply plain_list; reflexivity]|]. split; [discriminate|]. unfold style_ok. cbn [cls attrs created]. split.
        -- rewrite get_set_same. destruct Sv as [->|[-> U]]; auto.
        -- intro Sg. destruct (G2 Sg) as [c Hc]. exists c. unfold sign_of in *. rewrite !get_set_other by discriminate. exact Hc.
Qed.
Lemma p_citation : forall s, (exists k, calc_indent s ">" = Some k) -> triple (at_ good) (handle_citation s) (fun _ => at_ good).
Proof.
  intros s [k Hk]. unfold handle_citation. rewrite Hk. eapply t_bind; [apply t_count|]. intro nest.
  eapply t_bind with (Q := fun r d => r = min nest k /\ at_ good d).
  - unfold unnest. eapply t_bind with (Q := fun _ => at_ good); [|intros []; apply t_ret; auto]. apply t_each. intros kl I. apply repeat_spec in I. subst kl. apply p_leave. reflexivity.
  - intro r. eapply t_bind with (Q := fun r' d => r' = k /\ at_ good d).
    + intros d [-> A]. revert d A. change (triple (at_ good) (nest_more k (min nest k) Citation []) (fun r' d => r' = k /\ at_ good d)).
      unfold nest_more. eapply t_bind with (Q := fun _ => at_ good); [|intros []; apply t_ret; intros d A; split; [lia|exact A]].
      apply t_each. intros c I. apply repeat_spec in I. subst c. apply p_push0. reflexivity.
    + intro r'. eapply t_bind with (Q := fun _ => at_ good).
      * intros d [-> A]. unfold m_assert. rewrite Nat.eqb_refl. exact A.
      * intros []. apply p_not_exist; [reflexivity|constructor].
Qed.
Lemma p_quote : triple (at_ good) handle_quote (fun _ => at_ good).
Proof.
  unfold handle_quote. eapply t_bind; [apply t_ancestor|]. intros [x|].
  - eapply t_pre; [intros d [A _]; exact A|]. eapply t_bind; [apply t_ancestor|]. intros [b|].
    + apply t_goto. intros d [A H]. destruct (H b eq_refl) as (n & Hn & Kn). split; [apply A|]. exists n. split; [exact Hn|].
      assert (G : forallb (fun k => implb (is_any k [DefBody]) (good k)) all_klass = true) by reflexivity.
      pose proof (klass_all _ G (cls n)) as J. cbv beta in J. rewrite Kn in J. exact J.
    + eapply t_pre; [intros d [A _]; exact A|]. apply p_push0. reflexivity.
  - eapply t_pre; [intros d [A _]; exact A|]. apply p_not_exist; [reflexivity|constructor].
Qed.

(* ---- links ---- *)
Lemma p_anchor3 : forall class title href s, (quiets nq = true -> quiet class) -> (quiets nq = true -> quiet title) -> (quiets nq = true -> quiet href) -> plain s -> references s ->
  triple (at_ good) (anchor class title href ;; m_text s ;; m_leave [Anchor]) (fun _ => at_ good).
Proof.
  intros class title href s H1 H2 H3 P R. eapply t_bind with (Q := fun _ => at_ good).
  - eapply t_post; [|apply t_enter].
    + intros i d [A _]. eapply at_weak; [|exact A]. intros k Hk. apply klass_eqb_eq in Hk. subst k. reflexivity.
    + intros p Hp. apply good_link; [reflexivity|exact Hp].
    + discriminate.
    + intro x. apply fine_ordinary; [reflexivity|]. repeat (constructor; [apply vo; [discriminate|reflexivity|assumption]|]). constructor.
  - intro u_. apply p_seq; [apply p_text; [exact P|intros _; exact R]|apply p_leave; reflexivity].
Qed.
Lemma p_anchor2 : forall X class title (k : nat -> M X) Q, (quiets nq = true -> quiet class) -> (quiets nq = true -> quiet title) ->
  (forall a, triple (fun d => at_ (klass_eqb Anchor) d /\ current d = Some a) (k a) Q) -> triple (at_ good) (andthen (anchor2 class title) k) Q.
Proof.
  intros X class title k Q H1 H2 H. eapply t_bind; [apply t_enter|intro i; eapply t_pre; [|apply H]; intros d (B1 & B2 & _); split; assumption].
  - intros p Hp. apply good_link; [reflexivity|exact Hp].
  - discriminate.
  - intro x. apply fine_ordinary; [reflexivity|]. repeat (constructor; [apply vo; [discriminate|reflexivity|assumption]|]). constructor.
Qed.
Lemma p_ext : forall disp href title, (quiets nq = true -> quiet title) -> (quiets nq = true -> quiet href) -> plain disp -> (wholes nq = true -> references disp) ->
  triple (at_ good) (do! a := anchor2 (L "ext-link") title in set_url a href ;; m_push Span [("class", VStr (L "icon"))] ;; m_text disp ;; m_leave [Span] ;; m_leave [Anchor]) (fun _ => at_ good).
Proof.
  intros disp href title H1 H2 P R. apply p_anchor2; [intros _; apply quiet_list; reflexivity|exact H1|]. intro a.
  eapply t_bind; [apply (t_set_url tc md nq ks (Hks "href" (or_intror (or_intror (or_introl eq_refl)))) F E good); [exact H2|reflexivity]|]. intro u_.
  apply p_seq; [apply p_push; [reflexivity|constructor; [apply vo; [discriminate|reflexivity|intros _; apply quiet_list; reflexivity]|constructor]]|].
  apply p_seq; [apply p_text; [exact P|exact R]|]. apply p_seq; apply p_leave; reflexivity.
Qed.

(* where a line can start, if not within a block *)
Definition outside (k : klass) : bool := good k || klass_eqb k BgRoot.
Lemma p_div : triple (at_ outside) (start_on_not_exist Div []) (fun _ => at_ good).
Proof.
  unfold start_on_not_exist. intros d A. pose proof A as [J (c & n & Hc & Hn & Hk)].
  unfold andthen, m_ancestor, ancestor. cbn [fst snd]. destruct (look_ok d (fun n => is_any (cls n) [Div]) (i_wf _ _ _ _ _ _ J)) as [[b|] Hr]; rewrite Hr.
  - cbn [ret fst snd]. split; [exact J|]. exists c, n. split; [exact Hc|]. split; [exact Hn|]. apply orb_prop in Hk. destruct Hk as [Hk|Hk]; [exact Hk|exfalso].
    apply klass_eqb_eq in Hk. destruct (look_some _ _ _ Hr) as (x & m & Hx & U & Hm & Pm). replace x with c in * by congruence.
    assert (c = 0) by (exact (wf_only d (i_wf _ _ _ _ _ _ J) _ _ Hn Hk)). subst c.
    inversion U as [y Hy|y p j Hy Hp U']; subst.
    + replace m with n in * by congruence. rewrite Hk in Pm. discriminate.
    + pose proof (wf_parent d (i_wf _ _ _ _ _ _ J) _ _ _ Hy Hp). lia.
  - revert d A J c n Hc Hn Hk Hr. intros d A _ _ _ _ _ _ _. revert d A.
    change (triple (at_ outside) (m_push Div []) (fun _ => at_ good)). apply t_push; [|discriminate| |reflexivity].
    + intros p Hp. destruct p; try discriminate Hp; reflexivity.
    + intro x. apply fine_ordinary; [reflexivity|constructor].
Qed.
Lemma p_head : forall c (X : Type) (rest : M X) Q, triple (at_ good) rest Q ->
  triple (at_ outside) (start_on_not_exist Div [] ;; (if Ascii.eqb c " " then ret tt else m_leave [BlockQuote; DefBody]) ;; (if Ascii.eqb c ">" then ret tt else m_leave [Citation]) ;; rest) Q.
Proof.
  intros c X rest Q H. eapply t_bind; [apply p_div|]. intro u_. apply p_seq; [destruct (Ascii.eqb c " "); [apply p_done|apply p_leave; reflexivity]|].
  apply p_seq; [destruct (Ascii.eqb c ">"); [apply p_done|apply p_leave; reflexivity]|]. exact H.
Qed.
(* ---- every handler ---- *)
Section OneLine.
Variable line : str.
Hypothesis Hnq : quiets nq = true -> ~ quoted_label line.
Hypothesis Hone : one_line line.
Hypothesis Hamp : wholes nq = true -> ~ amp_url line.
Hypothesis Hsig : md = Signed -> ~ unsigned_item line.
Hypothesis Huns : md = Unsigned -> ~ signed_item line.
Hypothesis HE1 : part (L "[[Position]]") line \/ part (L "[[Analysis]]") line -> E TypeError.
Hypothesis HE2 : part (L "[[TableOfContent") line -> tc = true.
Hypothesis HE3 : part (L "[[Analysis(") line -> forall p e, analysis p = Exc e -> E e.
Notation handle := (handle design_order wikipath now urlencode analysis).

Lemma hit_part : forall i name r pre w f st, hit i name r line pre w f st -> part w line.
Proof. intros i name r pre w f st (_ & -> & _). exists pre, (left st). reflexivity. Qed.
Lemma hit_quiet : forall i name r pre w f st, hit i name r line pre w f st -> allows r quote = false -> quiets nq = true -> quiet w.
Proof. intros i name r pre w f st (_ & _ & _ & S & _) A _. exact (steps_quiet _ _ _ _ S A). Qed.
Lemma hit_plain : forall i name r pre w f st, hit i name r line pre w f st -> plain_rx r = true -> plain w.
Proof. intros i name r pre w f st (_ & _ & _ & S & _) P. eapply steps_plain; eassumption. Qed.
Lemma hit_no_amp : forall i name r pre w f st, hit i name r line pre w f st -> allows r "&" = false -> ~ In "&"%char w.
Proof. intros i name r pre w f st (_ & _ & _ & S & _) P I. pose proof (steps_allows _ _ _ _ S _ I) as Q. congruence. Qed.
Lemma hit_whole : forall i name r pre w f st, hit i name r line pre w f st -> allows r "&" = false -> references w.
Proof. intros i name r pre w f st H P. apply references_none. eapply hit_no_amp; eassumption. Qed.
Lemma hit_url : forall r pre w f st, hit 23 "_pattern_auto_anchor" r line pre w f st -> hd_error w <> Some "!"%char -> wholes nq = true -> references w.
Proof.
  intros r pre w f st H NB Wh. destruct (hit_addr _ _ _ _ _ _ _ H NB) as (scheme & u & -> & I & U). apply references_none. intro Ia. apply (Hamp Wh). exists scheme, u.
  split; [exact I|]. split; [exact U|]. split.
  - apply in_app_or in Ia. destruct Ia as [Ia|Ia]; [|exact Ia]. exfalso. cbn in I. destruct I as [<-|[<-|[]]]; cbn in Ia; repeat (destruct Ia as [Ia|Ia]; [discriminate|]); exact Ia.
  - exact (hit_part _ _ _ _ _ _ _ H).
Qed.
Lemma item_groups : forall w m g n rest, mark_groups m g -> line = repeat " "%char (S n) ++ m ++ " "%char :: rest -> item_ok (("_pattern_itemize", w) :: g) /\ m <> [] /\ forall c, In c m -> c <> " "%char.
Proof.
  intros w m g n rest H El. destruct H as [m Hm|m Hm|m x Hx Nm Hm].
  - split; [|split; [cbn in Hm; destruct Hm as [<-|[<-|[<-|[]]]]; discriminate|]].
    + split; intro M.
      * exfalso. apply (Huns M). exists n, m, rest. split; [exact El|]. cbn in Hm |- *. tauto.
      * unfold sign_of. rewrite !get_groupdict by (cbn; tauto). cbn in Hm. destruct Hm as [<-|[<-|[<-|[]]]]; eexists; reflexivity.
    + intros c I. cbn in Hm. destruct Hm as [<-|[<-|[<-|[]]]]; cbn in I; intuition (subst; discriminate).
  - split; [|split; [cbn in Hm; destruct Hm as [<-|[<-|[<-|[]]]]; discriminate|]].
    + split; intro M.
      * exfalso. apply (Huns M). exists n, m, rest. split; [exact El|]. cbn in Hm |- *. tauto.
      * unfold sign_of. rewrite !get_groupdict by (cbn; tauto). cbn in Hm. destruct Hm as [<-|[<-|[<-|[]]]]; eexists; reflexivity.
    + intros c I. cbn in Hm. destruct Hm as [<-|[<-|[<-|[]]]]; cbn in I; intuition (subst; discriminate).
  - split; [|split; [exact Nm|intros c I; apply (Hm c I)]]. split; intro M.
    + cbn in Hx. repeat (destruct Hx as [<-|Hx]; [reflexivity|]). destruct Hx.
    + exfalso. apply (Hsig M). exists n, m, rest. split; [exact El|]. split; assumption.
Qed.
Lemma p_handle : forall i name r pre w f st, hit i name r line pre w f st -> i <> 8 -> (i = 30 \/ hd_error w <> Some "!"%char) ->
  triple (at_ good) (handle name w ((name, w) :: caps st)) (fun _ => at_ good).
Proof.
  intros i name r pre w f st H N8 NB. pose proof (proj1 H) as Hi.
  unfold line_patterns in Hi. each_case i Hi; try (exfalso; apply N8; reflexivity).
  all: match type of Hi with Some (?n, ?x) = Some _ => assert (En : name = n) by congruence; assert (Er : x = r) by congruence; clear Hi; subst name end.
  all: try (destruct NB as [NB|NB]; [discriminate NB|]).
  all: try (match goal with |- triple _ (handle ?nm _ _) _ => idtac end; apply p_start_end; reflexivity).
  - (* bolditalic *)
    eapply t_bind; [apply t_ancestor|]. intros [b|]; (eapply t_pre; [intros d [A _]; exact A|]); apply p_seq; first [apply p_push0; reflexivity|apply p_leave; reflexivity].
  - apply p_done.
  - apply p_push0. reflexivity.
  - apply p_leave. reflexivity.
  - (* macro *)
    destruct (hit_macro _ _ _ _ _ _ _ H) as (nm & Hm). pose proof (hit_part _ _ _ _ _ _ _ H) as Pw.
    assert (G : exists args, triple (at_ good) (dispatch now urlencode analysis nm args) (fun _ => at_ good) /\ handle "_pattern_macro" w (("_pattern_macro", w) :: caps st) = dispatch now urlencode analysis nm args).
    { destruct Hm as [[Hc Hw]|(a & Hc & Hw)]; rewrite Hc.
      - exists None. split; [|reflexivity]. apply p_dispatch.
        + intros [Hn|Hn] _; apply HE1; [left|right]; rewrite Hw, Hn in Pw; exact Pw.
        + intros Hn. apply HE2. eapply part_trans; [|exact Pw]. rewrite Hw, Hn. apply (part_l _ (L "[[TableOfContent") (L "]]")). apply part_refl.
        + intros _ C. congruence.
      - exists (Some a). split; [|reflexivity]. apply p_dispatch.
        + discriminate.
        + intros Hn. apply HE2. eapply part_trans; [|exact Pw]. rewrite Hw, Hn. apply (part_l _ (L "[[TableOfContent") (L "(" ++ a ++ L ")]]")). apply part_refl.
        + intros Hn _. apply HE3. eapply part_trans; [|exact Pw]. rewrite Hw, Hn. apply (part_l _ (L "[[Analysis(") (a ++ L ")]]")). apply part_refl. }
    destruct G as (args & G & ->). exact G.
  - (* entry *)
    destruct (hit_entry _ _ _ _ _ _ _ H NB) as [[n Hn]|Hp].
    + pose proof (hit_plain _ _ _ _ _ _ _ H (ltac:(subst r; reflexivity))) as P. pose proof (hit_whole _ _ _ _ _ _ _ H (ltac:(subst r; reflexivity))) as R. pose proof (hit_quiet _ _ _ _ _ _ _ H (ltac:(subst r; reflexivity))) as Q. subst w.
      change (handle "_pattern_entry_link" ("#"%char :: n) (("_pattern_entry_link", "#"%char :: n) :: caps st))
        with (anchor (L "entry") ("#"%char :: n) (L "/entry/" ++ n) ;; m_text ("#"%char :: n) ;; m_leave [Anchor]).
      apply p_anchor3; [intros _; apply quiet_list; reflexivity|exact Q| |exact P|exact R]. intro Nq. apply quiet_app; [apply quiet_list; reflexivity|]. eapply quiet_part; [|exact (Q Nq)]. apply (part_r _ ["#"%char]), part_refl.
    + pose proof (hit_plain _ _ _ _ _ _ _ H (ltac:(subst r; reflexivity))) as P. pose proof (hit_whole _ _ _ _ _ _ _ H (ltac:(subst r; reflexivity))) as R. pose proof (hit_quiet _ _ _ _ _ _ _ H (ltac:(subst r; reflexivity))) as Q.
      assert (G : handle "_pattern_entry_link" w (("_pattern_entry_link", w) :: caps st) = (anchor (L "entry") w (L "/entry/" ++ skipn 6 w) ;; m_text w ;; m_leave [Anchor])).
      { unfold WikiModel.handle. cbv beta iota zeta delta [String.eqb Ascii.eqb Bool.eqb]. rewrite Hp. destruct w as [|c w]; [reflexivity|]. unfold prefixed in Hp. apply str_eqb_eq in Hp.
        cbn in Hp. injection Hp as -> _. reflexivity. }
      rewrite G. apply p_anchor3; [intros _; apply quiet_list; reflexivity|exact Q| |exact P|exact R]. intro Nq. apply quiet_app; [apply quiet_list; reflexivity|]. eapply quiet_part; [apply skipn_part|exact (Q Nq)].
  - (* query *)
    pose proof (hit_plain _ _ _ _ _ _ _ H (ltac:(subst r; reflexivity))) as P. pose proof (hit_whole _ _ _ _ _ _ _ H (ltac:(subst r; reflexivity))) as R. pose proof (hit_quiet _ _ _ _ _ _ _ H (ltac:(subst r; reflexivity))) as Q.
    destruct (hit_query _ _ _ _ _ _ _ H NB) as [[n Hn]|Hp].
    + subst w. apply p_anchor3; [intros _; apply quiet_list; reflexivity|exact Q| |exact P|exact R]. intro Nq. apply quiet_app; [apply quiet_list; reflexivity|]. eapply quiet_part; [apply slice_part|exact (Q Nq)].
    + destruct (prefixed_head "query:" "q" "uery:" _ eq_refl Hp) as [v Hv].
      assert (G : handle "_pattern_query_link" w (("_pattern_query_link", w) :: caps st) = (anchor (L "query") w (L "/query/" ++ skipn 6 w) ;; m_text w ;; m_leave [Anchor])).
      { unfold WikiModel.handle. cbv beta iota zeta delta [String.eqb Ascii.eqb Bool.eqb]. rewrite Hp. subst w. reflexivity. }
      rewrite G. apply p_anchor3; [intros _; apply quiet_list; reflexivity|exact Q| |exact P|exact R]. intro Nq. apply quiet_app; [apply quiet_list; reflexivity|]. eapply quiet_part; [apply skipn_part|exact (Q Nq)].
  - (* match *)
    pose proof (hit_plain _ _ _ _ _ _ _ H (ltac:(subst r; reflexivity))) as P. pose proof (hit_whole _ _ _ _ _ _ _ H (ltac:(subst r; reflexivity))) as R. pose proof (hit_quiet _ _ _ _ _ _ _ H (ltac:(subst r; reflexivity))) as Q.
    apply p_anchor2; [intros _; apply quiet_list; reflexivity|intros _; apply quiet_list; reflexivity|]. intro a. apply t_bind with (Q := fun _ => at_ good).
    + assert (U : forall n v, part v w -> triple (fun d => at_ (klass_eqb Anchor) d /\ current d = Some n) (set_url n (L "/match/" ++ v)) (fun _ => at_ good)).
      { intros n v Pv. apply (t_set_url tc md nq ks (Hks "href" (or_intror (or_intror (or_introl eq_refl)))) F E good); [|reflexivity]. intro Nq. apply quiet_app; [apply quiet_list; reflexivity|]. eapply quiet_part; [exact Pv|exact (Q Nq)]. }
      destruct (hit_match _ _ _ _ _ _ _ H NB) as [[n Hn]|Hp].
      * subst w. apply U. apply slice_part.
      * assert (Hv : exists v, w = "m"%char :: v) by (destruct Hp as [Hp|Hp]; [apply (prefixed_head "match:" "m" "atch:" _ eq_refl Hp)|apply (prefixed_head "m" "m" "" _ eq_refl Hp)]).
        destruct Hv as [v Hv]. assert (Hm : prefixed "m" w = true) by (subst w; reflexivity).
        rewrite Hm. rewrite Hv at 1. cbv iota. destruct (prefixed "match:" w); apply U; apply skipn_part.
    + intro u_. apply p_seq; [apply p_text; [exact P|intros _; exact R]|apply p_leave; reflexivity].
  - apply p_leave. reflexivity.
  - (* cells *)
    apply p_seq; [apply p_not_exist; [reflexivity|constructor; [apply vo; [discriminate|reflexivity|intros _; apply quiet_list; reflexivity]|constructor]]|].
    apply p_seq; [apply p_not_exist; [reflexivity|constructor]|]. apply p_seq; [apply p_leave; reflexivity|apply p_push0; reflexivity].
  - (* scheme *)
    destruct (hit_scheme _ _ _ _ _ _ _ H) as (u & Qu & Pu & Hc).
    destruct Hc as [Hc|(scheme & v & dd & Hc & Eu & Is & Uc & Nb & Pd)]; rewrite Hc.
    + apply p_ext; [intros _; apply quiet_escape; exact Qu|intros _; apply quiet_escape; exact Qu|apply plain_escape|intros _; apply references_escape].
    + assert (G : handle "_pattern_scheme_url" w [("_pattern_scheme_url", w); ("disp", " "%char :: dd); ("url_1", u)]
        = let disp := escape dd in
          do! a := anchor2 (L "ext-link") disp in set_url a (escape u) ;; m_push Span [("class", VStr (L "icon"))] ;; m_text disp ;; m_leave [Span] ;; m_leave [Anchor]) by reflexivity.
      rewrite G. apply p_ext; [|intros _; apply quiet_escape; exact Qu|apply plain_escape|intros _; apply references_escape].
      intro Nq. apply quiet_escape. intro Iq. apply (Hnq Nq). pose proof (part_trans _ _ _ Pd (hit_part _ _ _ _ _ _ _ H)) as Pl. exists scheme, v, dd. split; [exact Is|]. split; [exact Uc|]. split; [exact Nb|].
      split; [intros c Ic; apply Hone; eapply part_in; [exact Pl|]; rewrite !in_app_iff; tauto|]. split; [exact Iq|]. rewrite Eu, <- app_assoc in Pl. exact Pl.
  - (* wikiname *)
    pose proof (hit_plain _ _ _ _ _ _ _ H (ltac:(subst r; reflexivity))) as P. pose proof (hit_whole _ _ _ _ _ _ _ H (ltac:(subst r; reflexivity))) as R. pose proof (hit_quiet _ _ _ _ _ _ _ H (ltac:(subst r; reflexivity))) as Q.
    destruct (hit_wikiname _ _ _ _ _ _ _ H NB) as [W1 W2].
    eapply t_bind with (Q := fun _ => at_ good); [intros d A; unfold m_assert; rewrite W1; exact A|]. intros u_.
    eapply t_bind with (Q := fun _ => at_ good); [intros d A; unfold m_assert; rewrite W2; exact A|]. intros u2_.
    apply p_anchor2; [intros _; apply quiet_list; reflexivity|intro Nq; eapply quiet_part; [apply slice_part|exact (Q Nq)]|]. intro a.
    eapply t_bind; [apply (t_set_url tc md nq ks (Hks "href" (or_intror (or_intror (or_introl eq_refl)))) F E good); [|reflexivity]|].
    + intro Nq. apply quiet_app; [apply Hwiki; exact Nq|eapply quiet_part; [apply slice_part|exact (Q Nq)]].
    + intro u3_. apply p_seq; [apply p_text; [eapply plain_part; [apply slice_part|exact P]|intros _; apply references_none; intro I; apply (hit_no_amp _ _ _ _ _ _ _ H (ltac:(subst r; reflexivity))); eapply part_in; [apply slice_part|exact I]]|apply p_leave; reflexivity].
  - (* auto anchor *)
    pose proof (hit_plain _ _ _ _ _ _ _ H (ltac:(subst r; reflexivity))) as P. pose proof (hit_quiet _ _ _ _ _ _ _ H (ltac:(subst r; reflexivity))) as Q.
    apply p_ext; [intros _; apply quiet_list; reflexivity|intro Nq; apply quiet_escape; exact (Q Nq)|exact P|exact (hit_url _ _ _ _ _ H NB)].
  - (* camelcase *)
    pose proof (hit_plain _ _ _ _ _ _ _ H (ltac:(subst r; reflexivity))) as P. pose proof (hit_whole _ _ _ _ _ _ _ H (ltac:(subst r; reflexivity))) as R. pose proof (hit_quiet _ _ _ _ _ _ _ H (ltac:(subst r; reflexivity))) as Q.
    apply p_anchor2; [intros _; apply quiet_list; reflexivity|exact Q|]. intro a.
    eapply t_bind; [apply (t_set_url tc md nq ks (Hks "href" (or_intror (or_intror (or_introl eq_refl)))) F E good); [|reflexivity]|].
    + intro Nq. apply quiet_app; [apply Hwiki; exact Nq|exact (Q Nq)].
    + intro u_. apply p_seq; [apply p_text; [exact P|intros _; exact R]|apply p_leave; reflexivity].
  - (* items *)
    destruct (hit_item _ _ _ _ _ _ _ H) as (n & m & rest & El & Hw & Mg). destruct (item_groups w _ _ _ _ Mg El) as (Ok1 & Nm & Hm).
    change (triple (at_ good) (handle_itemize design_order (("_pattern_itemize", w) :: caps st) w) (fun _ => at_ good)). rewrite Hw at 2. apply p_itemize; assumption.
  - (* citations *)
    apply p_citation. eapply hit_cited. exact H.
  - apply p_done.
  - apply p_quote.
  - apply p_text; [apply plain_escape|intros _; apply references_escape].
  - apply p_text; [eapply hit_rest; exact H|intros _; apply references_none; eapply hit_rest_amp; exact H].
Qed.
Lemma p_match : forall g, In g (matches line) -> line <> L "{{{" -> triple (at_ good) (m_each (handle_group design_order wikipath now urlencode analysis g) g) (fun _ => at_ good).
Proof.
  intros g I NB. destruct (matches_hit _ _ I) as (i & name & r & pre & w & f & st & H & ->). apply t_each. intros [n u] Iu.
  destruct Iu as [En|Iu].
  - injection En as <- <-. unfold handle_group. destruct w as [|c w']; [apply p_done|].
    assert (N8 : i <> 8).
    { intros ->. apply NB. pose proof (proj1 H) as Hi. injection Hi as Hn _. rewrite <- Hn in H. eapply hit_block; [exact H|exact Hone]. }
    destruct (Ascii.eqb_spec c "!") as [->|Nc]; cbn [andb].
    + destruct (String.eqb_spec name "_pattern_rest_of_the_world") as [Er|Er]; cbn [negb].
      * rewrite Er. enough (H30 : hit 30 "_pattern_rest_of_the_world" r line pre ("!"%char :: w') f st) by (apply p_text; [eapply hit_rest; exact H30|intros _; apply references_none; eapply hit_rest_amp; exact H30]).
        pose proof (proj1 H) as Hi. assert (i = 30).
        { clear - Hi Er. unfold line_patterns in Hi. subst name. each_case i Hi; try reflexivity; exfalso; discriminate Hi. }
        subst i. rewrite <- Er. exact H.
      * apply p_text; [apply plain_escape|intros _; apply references_escape].
    + eapply p_handle; [exact H|exact N8|]. right. cbn. congruence.
  - pose proof (hit_inner _ _ _ _ _ _ _ _ _ _ H Iu) as In_. unfold handle_group. destruct u as [|c u]; [apply p_done|].
    assert (G : handle n (c :: u) ((name, w) :: caps st) = ret tt) by (apply inner_nothing; exact In_). rewrite G.
    destruct (_ && _); [apply p_text; [apply plain_escape|intros _; apply references_escape]|apply p_done].
Qed.
Notation line_parse := (line_parse design_order wikipath now urlencode analysis).
Lemma p_line : line <> [] -> line <> L "{{{" -> triple (at_ outside) (line_parse line) (fun _ => at_ good).
Proof.
  intros N NB. unfold WikiModel.line_parse. destruct line as [|c l] eqn:El; [congruence|]. rewrite <- El in *. apply p_head.
  apply p_seq; [destruct (ends_with "::" line); [apply p_seq; [apply p_not_exist; [reflexivity|constructor]|apply p_push0; reflexivity]|apply p_done]|].
  apply p_seq; [apply t_each; intros g I; apply p_match; assumption|].
  destruct (ends_with "::" line); [apply p_seq; [apply p_leave; reflexivity|apply p_push0; reflexivity]|apply p_done].
Qed.
End OneLine.
Notation line_parse := (line_parse design_order wikipath now urlencode analysis).
Lemma p_empty : triple (at_ outside) (line_parse []) (fun _ => at_ (klass_eqb BgRoot)).
Proof.
  unfold WikiModel.line_parse. eapply t_bind with (Q := fun _ => at_ (fun _ => true)).
  - apply t_leave; [auto|reflexivity|auto].
  - intros u_ d [J _]. cbn [run_op exec fst snd]. destruct (wf_root d (i_wf _ _ _ _ _ _ J)) as (rt & Hrt & Crt & _). split.
    + apply inv_goto; [exact J|]. intros x Hx. injection Hx as <-. apply (nth_lt _ _ _ _ Hrt).
    + exists 0, rt. split; [reflexivity|]. split; [exact Hrt|]. rewrite Crt. reflexivity.
Qed.
(* in the block with this text *)
Definition in_block (c : nat) (t : str) (p : option string) (d : doc) : Prop :=
  inv tc md nq ks F d /\ current d = Some c /\ (forall t p, ~ In (c, (t, p)) F) /\ exists n, nth_error (nodes d) c = Some n /\ cls n = Wrapping /\ text n = t /\ processor n = p.
Lemma p_open : triple (at_ outside) (line_parse (L "{{{")) (fun _ d => exists c, in_block c [] None d).
Proof.
  unfold WikiModel.line_parse. change (L "{{{") with (["{"; "{"; "{"]%char). apply p_head.
  change (ends_with "::" ["{"; "{"; "{"]%char) with false. cbv iota.
  replace (matches ["{"; "{"; "{"]%char) with [[("_pattern_preformat_start", L "{{{")]] by (vm_compute; reflexivity).
  apply p_seq; [apply p_done|]. cbn [m_each]. set (P := fun (_ : unit) d => exists c, in_block c [] None d).
  eapply t_bind with (Q := P); [|intro u_; apply t_ret; auto]. eapply t_bind with (Q := P); [|intro u_; apply t_ret; auto]. eapply t_bind with (Q := P); [|intro u_; apply t_ret; auto].
  change (triple (at_ good) (m_enter Wrapping [] ;; ret tt) P). eapply t_bind; [apply t_enter|].
  - intros p Hp. apply good_link; [reflexivity|exact Hp].
  - discriminate.
  - intro x. split; [intros k v []|]. split; [discriminate|exact Logic.I].
  - intro i. apply t_ret. intros d (A & Hc & N & x & Hx). exists i. split; [apply A|]. split; [exact Hc|]. split; [exact N|]. eexists. split; [exact Hx|]. repeat split; reflexivity.
Qed.
(* ---- blocks ---- *)
Lemma in_block_set : forall c t p d n n', in_block c t p d -> nth_error (nodes d) c = Some n -> cls n' = cls n -> parent n' = parent n -> children n' = children n -> attrs n' = attrs n ->
  in_block c (text n') (processor n') (mkdoc (set_node (nodes d) c n') (current d)).
Proof.
  intros c t p d n n' (J & Hc & N & m & Hm & Km & _) Hn E1 E2 E3 E4. replace m with n in * by congruence. split; [|split; [exact Hc|split; [exact N|]]].
  - apply (inv_set tc md nq ks F d c n); auto. destruct (i_fine _ _ _ _ _ _ J _ _ Hn) as (P1 & P2 & P3). unfold fine, style_ok in *. rewrite E1, E4, Km in *. split; [exact P1|split; [discriminate|exact P3]].
  - cbn [nodes]. rewrite (set_nth _ _ _ _ _ Hn), Nat.eqb_refl. exists n'. split; [reflexivity|]. split; [congruence|]. auto.
Qed.
Lemma b_line : forall c t p s, triple (in_block c t p) (run_op (AddLine c s)) (fun _ => in_block c (t ++ s) p).
Proof.
  intros c t p s d B. pose proof B as (J & Hc & N & n & Hn & Kn & Tn & Pn). unfold run_op. cbn [exec]. rewrite Hn, Kn. cbn [fst snd]. unfold add_line, update. rewrite Hn.
  rewrite <- Tn. replace p with (processor (with_text n (text n ++ s))) by exact Pn.
  apply (in_block_set c t p d n); auto; reflexivity.
Qed.
Lemma b_processor : forall c t p s, triple (in_block c t p) (run_op (SetProcessor c s)) (fun _ => in_block c t (Some s)).
Proof.
  intros c t p s d B. pose proof B as (J & Hc & N & n & Hn & Kn & Tn & Pn). unfold run_op. cbn [exec]. rewrite Hn, Kn. cbn [fst snd]. unfold set_processor, update. rewrite Hn.
  replace t with (text (with_processor n (Some s))) by exact Tn. apply (in_block_set c t p d n (with_processor n (Some s))); auto; reflexivity.
Qed.
(* after a block: it is done *)
Lemma b_leave : forall c t p d, in_block c t p d -> snd (m_leave [Wrapping] d) = Ok tt /\ WikiInv.at_ tc md nq ks ((c, (t, p)) :: F) good (fst (m_leave [Wrapping] d)).
Proof.
  intros c t p d (J & Hc & N & n & Hn & Kn & Tn & Pn). unfold m_leave, run_op. cbn [exec]. unfold leave, look. rewrite Hc. cbn [climb]. rewrite Hn, Kn.
  change (is_any Wrapping [Wrapping]) with true. cbv iota. rewrite Hn. cbn [fst snd]. split; [reflexivity|].
  assert (Q : exists q m, parent n = Some q /\ nth_error (nodes d) q = Some m /\ q < List.length (nodes d)).
  { destruct (parent n) as [q|] eqn:Eq.
    - pose proof (wf_parent d (i_wf _ _ _ _ _ _ J) _ _ _ Hn Eq). pose proof (nth_lt _ _ _ _ Hn). destruct (nth_some _ (nodes d) q) as [m Hm]; [lia|]. exists q, m. repeat split; auto. lia.
    - pose proof (wf_orphan d (i_wf _ _ _ _ _ _ J) _ _ Hn Eq) as R. subst c. destruct (wf_root d (i_wf _ _ _ _ _ _ J)) as (rt & Hrt & Crt & _). congruence. }
  destruct Q as (q & m & Eq & Hm & Lq). rewrite Eq. split.
  - apply (inv_goto tc md nq ks ((c, (t, p)) :: F) d (Some q)); [|intros x Hx; injection Hx as <-; exact Lq]. destruct J as [W A K V G D]. split; auto.
    intros i t' p' [I|I]; [injection I as <- <- <-; exists n; auto|apply D; exact I].
  - exists q, m. cbn [goto current nodes]. split; [reflexivity|]. split; [exact Hm|]. pose proof (i_link _ _ _ _ _ _ J _ _ _ _ Hn Eq Hm) as Lk. rewrite Kn in Lk.
    destruct (cls m); try discriminate Lk; try reflexivity. cbn in *. destruct tc; [reflexivity|discriminate].
Qed.
End Walk.
(* done blocks may be forgotten *)
Lemma at_forget : forall tc md nq ks x F K d, at_ tc md nq ks (x :: F) K d -> at_ tc md nq ks F K d.
Proof. intros tc md nq ks x F K d [[W A L V G D] C]. split; [|exact C]. split; auto. intros i t p I. apply D. right. exact I. Qed.
