(* The characters of a page are those of its text, and no attribute is given twice *)
From Verif Require Import Py PyFacts Re Rx RxFacts HtmlModel HtmlSpec HtmlProofs TreeModel TreeSpec TreeProofs TreeVisit TreeHtml TreeText TocModel WikiModel WikiSpec WellSpec.
From Verif Require XmlSpec.
Open Scope string_scope.
Open Scope list_scope.
Open Scope nat_scope.

Notation lg := legal_text.
Definition lgb (s : str) : bool := forallb XmlSpec.legal s.
Lemma lg_list : forall s, lgb s = true -> lg s.
Proof. intros s H c I. unfold lgb in H. rewrite forallb_forall in H. apply H. exact I. Qed.
Lemma lg_app : forall a b, lg a -> lg b -> lg (a ++ b).
Proof. intros a b Ha Hb c I. apply in_app_or in I. destruct I; auto. Qed.
Lemma lg_cons : forall c s, XmlSpec.legal c = true -> lg s -> lg (c :: s).
Proof. intros c s Hc Hs x [<-|I]; auto. Qed.
Lemma lg_tail : forall c s, lg (c :: s) -> lg s.
Proof. intros c s H x I. apply H. right. exact I. Qed.
Lemma lg_part : forall u w, part u w -> lg w -> lg u.
Proof. intros u w P H c I. apply H. eapply part_in; eassumption. Qed.
Lemma lg_skip : forall n s, lg s -> lg (skipn n s).
Proof. intros n s H c I. apply H. rewrite <- (firstn_skipn n s). apply in_or_app. right. exact I. Qed.
Lemma lg_first : forall n s, lg s -> lg (firstn n s).
Proof. intros n s H c I. apply H. rewrite <- (firstn_skipn n s). apply in_or_app. left. exact I. Qed.
Lemma lg_escape : forall s, lg s -> lg (escape s).
Proof.
  induction s as [|c s IH]; intro H; [intros c []|]. change (escape (c :: s)) with (escape_char c ++ escape s). apply lg_app; [|apply IH; eapply lg_tail; exact H].
  assert (Hc := H c (or_introl eq_refl)). unfold escape_char. destruct c as [[] [] [] [] [] [] [] []]; first [apply lg_list; reflexivity|apply lg_cons; [exact Hc|intros x []]].
Qed.

Definition fits (a : list (string * value)) : Prop := NoDup (map fst a) /\ forall k s, In (k, VStr s) a -> lg s.
Definition fit_node (n : node) : Prop := fits (attrs n) /\ lg (text n).
Definition fit (d : doc) : Prop := wf d /\ forall i n, nth_error (nodes d) i = Some n -> fit_node n.
Definition fit_op (o : op) : Prop :=
  match o with
  | Enter _ a | Append _ a => fits a
  | AddText s | AddLine _ s => lg s
  | SetAttr _ _ v => forall s, v = VStr s -> lg s
  | _ => True
  end.
Lemma fits_none : fits [].
Proof. split; [constructor|intros k s []]. Qed.
Lemma set_keys : forall a k v x, In x (map fst (set_key a k v)) -> In x (map fst a) \/ x = k.
Proof.
  induction a as [|[k' v'] a IH]; intros k v x I; cbn [set_key] in I; [destruct I as [<-|[]]; auto|].
  destruct (String.eqb_spec k' k) as [->|]; cbn [map fst In] in *; [tauto|]. destruct I as [I|I]; [auto|]. destruct (IH _ _ _ I); auto.
Qed.
Lemma set_fits : forall a k v, fits a -> (forall s, v = VStr s -> lg s) -> fits (set_key a k v).
Proof.
  induction a as [|[k' v'] a IH]; intros k v [N H] Hv; cbn [set_key].
  - split; [repeat constructor; intros []|]. intros x s [E|[]]. injection E as _ E. apply Hv. exact E.
  - inversion N as [|? ? N1 N2]; subst. destruct (String.eqb_spec k' k) as [->|D].
    + split; [exact N|]. intros x s [E|I]; [injection E as _ E; apply Hv; exact E|apply (H x); right; exact I].
    + assert (Fa : fits a) by (split; [exact N2|intros x s I; apply (H x); right; exact I]). destruct (IH k v Fa Hv) as [M1 M2]. split.
      * cbn [map fst]. constructor; [|exact M1]. intro I. apply set_keys in I. destruct I as [I|I]; [apply N1; exact I|congruence].
      * intros x s [E|I]; [apply (H x); left; exact E|apply (M2 x); exact I].
Qed.
Lemma fit_set : forall d i n n' cur, fit d -> nth_error (nodes d) i = Some n -> fit_node n' -> wf (mkdoc (set_node (nodes d) i n') cur) -> fit (mkdoc (set_node (nodes d) i n') cur).
Proof.
  intros d i n n' cur [W C] Hn P W'. split; [exact W'|]. intros j m H. cbn [nodes] in H. rewrite (set_nth _ _ _ _ _ Hn) in H. destruct (Nat.eqb j i); [injection H as <-; exact P|apply (C _ _ H)].
Qed.
Lemma fit_attach : forall d c n new cur, fit d -> nth_error (nodes d) c = Some n -> fit_node new -> wf (mkdoc (attach (nodes d) c n new) cur) -> fit (mkdoc (attach (nodes d) c n new) cur).
Proof.
  intros d c n new cur [W C] Hn P W'. split; [exact W'|]. intros i m H. cbn [nodes] in H. destruct (attach_inv _ _ _ _ _ _ Hn H) as [[-> ->]|(m0 & Hm & E1 & _ & E3 & E4 & _)]; [exact P|].
  unfold fit_node. rewrite E3, E4. apply (C _ _ Hm).
Qed.
Lemma exec_fit : forall d o, fit d -> fit_op o -> fit (fst (exec d o)).
Proof.
  intros d o Fd P. destruct Fd as [W C]. pose proof (exec_wf d o W) as W'. pose proof (exec_change d o W) as H. revert W'. set (d' := fst (exec d o)) in *. set (r := snd (exec d o)) in *. clearbody d' r. intro W'.
  destruct H as [cur r Hcur _|k a x c n e r He Hx Hl Hn Ha Hk|s c n Ho Hc Hn|s c n i m Ho Hc Hn Hl Hi Hm Ht|i c n r Ho Hn|i k v n r Ho Hn|i s n r Ho Hn Hw|i p n r Ho Hn Hw].
  - split; [exact W'|exact C].
  - apply fit_attach; [split; auto|exact Hn| |exact W']. assert (Pa : fits a) by (destruct He as [[-> _]|[-> _]]; exact P). split; [|intros c0 []]. destruct k; try exact Pa; apply fits_none.
  - subst o. apply fit_attach; [split; auto|exact Hn| |exact W']. split; [apply fits_none|exact P].
  - subst o. destruct (C _ _ Hm) as [C1 C2]. eapply fit_set; [split; eauto|exact Hm| |exact W']. split; [exact C1|]. cbn. apply lg_app; [exact C2|exact P].
  - destruct (C _ _ Hn) as [C1 C2]. eapply fit_set; [split; eauto|exact Hn| |exact W']. split; assumption.
  - subst o. destruct (C _ _ Hn) as [C1 C2]. eapply fit_set; [split; eauto|exact Hn| |exact W']. split; [|exact C2]. apply set_fits; [exact C1|exact P].
  - subst o. destruct (C _ _ Hn) as [C1 C2]. eapply fit_set; [split; eauto|exact Hn| |exact W']. split; [exact C1|]. cbn. apply lg_app; [exact C2|exact P].
  - destruct (C _ _ Hn) as [C1 C2]. eapply fit_set; [split; eauto|exact Hn| |exact W']. split; assumption.
Qed.
Lemma fit_new : fit new_doc.
Proof. split; [apply wf_new|]. intros [|[|i]] n H; cbn in H; inversion H; subst. split; [apply fits_none|intros c []]. Qed.

(* ---- actions ---- *)
Definition keeps {X} (m : M X) : Prop := forall d, fit d -> fit (fst (m d)).
Lemma k_bind : forall (X Y : Type) (m : M X) (k : X -> M Y), keeps m -> (forall x, keeps (k x)) -> keeps (andthen m k).
Proof. intros X Y m k H1 H2 d F. unfold andthen. specialize (H1 d F). destruct (m d) as [d1 [x|e]]; [apply H2; exact H1|exact H1]. Qed.
Lemma k_pure : forall (X : Type) (f : doc -> res X), keeps (fun d => (d, f d)).
Proof. intros X f d F. exact F. Qed.
Lemma k_given : forall (X Y : Type) (r : res X) (k : X -> M Y), (forall x, r = Ok x -> keeps (k x)) -> keeps (andthen (fun d => (d, r)) k).
Proof. intros X Y r k H d F. unfold andthen. destruct r as [x|e]; [apply H; [reflexivity|exact F]|exact F]. Qed.
Lemma k_ret : forall (X : Type) (x : X), keeps (ret x).
Proof. intros X x d F. exact F. Qed.
Lemma k_raise : forall (X : Type) e, @keeps X (raise e).
Proof. intros X e d F. exact F. Qed.
Lemma k_op : forall o, fit_op o -> keeps (run_op o).
Proof. intros o P d F. apply exec_fit; assumption. Qed.
Lemma k_enter : forall k a, fits a -> keeps (m_enter k a).
Proof. intros k a P d F. pose proof (exec_fit d (Enter k a) F P) as H. cbn [exec fst] in H. exact H. Qed.
Lemma k_push : forall k a, fits a -> keeps (m_push k a).
Proof. intros k a P. unfold m_push. apply k_bind; [apply k_enter; exact P|intro; apply k_ret]. Qed.
Lemma k_leave : forall ks, keeps (m_leave ks).
Proof. intros. apply k_op. exact I. Qed.
Lemma k_text : forall s, lg s -> keeps (m_text s).
Proof. intros s H. apply k_op. exact H. Qed.
Lemma k_url : forall i s, lg s -> keeps (set_url i s).
Proof. intros i s H. apply k_op. cbn. intros x E. injection E as <-. exact H. Qed.
Lemma k_each : forall (X : Type) (f : X -> M unit) l, (forall x, In x l -> keeps (f x)) -> keeps (m_each f l).
Proof.
  intros X f l. induction l as [|x l IH]; intro H; cbn [m_each]; [apply k_ret|]. apply k_bind; [apply H; left; reflexivity|]. intros. apply IH. intros y I. apply H. right. exact I.
Qed.
Lemma fits_list : forall a, NoDup (map fst a) -> Forall (fun kv => match snd kv with VStr s => lg s | _ => True end) a -> fits a.
Proof. intros a N H. split; [exact N|]. intros k s I. rewrite Forall_forall in H. exact (H (k, VStr s) I). Qed.
Ltac nodup := repeat constructor; cbn [In map fst]; let H := fresh in intro H; repeat (destruct H as [H|H]; [discriminate H|]); exact H.
Ltac lgs := repeat first
  [ assumption
  | apply lg_app
  | apply lg_skip
  | apply lg_first
  | apply lg_escape
  | apply lg_list; reflexivity
  | eapply lg_tail; eassumption ].
Ltac fit_it := apply fits_list; [nodup|repeat (constructor; [cbv beta iota delta [snd]; first [exact I | lgs]|]); constructor].
Ltac go := repeat match goal with
  | |- forall _, _ => intro
  | |- keeps (andthen _ _) => apply k_bind
  | |- keeps (ret _) => apply k_ret
  | |- keeps (raise _) => apply k_raise
  | |- keeps (m_push _ _) => apply k_push
  | |- keeps (m_enter _ _) => apply k_enter
  | |- keeps (m_leave _) => apply k_leave
  | |- keeps (m_text _) => apply k_text
  | |- keeps (set_url _ _) => apply k_url
  | |- keeps (m_ancestor _) => apply k_pure
  | |- keeps (m_count _) => apply k_pure
  | |- keeps m_current => apply k_pure
  | |- keeps (run_op (GoTo _)) => apply k_op; exact I
  | |- keeps (run_op Done) => apply k_op; exact I
  | |- keeps (run_op (SetProcessor _ _)) => apply k_op; exact I
  | |- keeps (fun d => (d, _)) => apply k_pure
  | |- keeps (match ?b with _ => _ end) => destruct b
  | |- fits [] => apply fits_none
  | |- fits (_ :: _) => fit_it
  | |- lg _ => progress lgs
  end.
Lemma k_start : forall k a, fits a -> keeps (start_on_not_exist k a).
Proof. intros k a H. unfold start_on_not_exist. go. exact H. Qed.
Lemma k_start_end : forall k a, fits a -> keeps (start_or_end k a).
Proof. intros k a H. unfold start_or_end. go. exact H. Qed.
Lemma k_assert : forall b, keeps (m_assert b).
Proof. intro b. unfold m_assert. go. Qed.
Lemma k_unnest : forall i n ks, keeps (unnest i n ks).
Proof. intros. unfold unnest. go. apply k_each. go. Qed.
Lemma k_nest : forall i n k a, fits a -> keeps (nest_more i n k a).
Proof. intros i n k a H. unfold nest_more. go. apply k_each. go. exact H. Qed.
Ltac more := repeat first
  [ progress go
  | apply k_start
  | apply k_start_end
  | apply k_assert
  | apply k_unnest
  | apply k_nest ].
Section Line.
Variables (design_order : list string) (wikipath now : str) (urlencode : list (string * str) -> str) (analysis : str -> res (list table)).
Hypothesis Hpath : lg wikipath.
Hypothesis Hnow : lg now.
Hypothesis Hurl : forall p, lg (urlencode p).
Hypothesis Hana : forall p ts t, analysis p = Ok ts -> In t ts -> table_fit t.
Lemma k_table : forall t, table_fit t -> keeps (write_table t).
Proof.
  intros t (H1 & _ & H2). unfold write_table. go. apply k_each. intros r Ir. destruct (H2 r Ir) as (H3 & _ & H4). unfold write_row. go. apply k_each. intros c Ic.
  destruct (H4 c Ic) as (H5 & _ & _ & H6 & H7). unfold write_cell. go. split.
  - rewrite map_map. exact H6.
  - intros k s I. apply in_map_iff in I. destruct I as ([k' v] & E & I). injection E as <- <-. apply (H7 _ _ I).
Qed.
Lemma opt_legal : forall o, (forall s, o = Some s -> lg s) -> lg (opt_none o).
Proof. intros [[|c s]|] H; unfold opt_none; [apply lg_list; reflexivity|apply H; reflexivity|apply lg_list; reflexivity]. Qed.
Lemma k_bad_args : forall n a, lg n -> (forall s, a = Some s -> lg s) -> keeps (bad_args n a).
Proof. intros n a Hn Ha. pose proof (opt_legal _ Ha). unfold bad_args. go. Qed.
Lemma k_bad_name : forall n a, lg n -> (forall s, a = Some s -> lg s) -> keeps (bad_name n a).
Proof. intros n a Hn Ha. pose proof (opt_legal _ Ha). unfold bad_name. go. Qed.
Lemma k_dispatch : forall n a, lg n -> (forall s, a = Some s -> lg s) -> keeps (dispatch now urlencode analysis n a).
Proof.
  intros n a Hn Ha. unfold dispatch, macro. repeat destruct (str_eqb n _).
  all: try (apply k_bad_name; assumption).
  all: apply k_bind; [|intros []; [apply k_ret|apply k_bad_args; assumption]].
  - go.
  - go.
  - go. apply k_op. cbn. fit_it.
  - go. apply fits_list; [nodup|]. repeat constructor. cbv beta iota delta [snd]. apply lg_app; [lgs|apply Hurl].
  - apply k_given. intros [p|] _; [|apply k_ret]. apply k_given. intros ts E. go. apply k_each. intros t I. apply k_table. apply (Hana _ _ _ E I).
Qed.
Lemma groups_legal : forall r line g, lg line -> In g (find_all r line) -> forall n u, In (n, u) g -> lg u.
Proof.
  intros r line g H I n u Iu. unfold find_all in I. apply finditer_in in I. destruct I as (f & pre & s' & w & st & -> & _ & _ & S1 & -> & ->).
  destruct (steps_groups _ _ _ _ S1 n u Iu) as [[]|[_ P]]. intros c Ic. apply H. apply in_or_app. right. apply in_or_app. left. eapply part_in; eassumption.
Qed.
Lemma group_member : forall g n u, group g n = Some u -> In (n, u) g.
Proof.
  intros g n u H. unfold group in H. induction g as [|[k v] g IH]; [discriminate|]. cbn [find fst] in H. destruct (String.eqb_spec k n) as [->|]; [injection H as ->; left; reflexivity|right; apply IH; exact H].
Qed.
Lemma groupdict_fits : forall g, (forall n u, In (n, u) g -> lg u) -> fits (groupdict g).
Proof.
  intros g H. unfold groupdict. split.
  - rewrite map_map. cbn [fst]. rewrite map_id. assert (E : nodup string_dec line_names = line_names) by (vm_compute; reflexivity). rewrite <- E. apply NoDup_nodup.
  - intros k s I. apply in_map_iff in I. destruct I as (n & E & _). destruct (group g n) as [u|] eqn:Eg; [|discriminate]. injection E as _ <-. apply (H n). apply group_member. exact Eg.
Qed.
Lemma k_citation : forall s, keeps (handle_citation s).
Proof. intro s. unfold handle_citation. more. Qed.
Lemma k_itemize : forall g s, (forall n u, In (n, u) g -> lg u) -> keeps (handle_itemize design_order g s).
Proof.
  intros g s H. pose proof (groupdict_fits g H) as G. unfold handle_itemize. destruct (calc_indent s " ") as [indent|]; [|apply k_raise].
  apply k_bind; [apply k_pure|]. intro n. apply k_bind; [apply k_unnest|]. intro k. apply k_bind; [more; try exact G|].
  { unfold no_design. fit_it. }
  intros _. apply k_bind; [apply k_pure|]. intro x. apply k_given. intros v Ev. apply k_push. apply set_fits; [exact G|]. intros u E. subst v.
  destruct (cls x); try discriminate. unfold get_style in Ev. destruct (design_name design_order (attrs x)); [|discriminate]. destruct (design_tag _); [|discriminate]. destruct (String.eqb _ _); discriminate.
Qed.
Lemma k_quote : keeps handle_quote.
Proof. unfold handle_quote. more. Qed.
Lemma slice_legal : forall a c s, lg s -> lg (slice a c s).
Proof. intros a c s H. unfold slice. lgs. Qed.
Lemma k_handle : forall name s g, lg s -> (forall n u, In (n, u) g -> lg u) -> keeps (handle design_order wikipath now urlencode analysis name s g).
Proof.
  intros name s g Hs Hg. pose proof (slice_legal 1 1 s Hs) as Hm. pose proof (slice_legal 6 1 s Hs) as Hw. unfold handle. cbv zeta.
  repeat match goal with |- keeps (if String.eqb name ?n then _ else _) => destruct (String.eqb name n) end.
  all: unfold anchor, anchor2.
  all: try solve [more | apply k_citation | apply k_itemize; exact Hg | apply k_quote].
  - destruct (group g "url_1") as [u|] eqn:Eu; [|apply k_raise]. apply group_member in Eu. apply Hg in Eu.
    assert (Hd : lg (match group g "disp" with Some (_ :: r) => escape r | _ => escape u end)).
    { destruct (group g "disp") as [[|c r]|] eqn:Ed; try (apply lg_escape; exact Eu). apply group_member in Ed. apply Hg in Ed. apply lg_escape. eapply lg_tail. exact Ed. }
    set (disp := match group g "disp" with Some (_ :: r) => escape r | _ => escape u end) in *. clearbody disp. more.
  - destruct (group g "macro_name") as [m|] eqn:Em; [|apply k_raise]. apply group_member in Em. apply Hg in Em. apply k_dispatch; [exact Em|].
    intros u Eu. apply group_member in Eu. apply Hg in Eu. exact Eu.
Qed.
Lemma k_group : forall g kv, In kv g -> (forall n u, In (n, u) g -> lg u) -> keeps (handle_group design_order wikipath now urlencode analysis g kv).
Proof.
  intros g [name [|c r]] I H; unfold handle_group; [apply k_ret|]. pose proof (H _ _ I) as Hc. destruct (Ascii.eqb c "!" && _)%bool; [|apply k_handle; assumption].
  apply k_text. apply lg_escape. eapply lg_tail. exact Hc.
Qed.
Lemma k_line : forall line, lg line -> keeps (line_parse design_order wikipath now urlencode analysis line).
Proof.
  intros [|c line] H; unfold line_parse; more. apply k_each. intros g I. apply k_each. intros kv J. apply k_group; [exact J|]. apply (groups_legal (regexp line_patterns) (c :: line)); assumption.
Qed.
Lemma k_wrap : forall i line, lg line -> keeps (wrap_parse i line).
Proof.
  intros i [|c line] H; unfold wrap_parse; [apply k_op; apply lg_list; reflexivity|]. apply k_each. intros g I. pose proof (groups_legal _ _ _ H I) as Hg. apply k_each.
  intros [name [|c' s]] J; unfold wrap_handle; [apply k_ret|]. pose proof (Hg _ _ J) as Hc. more. apply k_op. apply lg_app; [exact Hc|apply lg_list; reflexivity].
Qed.
Lemma k_parse_line : forall line, lg line -> keeps (parse_line design_order wikipath now urlencode analysis line).
Proof.
  intros line H d F. unfold parse_line. destruct (current d) as [c|]; [|apply k_line; assumption]. destruct (nth_error (nodes d) c) as [n|]; [|apply k_line; assumption].
  destruct (cls n); try (apply k_line; assumption). apply k_wrap; assumption.
Qed.
Lemma split_legal : forall s cur, lg s -> lg cur -> forall l, In l (split_lines cur s) -> lg l.
Proof.
  intros s. induction s as [s IH] using (induction_ltof1 _ (@List.length ascii)); unfold ltof in IH. intros cur Hs Hc l I.
  assert (Hr : lg (rev cur)) by (intros c J; apply Hc; apply in_rev; exact J).
  destruct s as [|c r]; cbn [split_lines] in I.
  - destruct cur; [destruct I|]. destruct I as [<-|[]]. exact Hr.
  - pose proof (lg_tail _ _ Hs) as Ht. destruct (Ascii.eqb c (ascii_of_nat 13)).
    + destruct I as [<-|I]; [exact Hr|]. destruct r as [|d r]; [destruct I|]. destruct (Ascii.eqb d newline_char).
      * apply (IH r) in I; [exact I|cbn [List.length]; lia|eapply lg_tail; exact Ht|intros x []].
      * apply (IH (d :: r)) in I; [exact I|cbn [List.length]; lia|exact Ht|intros x []].
    + destruct (Ascii.eqb c newline_char).
      * destruct I as [<-|I]; [exact Hr|]. apply (IH r) in I; [exact I|cbn [List.length]; lia|exact Ht|intros x []].
      * apply (IH r) in I; [exact I|cbn [List.length]; lia|exact Ht|]. apply lg_cons; [apply Hs; left; reflexivity|exact Hc].
Qed.
Lemma parse_fit : forall wiki, lg wiki -> fit (fst (parse design_order wikipath now urlencode analysis wiki new_doc)).
Proof.
  intros wiki H. unfold parse. apply k_each; [|apply fit_new]. intros l I. apply k_parse_line. unfold splitlines in I. apply (split_legal wiki []); [exact H|intros x []|exact I].
Qed.
End Line.
