(* Invariants of documents built from wiki text *)
From Verif Require Import Py PyFacts Re Rx RxFacts HtmlModel HtmlSpec HtmlProofs TreeModel TreeSpec TreeProofs TreeVisit TreeHtml TreeText TocModel TocSpec WikiModel WikiSpec.
Open Scope string_scope.
Open Scope list_scope.
Open Scope nat_scope.

Lemma references_app : forall u v, references u -> references v -> references (u ++ v).
Proof.
  induction u as [|c u IH]; intros v Hu Hv; [exact Hv|]. intros [|x a] b E.
  - injection E as -> <-. destruct (Hu [] u eq_refl) as (t & r & I & ->). exists t, (r ++ v). split; [exact I|]. rewrite app_assoc. reflexivity.
  - injection E as -> E. apply (IH v) with (a := a); [|exact Hv|exact E]. intros a' b' E'. apply (Hu (x :: a') b'). rewrite E'. reflexivity.
Qed.
Lemma references_none : forall s, ~ In "&"%char s -> references s.
Proof. intros s N a b ->. elim N. apply in_or_app. right. left. reflexivity. Qed.
Lemma references_list : forall s, forallb (fun c => negb (Ascii.eqb c "&")) s = true -> references s.
Proof. intros s H. apply references_none. intro I. rewrite forallb_forall in H. specialize (H _ I). discriminate. Qed.
Lemma references_one : forall t, In t [L "lt;"; L "gt;"; L "amp;"] -> references ("&"%char :: t).
Proof.
  intros t I [|x a] b E.
  - injection E as <-. exists t, []. split; [exact I|]. symmetry. apply app_nil_r.
  - injection E as _ E. exfalso. assert (N : In "&"%char t) by (rewrite E; apply in_or_app; right; left; reflexivity).
    cbn in I. repeat (destruct I as [<-|I]; [cbn in N; repeat (destruct N as [N|N]; [discriminate|]); exact N|]). destruct I.
Qed.
Lemma references_escape : forall s, references (escape s).
Proof.
  induction s as [|c s IH]; [apply references_list; reflexivity|]. change (escape (c :: s)) with (escape_char c ++ escape s). apply references_app; [|exact IH].
  unfold escape_char. destruct c as [[] [] [] [] [] [] [] []]; first [apply references_list; reflexivity|apply references_one; cbn; tauto].
Qed.

Definition all_klass : list klass :=
  [BgNode; MacroNode; BgRoot; Line; Span; BR; Bold; Italic; Underline; Strike; Subscript; Superscript; Monospace;
   TableCell; TableRow; TableHeader; Itemize; DefHeader; Anchor; Box; Heading; H1; H2; H3; DefBody; Div; Img;
   DefList; Table; BlockQuote; CitationContent; Citation; ListEl; Text; Wrapping].
Lemma all_klass_in : forall k, In k all_klass.
Proof. intros []; cbn; tauto. Qed.
Lemma klass_all : forall f, forallb f all_klass = true -> forall k, f k = true.
Proof. intros f H k. rewrite forallb_forall in H. apply H. apply all_klass_in. Qed.
Lemma klass_eqb_eq : forall a b, klass_eqb a b = true <-> a = b.
Proof. intros a b. unfold klass_eqb. destruct (klass_eq_dec a b); split; congruence. Qed.

(* a node of the first class was made while one of the second was current *)
Definition made (tc : bool) (k p : klass) : bool :=
  match p with
  | Wrapping | Text | MacroNode => false
  | BgRoot => klass_eqb k Div || (tc && negb (klass_eqb k Itemize))
  | ListEl => klass_eqb k ListEl || klass_eqb k Itemize
  | _ => negb (klass_eqb k Itemize)
  end.
(* where the editor stands within a line; a table of contents in a paragraph takes it to the root *)
Definition stands (tc : bool) (k : klass) : bool := match k with ListEl | Wrapping | Text | MacroNode => false | BgRoot => tc | _ => true end.

Inductive mode := AnyItems | Signed | Unsigned.
(* what attributes and texts are like: attributes without quotation marks, texts whose ampersands belong to references *)
Record care := mkcare { quiets : bool; wholes : bool }.
Definition only_quiets (b : bool) : care := mkcare b false.
Section Inv.
Variable tc : bool.                                     (* there may be tables of contents *)
Notation link := (made tc).
Notation good := (stands tc).
Variable md : mode.
Variable nq : care.
Variable ks : string -> Prop.                           (* the attributes that there may be *)
Hypothesis Hhref : ks "href".
Variable F : list (nat * (str * option string)).        (* blocks that are done *)
Variable E : exn -> Prop.                               (* exceptions that may happen *)

Definition value_ok (kv : string * value) : Prop := good_key (fst kv) /\ ks (fst kv) /\ exists s, snd kv = VStr s /\ (quiets nq = true -> ~ In quote s).
Definition style_ok (n : node) : Prop :=
  match cls n with
  | Text => wholes nq = true -> references (text n)
  | Wrapping => True
  | MacroNode => tc = true
  | Heading => False
  | H1 | H2 | H3 => Forall value_ok (attrs n) /\ forall k v, In (k, v) (attrs n) -> exists j, (k, v) = ("id", VStr (mark j))
  | ListEl => (forall k, In k design_names -> exists v, get (attrs n) k = Some v) /\ (md = Unsigned -> get (attrs n) "sign" = Some VNone)
  | Itemize => (get (attrs n) "style" = Some VNone \/ (get (attrs n) "style" = Some VSign /\ md <> Unsigned))
               /\ (md = Signed -> exists c, sign_class (sign_of (attrs n)) = Ok c)
  | _ => Forall value_ok (attrs n)
  end.
Definition fine (n : node) : Prop := plain_attrs (attrs n) /\ (cls n = Text -> plain (text n)) /\ style_ok n.
Record inv (d : doc) : Prop := {
  i_wf : wf d;
  i_att : attached d;
  i_link : forall i n p m, nth_error (nodes d) i = Some n -> parent n = Some p -> nth_error (nodes d) p = Some m -> link (cls n) (cls m) = true;
  i_leaf : forall i n, nth_error (nodes d) i = Some n -> cls n = Text -> children n = [];
  i_fine : forall i n, nth_error (nodes d) i = Some n -> fine n;
  i_done : forall i t p, In (i, (t, p)) F -> exists n, nth_error (nodes d) i = Some n /\ cls n = Wrapping /\ text n = t /\ processor n = p }.
Definition at_ (K : klass -> bool) (d : doc) : Prop :=
  inv d /\ exists c n, current d = Some c /\ nth_error (nodes d) c = Some n /\ K (cls n) = true.

(* ---- triples ---- *)
Definition triple {X} (P : doc -> Prop) (m : M X) (Q : X -> doc -> Prop) : Prop :=
  forall d, P d -> match snd (m d) with Ok x => Q x (fst (m d)) | Exc e => E e end.
Lemma t_bind : forall (X Y : Type) P (m : M X) Q (k : X -> M Y) R, triple P m Q -> (forall x, triple (Q x) (k x) R) -> triple P (andthen m k) R.
Proof.
  intros X Y P m Q k R H1 H2 d Pd. unfold andthen. specialize (H1 d Pd). destruct (m d) as [d1 [x|e]]; cbn [fst snd] in *; [|exact H1].
  apply H2. exact H1.
Qed.
Lemma t_ret : forall (X : Type) (P : doc -> Prop) (x : X) (Q : X -> doc -> Prop), (forall d, P d -> Q x d) -> triple P (ret x) Q.
Proof. intros X P x Q H d Pd. apply H. exact Pd. Qed.
Lemma t_raise : forall (X : Type) (P : doc -> Prop) e (Q : X -> doc -> Prop), E e -> triple P (raise e) Q.
Proof. intros X P e Q H d Pd. exact H. Qed.
Lemma t_pre : forall (X : Type) (P P' : doc -> Prop) (m : M X) Q, (forall d, P d -> P' d) -> triple P' m Q -> triple P m Q.
Proof. intros X P P' m Q H T d Pd. apply T. apply H. exact Pd. Qed.
Lemma t_post : forall (X : Type) (P : doc -> Prop) (m : M X) (Q Q' : X -> doc -> Prop), (forall x d, Q x d -> Q' x d) -> triple P m Q -> triple P m Q'.
Proof. intros X P m Q Q' H T d Pd. specialize (T d Pd). destruct (snd (m d)); [apply H; exact T|exact T]. Qed.
Lemma t_each : forall (X : Type) (P : doc -> Prop) (f : X -> M unit) l, (forall x, In x l -> triple P (f x) (fun _ => P)) -> triple P (m_each f l) (fun _ => P).
Proof.
  intros X P f. induction l as [|x l IH]; intros H; cbn [m_each].
  - apply t_ret. auto.
  - eapply t_bind; [apply H; left; reflexivity|]. intros []. apply IH. intros y I. apply H. right. exact I.
Qed.

(* ---- primitives ---- *)
Lemma inv_new : forall k a, F = [] -> k = new_doc -> a = tt -> at_ (klass_eqb BgRoot) new_doc.
Proof.
  intros k a HF _ _. split; [|exists 0; eexists; cbn; repeat split; reflexivity]. split.
  - apply wf_new.
  - intros [|i] H; [constructor|cbn in H; lia].
  - intros [|[|i]] n p m H; cbn in H; inversion H; subst; discriminate.
  - intros [|[|i]] n H; cbn in H; inversion H; subst; discriminate.
  - intros [|[|i]] n H; cbn in H; inversion H; subst. split; [intros x y []|]. split; [discriminate|]. constructor.
  - rewrite HF. intros i t p [].
Qed.
Lemma inv_goto : forall d c, inv d -> (forall x, c = Some x -> x < List.length (nodes d)) -> inv (mkdoc (nodes d) c).
Proof. intros d c [W A K V G D] H. split; auto. apply wf_goto; assumption. Qed.
Lemma inv_attach : forall d x nx c n new cur, inv d -> current d = Some x -> nth_error (nodes d) x = Some nx -> nth_error (nodes d) c = Some n ->
  children new = [] -> cls new <> BgRoot -> parent new = Some x -> link (cls new) (cls nx) = true -> fine new -> cls n <> Text ->
  (forall y, cur = Some y -> y <= List.length (nodes d)) -> inv (mkdoc (attach (nodes d) c n new) cur).
Proof.
  intros d x nx c n new cur [W A K V G D] Hx Hnx Hn Hch Hcl Hp Hl Hf Ht Hcur. split; cbn [nodes].
  - apply wf_attach; auto. exists x. split; [exact Hp|apply (nth_lt _ _ _ _ Hnx)].
  - apply attached_attach; auto.
  - intros i m p q Hi Hpar Hq.
    assert (Hlt : p < List.length (nodes d)).
    { destruct (attach_inv _ _ _ _ _ _ Hn Hi) as [[-> ->]|(m0 & Hm & _ & E2 & _)].
      - rewrite Hp in Hpar. injection Hpar as <-. apply (nth_lt _ _ _ _ Hnx).
      - rewrite E2 in Hpar. pose proof (wf_parent d W _ _ _ Hm Hpar). pose proof (nth_lt _ _ _ _ Hm). lia. }
    destruct (attach_inv _ _ _ _ _ _ Hn Hq) as [[-> _]|(q0 & Hq0 & Eq & _)]; [lia|]. rewrite Eq.
    destruct (attach_inv _ _ _ _ _ _ Hn Hi) as [[-> ->]|(m0 & Hm & E1 & E2 & _)].
    + rewrite Hp in Hpar. injection Hpar as <-. replace q0 with nx by congruence. exact Hl.
    + rewrite E1. rewrite E2 in Hpar. apply (K _ _ _ _ Hm Hpar Hq0).
  - intros i m Hi Km. rewrite (attach_nth _ _ _ _ _ Hn) in Hi. destruct (Nat.eqb_spec i (List.length (nodes d))); [injection Hi as <-; exact Hch|].
    destruct (Nat.eqb_spec i c); [injection Hi as <-; contradiction|]. apply (V _ _ Hi Km).
  - intros i m Hi. destruct (attach_inv _ _ _ _ _ _ Hn Hi) as [[-> ->]|(m0 & Hm & E1 & _ & E3 & E4 & _)]; [exact Hf|].
    specialize (G _ _ Hm). unfold fine, style_ok in *. rewrite E1, E3, E4. exact G.
  - intros i t p I. destruct (D i t p I) as (m & Hm & C1 & C2 & C3). rewrite (attach_nth _ _ _ _ _ Hn).
    pose proof (nth_lt _ _ _ _ Hm). destruct (Nat.eqb_spec i (List.length (nodes d))); [lia|].
    destruct (Nat.eqb_spec i c) as [->|]; [|eauto]. replace m with n in * by congruence. eexists. split; [reflexivity|]. auto.
Qed.
(* a node changed in place *)
Lemma inv_set : forall d i n n', inv d -> nth_error (nodes d) i = Some n -> cls n' = cls n -> parent n' = parent n -> children n' = children n -> fine n' ->
  (cls n = Wrapping -> (forall t p, ~ In (i, (t, p)) F)) -> inv (mkdoc (set_node (nodes d) i n') (current d)).
Proof.
  intros d i n n' [W A K V G D] Hn E1 E2 E3 Hf Hfr. split; cbn [nodes].
  - eapply wf_touch; eauto.
    + rewrite E3. auto.
    + rewrite E3. apply (wf_nodup d W _ _ Hn).
    + apply (wf_current d W).
  - apply (attached_set _ _ n); auto.
  - intros j m p q Hj Hp Hq. rewrite (set_nth _ _ _ _ _ Hn) in Hj. rewrite (set_nth _ _ _ _ _ Hn) in Hq.
    assert (Hj' : exists m0, nth_error (nodes d) j = Some m0 /\ cls m0 = cls m /\ parent m0 = parent m).
    { destruct (Nat.eqb_spec j i) as [->|]; [injection Hj as <-; exists n; auto|exists m; auto]. }
    assert (Hq' : exists q0, nth_error (nodes d) p = Some q0 /\ cls q0 = cls q).
    { destruct (Nat.eqb_spec p i) as [->|]; [injection Hq as <-; exists n; auto|exists q; auto]. }
    destruct Hj' as (m0 & H1 & H2 & H3). destruct Hq' as (q0 & H4 & H5). rewrite <- H2, <- H5. apply (K j m0 p q0 H1); [congruence|exact H4].
  - intros j m Hj Km. rewrite (set_nth _ _ _ _ _ Hn) in Hj. destruct (Nat.eqb_spec j i) as [->|]; [injection Hj as <-; rewrite E3; apply (V _ _ Hn); congruence|apply (V _ _ Hj Km)].
  - intros j m Hj. rewrite (set_nth _ _ _ _ _ Hn) in Hj. destruct (Nat.eqb_spec j i) as [->|]; [injection Hj as <-; exact Hf|apply (G _ _ Hj)].
  - intros j t p I. destruct (D j t p I) as (m & Hm & C1 & C2 & C3). rewrite (set_nth _ _ _ _ _ Hn). destruct (Nat.eqb_spec j i) as [->|]; [|eauto].
    exfalso. replace m with n in * by congruence. apply (Hfr C1 t p I).
Qed.

(* nothing was made while a text was current *)
Lemma up_text : forall d, inv d -> forall c h, up (nodes d) c h -> forall n m, nth_error (nodes d) c = Some n -> nth_error (nodes d) h = Some m -> cls m = Text -> cls n = Text.
Proof.
  intros d I c h U. induction U as [c x Hx|c x p h Hx Hp U IH]; intros n m Hn Hm Km; [congruence|]. replace x with n in * by congruence.
  assert (Lp : p < List.length (nodes d)) by (pose proof (wf_parent d (i_wf d I) _ _ _ Hn Hp); pose proof (nth_lt _ _ _ _ Hn); lia).
  destruct (nth_some _ _ _ Lp) as [q Hq]. pose proof (i_link d I _ _ _ _ Hn Hp Hq) as Lk. rewrite (IH q m Hq Hm Km) in Lk. discriminate.
Qed.
Lemma link_text : forall k, link k Text = false.
Proof. reflexivity. Qed.
Lemma t_enter : forall K k a, (forall p, K p = true -> link k p = true) -> k <> BgRoot -> (forall x, fine (created k a x)) ->
  triple (at_ K) (m_enter k a) (fun i d => at_ (klass_eqb k) d /\ current d = Some i /\ (forall t p, ~ In (i, (t, p)) F)
    /\ (exists x, nth_error (nodes d) i = Some (created k a x))).
Proof.
  intros K k a HK HR Hf d [I (c & n & Hc & Hn & Hk)]. unfold m_enter, enter. destruct (append d k a) as [d' r] eqn:Ea.
  destruct (append_cases _ _ _ _ _ (i_wf d I) Ea) as [(-> & [(-> & _)|(C & _)])|H]; [congruence|congruence|].
  destruct H as (x & h & m & Hx & U & Hm & Ha & _ & Hl & -> & ->). cbn [fst snd goto nodes].
  replace x with c in * by congruence. rewrite Hc.
  assert (Hnew : nth_error (attach (nodes d) h m (created k a (Some c))) (List.length (nodes d)) = Some (created k a (Some c))).
  { rewrite (attach_nth _ _ _ _ _ Hm), Nat.eqb_refl. reflexivity. }
  split; [|split; [reflexivity|split; [|exists (Some c); exact Hnew]]].
  2:{ intros t p J. destruct (i_done d I _ _ _ J) as (z & Hz & _). apply nth_lt in Hz. lia. }
  split.
  - apply (inv_attach d c n); auto; try reflexivity; [|intros y Hy; injection Hy as <-; lia].
    intro Km. pose proof (up_text d I _ _ U _ _ Hn Hm Km) as Kn. specialize (HK _ Hk). rewrite Kn in HK. discriminate.
  - exists (List.length (nodes d)), (created k a (Some c)). cbn [current nodes]. split; [reflexivity|]. split; [exact Hnew|]. apply klass_eqb_eq. reflexivity.
Qed.
Lemma at_weak : forall (K K' : klass -> bool) d, (forall k, K k = true -> K' k = true) -> at_ K d -> at_ K' d.
Proof. intros K K' d H [I (c & n & H1 & H2 & H3)]. split; [exact I|]. exists c, n. auto. Qed.
Lemma t_push : forall K K' k a, (forall p, K p = true -> link k p = true) -> k <> BgRoot -> (forall x, fine (created k a x)) -> K' k = true ->
  triple (at_ K) (m_push k a) (fun _ => at_ K').
Proof.
  intros K K' k a H1 H2 H3 H4. unfold m_push. eapply t_bind; [apply t_enter; assumption|]. intros i. apply t_ret. intros d [A _].
  eapply at_weak; [|exact A]. intros p Hp. apply klass_eqb_eq in Hp. congruence.
Qed.
Lemma t_leave : forall (K K' : klass -> bool) kl, (forall k, K k = true -> K' k = true) -> is_any BgRoot kl = false ->
  (forall k p, is_any k kl = true -> link k p = true -> K' p = true) -> triple (at_ K) (m_leave kl) (fun _ => at_ K').
Proof.
  intros K K' kl HK HR HL d [I (c & n & Hc & Hn & Hk)]. unfold m_leave, run_op. cbn [exec]. unfold leave.
  destruct (look_ok d (fun n => is_any (cls n) kl) (i_wf d I)) as [[j|] Hr]; rewrite Hr; cbn [fst snd].
  - destruct (look_some _ _ _ Hr) as (x & m & Hx & U & Hm & Hp). rewrite Hm.
    destruct (parent m) as [q|] eqn:Eq.
    + assert (Lq : q < List.length (nodes d)) by (pose proof (wf_parent d (i_wf d I) _ _ _ Hm Eq); pose proof (nth_lt _ _ _ _ Hm); lia).
      destruct (nth_some _ _ _ Lq) as [mq Hq]. split; [apply inv_goto; [exact I|]; intros y Hy; injection Hy as <-; exact Lq|].
      exists q, mq. cbn [goto current nodes]. split; [reflexivity|]. split; [exact Hq|]. eapply HL; [exact Hp|]. apply (i_link d I _ _ _ _ Hm Eq Hq).
    + exfalso. pose proof (wf_orphan d (i_wf d I) _ _ Hm Eq) as R. subst j. destruct (wf_root d (i_wf d I)) as (rt & Hrt & Crt & _).
      replace m with rt in * by congruence. rewrite Crt in Hp. congruence.
  - split; [exact I|]. exists c, n. auto.
Qed.
Lemma t_text : forall (K : klass -> bool) s, plain s -> (wholes nq = true -> references s) -> (forall p, K p = true -> link Text p = true) -> triple (at_ K) (m_text s) (fun _ => at_ K).
Proof.
  intros K s Ps Rs HK d [I (c & n & Hc & Hn & Hk)]. unfold m_text, run_op. pose proof (exec_change d (AddText s) (i_wf d I)) as C.
  destruct (exec d (AddText s)) as [d' r] eqn:Ee. cbn [fst snd] in *.
  assert (Hok : exists u, r = Ok u).
  { cbn [exec] in Ee. unfold append_text in Ee. rewrite Hc, Hn in Ee. destruct (rev (children n)) as [|i l] eqn:Er; [injection Ee as _ <-; eauto|].
    destruct (last_rev _ _ _ 0 Er) as [_ Hi]. destruct (nth_some _ _ i (proj2 (wf_children d (i_wf d I) _ _ _ Hn Hi))) as [m Hm]. rewrite Hm in Ee.
    destruct (cls m); injection Ee as _ <-; eauto. }
  destruct Hok as [u ->].
  inversion C as [cur r Hcur Hr|k a x h m e r He|s0 c0 m Ho Hc0 Hm|s0 c0 n0 i m Ho Hc0 Hn0 Hl Hi Hm Ht|i h m r Ho|i k v m r Ho|i s0 m r Ho|i p m r Ho]; subst; try discriminate.
  - destruct (Hr s eq_refl) as [e He]. discriminate.
  - destruct He as [[He _]|[He _]]; discriminate.
  - injection Ho as <-. replace c0 with c in * by congruence. replace m with n in * by congruence. split.
    + apply (inv_attach d c n); auto; try reflexivity; try discriminate.
      * split; [intros x y []|]. split; [auto|exact Rs].
      * intro Kn. specialize (HK _ Hk). rewrite Kn in HK. discriminate.
      * intros y Hy. apply (wf_current d (i_wf d I)) in Hy. lia.
    + cbn [current nodes]. rewrite Hc. eexists c, _. split; [reflexivity|]. split.
      * rewrite (attach_nth _ _ _ _ _ Hn), Nat.eqb_refl. pose proof (nth_lt _ _ _ _ Hn). destruct (Nat.eqb_spec c (List.length (nodes d))); [lia|reflexivity].
      * exact Hk.
  - injection Ho as <-. replace c0 with c in * by congruence. replace n0 with n in * by congruence. split.
    + apply (inv_set d i m); auto; try reflexivity; [|congruence]. destruct (i_fine d I _ _ Hm) as (P1 & P2 & P3). split; [exact P1|]. split.
      * intros _. cbn [text with_text]. apply plain_app; [apply P2; exact Ht|exact Ps].
      * unfold style_ok in *. cbn [cls with_text text]. rewrite Ht in *. intro Wh. apply references_app; [apply P3|apply Rs]; exact Wh.
    + cbn [current nodes]. rewrite Hc. eexists c, _. split; [reflexivity|]. rewrite (set_nth _ _ _ _ _ Hm).
      pose proof (wf_children d (i_wf d I) _ _ _ Hn Hi). destruct (Nat.eqb_spec c i); [lia|]. split; [exact Hn|exact Hk].
Qed.
(* a table of contents *)
Lemma climb_stands : tc = true -> forall d, inv d -> forall f c h n, climb f (nodes d) (fun n => is_acceptable (cls n) MacroNode) (Some c) = Ok (Some h) ->
  nth_error (nodes d) c = Some n -> good (cls n) = true -> exists m, nth_error (nodes d) h = Some m /\ good (cls m) = true.
Proof.
  intros Ht d I. induction f as [|f IH]; intros c h n H Hn G; cbn [climb] in H; [discriminate|]. rewrite Hn in H.
  destruct (is_acceptable (cls n) MacroNode) eqn:A; [injection H as <-; eauto|].
  assert (Kn : cls n = Div).
  { assert (Z : forallb (fun k => implb (stands tc k && negb (is_acceptable k MacroNode)) (klass_eqb k Div)) all_klass = true) by (destruct tc; reflexivity).
    pose proof (klass_all _ Z (cls n)) as J. cbv beta in J. rewrite G, A in J. apply klass_eqb_eq. exact J. }
  destruct (parent n) as [q|] eqn:Eq; [|destruct f; discriminate H].
  assert (Lq : q < List.length (nodes d)) by (pose proof (wf_parent d (i_wf d I) _ _ _ Hn Eq); pose proof (nth_lt _ _ _ _ Hn); lia).
  destruct (nth_some _ _ _ Lq) as [m Hm]. apply (IH q h m H Hm). pose proof (i_link d I _ _ _ _ Hn Eq Hm) as Lk. rewrite Kn in Lk.
  assert (Z : forallb (fun k => implb (link Div k) (good k)) all_klass = true) by (rewrite Ht; reflexivity).
  pose proof (klass_all _ Z (cls m)) as J. cbv beta in J. rewrite Lk in J. exact J.
Qed.
Lemma t_contents : tc = true -> triple (at_ good) (run_op table_of_contents) (fun _ => at_ good).
Proof.
  intros Ht d [I (c & n & Hc & Hn & Hk)]. unfold run_op, table_of_contents. cbn [exec]. destruct (append d MacroNode [("editor", VOther)]) as [d' r] eqn:Ea.
  destruct (append_cases _ _ _ _ _ (i_wf d I) Ea) as [(-> & [(C & _)|(C & _)])|H]; [discriminate|congruence|].
  destruct H as (x & h & m & Hx & U & Hm & Ha & _ & Hl & -> & ->). cbn [fst snd].
  replace x with c in * by congruence. unfold look in Hl. rewrite Hc in Hl. destruct (climb_stands Ht d I _ _ _ _ Hl Hn Hk) as (m' & Hm' & Gm). replace m' with m in * by congruence.
  rewrite Hc. split.
  - apply (inv_attach d c n); auto; try reflexivity; try discriminate.
    + assert (Z : forallb (fun k => implb (good k) (link MacroNode k)) all_klass = true) by (rewrite Ht; reflexivity).
      pose proof (klass_all _ Z (cls n)) as J. cbv beta in J. rewrite Hk in J. exact J.
    + split; [intros k v [E1|[]]; injection E1 as <- <-; apply plain_list; reflexivity|]. split; [discriminate|]. exact Ht.
    + intro Km. rewrite Km in Gm. discriminate.
    + intros y Hy. injection Hy as <-. pose proof (nth_lt _ _ _ _ Hm). lia.
  - eexists h, _. cbn [current nodes]. split; [reflexivity|]. split.
    + rewrite (attach_nth _ _ _ _ _ Hm), Nat.eqb_refl. pose proof (nth_lt _ _ _ _ Hm). destruct (Nat.eqb_spec h (List.length (nodes d))); [lia|reflexivity].
    + exact Gm.
Qed.
Lemma t_ancestor : forall K kl, triple (at_ K) (m_ancestor kl) (fun r d => at_ K d /\ forall b, r = Some b -> exists n, nth_error (nodes d) b = Some n /\ is_any (cls n) kl = true).
Proof.
  intros K kl d A. destruct A as [I A]. unfold m_ancestor, ancestor. cbn [fst snd].
  destruct (look_ok d (fun n => is_any (cls n) kl) (i_wf d I)) as [r Hr]. rewrite Hr. split; [split; assumption|]. intros b ->.
  destruct (look_some _ _ _ Hr) as (x & m & Hx & U & Hm & Hp). eauto.
Qed.
Lemma t_goto : forall (K : klass -> bool) b (P : doc -> Prop), (forall d, P d -> inv d /\ exists n, nth_error (nodes d) b = Some n /\ K (cls n) = true) ->
  triple P (run_op (GoTo b)) (fun _ => at_ K).
Proof.
  intros K b P H d Pd. destruct (H d Pd) as (I & n & Hn & Hk). unfold run_op. cbn [exec]. pose proof (nth_lt _ _ _ _ Hn) as Lb.
  destruct (Nat.ltb_spec b (List.length (nodes d))); [|lia]. cbn [fst snd]. split; [apply inv_goto; [exact I|]; intros y Hy; injection Hy as <-; exact Lb|].
  exists b, n. auto.
Qed.
(* a new attribute of the current node *)
Lemma set_key_all : forall (P : string * value -> Prop) a k v, Forall P a -> P (k, v) -> Forall P (set_key a k v).
Proof.
  intros P a k v Ha Hk. induction Ha as [|[k' v'] a H Ha IH]; cbn [set_key]; [constructor; auto|]. destruct (String.eqb k' k); constructor; auto.
Qed.
Lemma t_set_url : forall (K : klass -> bool) i s, (quiets nq = true -> ~ In quote s) -> K Anchor = true ->
  triple (fun d => at_ (klass_eqb Anchor) d /\ current d = Some i) (set_url i s) (fun _ => at_ K).
Proof.
  intros K i s Hs HK d [[I (c & n & Hc & Hn & Hk)] Hi]. apply klass_eqb_eq in Hk. replace c with i in * by congruence.
  unfold set_url, run_op. cbn [exec fst snd]. unfold set_attr, update. rewrite Hn. split.
  - apply (inv_set d i n); auto; try reflexivity; [|congruence]. destruct (i_fine d I _ _ Hn) as (P1 & P2 & P3). split; [|split].
    + apply set_key_plain; [exact P1|]. apply plain_list. reflexivity.
    + cbn [cls text with_attrs]. exact P2.
    + unfold style_ok in *. cbn [cls attrs with_attrs]. rewrite <- Hk in *. apply set_key_all; [exact P3|]. split; [|split; [exact Hhref|exists s; auto]].
      split; [discriminate|]. apply forallb_forall. reflexivity.
  - exists i. eexists. cbn [current nodes]. split; [exact Hi|]. split; [rewrite (set_nth _ _ _ _ _ Hn), Nat.eqb_refl; reflexivity|]. cbn [cls with_attrs]. rewrite <- Hk. exact HK.
Qed.

(* ---- nesting ---- *)
Inductive counts (ns : list node) (p : node -> bool) : option nat -> nat -> Prop :=
| c_none : counts ns p None 0
| c_some : forall i n c, nth_error ns i = Some n -> counts ns p (parent n) c -> counts ns p (Some i) (if p n then S c else c).
Lemma count_up_counts : forall ns p f i c, count_up f ns p i = Ok c -> counts ns p i c.
Proof.
  intros ns p. induction f as [|f IH]; intros i c H; cbn [count_up] in H; [discriminate|]. destruct i as [i|]; [|injection H as <-; constructor].
  destruct (nth_error ns i) as [n|] eqn:En; [|discriminate]. destruct (count_up f ns p (parent n)) as [c'|] eqn:Ec; [|discriminate]. injection H as <-.
  constructor; [exact En|apply IH; exact Ec].
Qed.
Lemma count_up_ok : forall d p, wf d -> forall f i, (forall c, i = Some c -> c + 1 < f /\ c < List.length (nodes d)) -> f > 0 -> exists r, count_up f (nodes d) p i = Ok r.
Proof.
  intros d p W. induction f as [|f IH]; intros i H Fp; [lia|]. cbn [count_up]. destruct i as [i|]; [|eauto].
  destruct (H i eq_refl) as [H1 H2]. destruct (nth_some _ _ _ H2) as [n Hn]. rewrite Hn.
  destruct (IH (parent n)) as [r ->]; [|lia|eauto]. intros c Hc. pose proof (wf_parent d W _ _ _ Hn Hc). lia.
Qed.
Lemma counts_climb : forall ns p i c, counts ns p i c -> forall k f r, c = S k -> climb f ns p i = Ok r ->
  exists j m, r = Some j /\ nth_error ns j = Some m /\ p m = true /\ counts ns p (parent m) k.
Proof.
  intros ns p i c H. induction H as [|i n c Hn H IH]; intros k f r Hc Hr; [discriminate|]. destruct f as [|f]; [discriminate|]. cbn [climb] in Hr. rewrite Hn in Hr.
  destruct (p n) eqn:Ep.
  - injection Hr as <-. injection Hc as <-. exists i, n. auto.
  - apply (IH _ _ _ Hc Hr).
Qed.
Definition is_list (n : node) : bool := is_any (cls n) [ListEl].
Lemma is_list_cls : forall k, is_any k [ListEl] = true -> k = ListEl.
Proof. intros k H. apply klass_eqb_eq. assert (G : forallb (fun k => implb (is_any k [ListEl]) (klass_eqb k ListEl)) all_klass = true) by reflexivity.
  pose proof (klass_all _ G k) as J. cbv beta in J. rewrite H in J. exact J. Qed.
Lemma is_item_cls : forall k, is_any k [Itemize] = true -> k = Itemize.
Proof. intros k H. apply klass_eqb_eq. assert (G : forallb (fun k => implb (is_any k [Itemize]) (klass_eqb k Itemize)) all_klass = true) by reflexivity.
  pose proof (klass_all _ G k) as J. cbv beta in J. rewrite H in J. exact J. Qed.
Definition counted (K : klass -> bool) (n : nat) (d : doc) : Prop := at_ K d /\ counts (nodes d) is_list (current d) n.
Lemma t_count_lists : forall K, triple (at_ K) (m_count [ListEl]) (fun n => counted K n).
Proof.
  intros K d A. unfold m_count. cbn [fst snd]. destruct (count_up_ok d is_list (i_wf d (proj1 A)) (S (fuel d)) (current d)) as [c Hc]; [|lia|].
  - intros c Hc. pose proof (wf_current d (i_wf d (proj1 A)) c Hc). unfold fuel. lia.
  - unfold count_nesting. change (fun n => is_any (cls n) [ListEl]) with is_list. rewrite Hc. split; [exact A|]. eapply count_up_counts. exact Hc.
Qed.
Lemma t_count : forall K kl, triple (at_ K) (m_count kl) (fun _ => at_ K).
Proof.
  intros K kl d A. unfold m_count. cbn [fst snd]. destruct (count_up_ok d (fun n => is_any (cls n) kl) (i_wf d (proj1 A)) (S (fuel d)) (current d)) as [c Hc]; [|lia|].
  - intros c Hc. pose proof (wf_current d (i_wf d (proj1 A)) c Hc). unfold fuel. lia.
  - unfold count_nesting. rewrite Hc. exact A.
Qed.
(* where lists can be entered *)
Definition roomy (k : klass) : bool := good k || klass_eqb k ListEl.
Lemma leave_list : forall n, triple (counted roomy (S n)) (m_leave [ListEl]) (fun _ => counted roomy n).
Proof.
  intros n d [[I (c & m & Hc & Hm & Hk)] C]. unfold m_leave, run_op. cbn [exec]. unfold leave. change (fun n => is_any (cls n) [ListEl]) with is_list.
  destruct (look_ok d is_list (i_wf d I)) as [r Hr]. rewrite Hr. unfold look in Hr.
  destruct (counts_climb _ _ _ _ C n _ _ eq_refl Hr) as (j & x & -> & Hx & Px & Cx). cbn [fst snd]. rewrite Hx. pose proof Px as Hl. apply is_list_cls in Hl.
  assert (Hq : exists q mq, parent x = Some q /\ nth_error (nodes d) q = Some mq).
  { destruct (parent x) as [q|] eqn:Eq.
    - pose proof (wf_parent d (i_wf d I) _ _ _ Hx Eq). pose proof (nth_lt _ _ _ _ Hx). destruct (nth_some _ (nodes d) q) as [mq Hq]; [lia|]. eauto.
    - pose proof (wf_orphan d (i_wf d I) _ _ Hx Eq) as R. subst j. destruct (wf_root d (i_wf d I)) as (rt & Hrt & Crt & _). congruence. }
  destruct Hq as (q & mq & Eq & Hq). rewrite Eq in *. split; [|exact Cx]. split.
  - apply inv_goto; [exact I|]. intros y Hy. injection Hy as <-. apply (nth_lt _ _ _ _ Hq).
  - exists q, mq. cbn [goto current nodes]. split; [reflexivity|]. split; [exact Hq|]. pose proof (i_link d I _ _ _ _ Hx Eq Hq) as Lk. rewrite Hl in Lk.
    assert (G : forallb (fun k => implb (link ListEl k) (roomy k)) all_klass = true) by (unfold roomy; destruct tc; reflexivity).
    pose proof (klass_all _ G (cls mq)) as J. cbv beta in J. rewrite Lk in J. exact J.
Qed.
Lemma leave_lists : forall k n, k <= n -> triple (counted roomy n) (m_each m_leave (repeat [ListEl] k)) (fun _ => counted roomy (n - k)).
Proof.
  induction k as [|k IH]; intros n H; cbn [repeat m_each].
  - apply t_ret. rewrite Nat.sub_0_r. auto.
  - destruct n as [|n]; [lia|]. eapply t_bind; [apply leave_list|]. intros []. replace (S n - S k) with (n - k) by lia. apply IH. lia.
Qed.
Lemma unnest_lists : forall indent nest, triple (counted roomy nest) (unnest indent nest [ListEl]) (fun r d => r = min nest indent /\ counted roomy r d).
Proof.
  intros. unfold unnest. eapply t_bind; [apply leave_lists; lia|]. intros []. apply t_ret. intros d H. split; [reflexivity|].
  replace (min nest indent) with (nest - (nest - indent)) by lia. exact H.
Qed.
(* within a list and not within an item: at the list *)
Lemma at_list : forall d, inv d -> forall i c, i < List.length (nodes d) -> counts (nodes d) is_list (Some i) c -> c > 0 ->
  (forall j n, up (nodes d) i j -> nth_error (nodes d) j = Some n -> is_any (cls n) [Itemize] = false) -> exists n, nth_error (nodes d) i = Some n /\ cls n = ListEl.
Proof.
  intros d I. apply (well_founded_induction lt_wf (fun i => forall c, i < List.length (nodes d) -> counts (nodes d) is_list (Some i) c -> c > 0 ->
    (forall j n, up (nodes d) i j -> nth_error (nodes d) j = Some n -> is_any (cls n) [Itemize] = false) -> exists n, nth_error (nodes d) i = Some n /\ cls n = ListEl)).
  intros i IH c Hi C Hc No. inversion C as [|i' n c' Hn C' Ei Ec]; subst i'. exists n. split; [exact Hn|].
  destruct (is_list n) eqn:El; [apply is_list_cls; exact El|]. subst c'.
  destruct (parent n) as [q|] eqn:Eq; [|inversion C'; subst; lia].
  pose proof (wf_parent d (i_wf d I) _ _ _ Hn Eq) as Lt.
  destruct (IH q Lt c) as (m & Hm & Km); [lia|exact C'|exact Hc| |].
  - intros j x U Hx. apply (No j x); [|exact Hx]. eapply up_more; eassumption.
  - pose proof (i_link d I _ _ _ _ Hn Eq Hm) as Lk. rewrite Km in Lk. cbn [link] in Lk. apply orb_prop in Lk. destruct Lk as [Lk|Lk]; apply klass_eqb_eq in Lk; [exact Lk|].
    exfalso. assert (Z : is_any (cls n) [Itemize] = false) by (apply (No i n); [econstructor; exact Hn|exact Hn]). rewrite Lk in Z. discriminate.
Qed.
Lemma leave_item : forall n, n > 0 -> triple (counted roomy n) (m_leave [Itemize]) (fun _ => at_ (klass_eqb ListEl)).
Proof.
  intros n Hn d [[I (c & m & Hc & Hm & Hk)] C]. unfold m_leave, run_op. cbn [exec]. unfold leave.
  destruct (look_ok d (fun n => is_any (cls n) [Itemize]) (i_wf d I)) as [[j|] Hr]; rewrite Hr; cbn [fst snd].
  - destruct (look_some _ _ _ Hr) as (x & y & Hx & U & Hy & Hp). rewrite Hy. apply is_item_cls in Hp.
    destruct (parent y) as [q|] eqn:Eq.
    + assert (Lq : q < List.length (nodes d)) by (pose proof (wf_parent d (i_wf d I) _ _ _ Hy Eq); pose proof (nth_lt _ _ _ _ Hy); lia).
      destruct (nth_some _ _ _ Lq) as [mq Hq]. split; [apply inv_goto; [exact I|]; intros z Hz; injection Hz as <-; exact Lq|].
      exists q, mq. cbn [goto current nodes]. split; [reflexivity|]. split; [exact Hq|]. pose proof (i_link d I _ _ _ _ Hy Eq Hq) as Lk. rewrite Hp in Lk.
      assert (G : forallb (fun k => implb (link Itemize k) (klass_eqb ListEl k)) all_klass = true) by (destruct tc; reflexivity).
      pose proof (klass_all _ G (cls mq)) as J. cbv beta in J. rewrite Lk in J. exact J.
    + exfalso. pose proof (wf_orphan d (i_wf d I) _ _ Hy Eq) as R. subst j. destruct (wf_root d (i_wf d I)) as (rt & Hrt & Crt & _). congruence.
  - rewrite Hc in C. unfold look in Hr. rewrite Hc in Hr.
    destruct (at_list d I c n) as (y & Hy & Ky); [apply (nth_lt _ _ _ _ Hm)|exact C|exact Hn|apply (climb_none _ _ _ _ Hr)|].
    split; [exact I|]. exists c, y. split; [exact Hc|]. split; [exact Hy|]. apply klass_eqb_eq. auto.
Qed.
End Inv.
