(* A document that is built from the front to the back is written as it was built *)
From Verif Require Import Py PyFacts HtmlModel HtmlSpec HtmlProofs TreeModel TreeSpec TreeProofs TreeVisit TreeText.
Open Scope list_scope.
Open Scope nat_scope.

Section Stream.
Variables (order : list string) (rst : str -> res str).
Notation open := (open order).
Notation close := (close order rst).

(* what a node and the nodes below it give, all of them numbered from lo to hi *)
Inductive wr (ns : list node) (lo hi : nat) : nat -> str -> Prop :=
| wr_node : forall i n o c s, lo <= i -> i < hi -> nth_error ns i = Some n -> open n = Ok o -> close n = Ok c -> wrs ns lo hi (children n) s -> wr ns lo hi i (o ++ s ++ c)
with wrs (ns : list node) (lo hi : nat) : list nat -> str -> Prop :=
| wrs_nil : wrs ns lo hi [] []
| wrs_cons : forall i l s t, wr ns lo hi i s -> wrs ns lo hi l t -> wrs ns lo hi (i :: l) (s ++ t).
Scheme wr_ind2 := Induction for wr Sort Prop with wrs_ind2 := Induction for wrs Sort Prop.
Lemma wr_frame : forall ns ns' lo hi lo' hi', lo' <= lo -> hi <= hi' -> (forall j, lo <= j < hi -> nth_error ns' j = nth_error ns j) ->
  forall i s, wr ns lo hi i s -> wr ns' lo' hi' i s.
Proof.
  intros ns ns' lo hi lo' hi' H1 H2 H3 i s H. induction H using wr_ind2 with (P0 := fun l s _ => wrs ns' lo' hi' l s); [|constructor|constructor; assumption].
  econstructor; try eassumption; try lia. rewrite H3 by lia. assumption.
Qed.
Lemma wrs_frame : forall ns ns' lo hi lo' hi', lo' <= lo -> hi <= hi' -> (forall j, lo <= j < hi -> nth_error ns' j = nth_error ns j) ->
  forall l s, wrs ns lo hi l s -> wrs ns' lo' hi' l s.
Proof.
  intros ns ns' lo hi lo' hi' H1 H2 H3 l s H. induction H as [|i l s t H _ IH]; constructor; [|exact IH]. eapply wr_frame; eassumption.
Qed.
Lemma wrs_app : forall ns lo hi a s, wrs ns lo hi a s -> forall b t, wrs ns lo hi b t -> wrs ns lo hi (a ++ b) (s ++ t).
Proof. intros ns lo hi a s H. induction H as [|i l s u H _ IH]; intros b t Hb; [exact Hb|]. cbn [app]. rewrite <- app_assoc. constructor; auto. Qed.
Lemma wrs_one : forall ns lo hi i s, wr ns lo hi i s -> wrs ns lo hi [i] s.
Proof. intros. rewrite <- (app_nil_r s). constructor; [assumption|constructor]. Qed.
(* what is written up to a node and the first of its children, the latter numbered below b *)
Inductive pre (ns : list node) : nat -> nat -> list nat -> str -> Prop :=
| pre_root : forall b n o cs s, root < b -> nth_error ns root = Some n -> open n = Ok o -> wrs ns 1 b cs s -> pre ns b root cs (o ++ s)
| pre_in : forall b q nq cs0 s p n o cs t, pre ns p q cs0 s -> nth_error ns q = Some nq -> children nq = cs0 ++ [p] -> q < p -> p < b ->
    nth_error ns p = Some n -> parent n = Some q -> open n = Ok o -> wrs ns (S p) b cs t -> pre ns b p cs (s ++ o ++ t).
(* what is written after a node's children *)
Inductive post (ns : list node) : nat -> str -> Prop :=
| post_root : forall n c, nth_error ns root = Some n -> close n = Ok c -> post ns root c
| post_in : forall p q n c t, nth_error ns p = Some n -> parent n = Some q -> q < p -> close n = Ok c -> post ns q t -> post ns p (c ++ t).
Lemma pre_widen : forall ns b p cs s, pre ns b p cs s -> forall b', b <= b' -> pre ns b' p cs s.
Proof.
  intros ns b p cs s H. destruct H; intros b' Hb.
  - econstructor; try eassumption; [lia|]. eapply wrs_frame; [| | |eassumption]; auto.
  - econstructor; try eassumption; [lia|]. eapply wrs_frame; [| | |eassumption]; auto.
Qed.
Lemma pre_more : forall ns b p cs s, pre ns b p cs s -> forall l t, wrs ns (S p) b l t -> pre ns b p (cs ++ l) (s ++ t).
Proof.
  intros ns b p cs s H. destruct H; intros l u Hl.
  - rewrite <- app_assoc. econstructor; try eassumption. apply wrs_app; assumption.
  - rewrite <- !app_assoc. econstructor; try eassumption. apply wrs_app; assumption.
Qed.
Lemma wrs_root : forall ns n b cs s t c, nth_error ns root = Some n -> close n = Ok c -> children n = cs -> forall o, open n = Ok o -> root < b -> wrs ns 1 b cs s -> t = o ++ s ++ c -> wr ns 0 b root t.
Proof.
  intros ns n b cs s t c Hn Hc Hch o Ho Hb Hw ->. econstructor; try eassumption; [unfold root; lia|]. rewrite Hch. eapply wrs_frame; [| |reflexivity|exact Hw]; lia.
Qed.
Lemma whole : forall ns b p cs s, pre ns b p cs s -> forall n ex e t b', nth_error ns p = Some n -> children n = cs ++ ex -> wrs ns (S p) b' ex e -> b <= b' -> p < b' -> post ns p t ->
  wr ns 0 b' root (s ++ e ++ t).
Proof.
  intros ns b p cs s H. induction H as [b n o cs s Hb Hn Ho Hw|b q nq cs0 s p n o cs t0 H IH Hq Hcq Hlt Hb Hn Hp Ho Hw]; intros m ex e t b' Hm Hch He Hb' Hp' Ht.
  - replace m with n in * by congruence. inversion Ht as [n' c Hn' Hc|p' q' n' c' t' Hn' Hp2 Hl]; subst; [|unfold root in Hl; lia]. replace n' with n in * by congruence.
    eapply (wrs_root ns n b' (children n) (s ++ e) _ t Hn Hc eq_refl o Ho); [exact Hp'| |rewrite <- !app_assoc; reflexivity].
    rewrite Hch. apply wrs_app; [eapply wrs_frame; [| |reflexivity|exact Hw]; lia|exact He].
  - replace m with n in * by congruence. inversion Ht as [n' c Hn' Hc|p' q' n' c t' Hn' Hp2 Hl Hc Ht']; subst; [unfold root in *; lia|].
    replace n' with n in * by congruence. assert (q' = q) by congruence. subst q'.
    replace ((s ++ o ++ t0) ++ e ++ c ++ t') with (s ++ (o ++ (t0 ++ e) ++ c) ++ t') by (rewrite <- !app_assoc; reflexivity).
    apply (IH nq [p] _ t' b' Hq Hcq); [|lia|lia|exact Ht'].
    apply wrs_one. econstructor; try eassumption; try lia. rewrite Hch.
    apply wrs_app; (eapply wrs_frame; [| |reflexivity|eassumption]; lia).
Qed.
(* from there to the writer *)
Definition gives (ns : list node) (l : list visit) (s : str) : Prop := exists ss, mapM (write1 order rst ns) l = Ok ss /\ List.concat ss = s.
Lemma gives_app : forall ns a s b t, gives ns a s -> gives ns b t -> gives ns (a ++ b) (s ++ t).
Proof.
  intros ns a s b t (x & H1 & <-) (y & H2 & <-). exists (x ++ y). split; [|apply concat_app]. apply mapM_app_ok. exists x, y. auto.
Qed.
Lemma gives_one : forall ns v s, write1 order rst ns v = Ok s -> gives ns [v] s.
Proof. intros ns v s H. exists [s]. cbn [mapM]. rewrite H. split; [reflexivity|]. cbn. apply app_nil_r. Qed.
Lemma wr_gives : forall ns lo hi i s, wr ns lo hi i s -> forall f l, accept f ns i = Ok l -> gives ns l s.
Proof.
  intros ns lo hi i s H. induction H using wr_ind2 with (P0 := fun cs s _ => forall f ls, Forall2 (fun c l => accept f ns c = Ok l) cs ls -> gives ns (List.concat ls) s).
  - intros f vs Ha. destruct (accept_inv _ _ _ _ Ha) as (m & ls & f' & -> & Hm & F & ->). replace m with n in * by congruence.
    change (VEnter i :: List.concat ls ++ [VLeave i]) with ([VEnter i] ++ List.concat ls ++ [VLeave i]).
    apply gives_app; [apply gives_one; cbn [write1]; rewrite Hm; assumption|]. apply gives_app; [apply (IHwr f' ls F)|apply gives_one; cbn [write1]; rewrite Hm; assumption].
  - intros f ls F. inversion F. exists []. auto.
  - intros f ls F. inversion F; subst. cbn [List.concat]. apply gives_app; [eapply IHwr; eassumption|eapply IHwr0; eassumption].
Qed.
Lemma wr_render : forall d b s, wf d -> wr (nodes d) 0 b root s -> render order rst d = Ok s.
Proof.
  intros d b s W H. destruct (visit_ok d W) as (l & Hl & _). unfold render. rewrite Hl. destruct (wr_gives _ _ _ _ _ H _ _ Hl) as (ss & -> & ->). reflexivity.
Qed.

(* ---- the state of the editor ---- *)
(* the open elements, from the inside to the outside *)
Inductive path (ns : list node) : nat -> list (klass * list (string * value)) -> Prop :=
| path_root : forall n, nth_error ns root = Some n -> cls n = BgRoot -> path ns root []
| path_in : forall p q n st, nth_error ns p = Some n -> parent n = Some q -> q < p -> cls n <> BgRoot -> cls n <> Text -> text n = [] -> processor n = None -> path ns q st -> path ns p ((cls n, attrs n) :: st).
Record at_back (d : doc) (st : list (klass * list (string * value))) (s : str) (pend : option str) : Prop := {
  ab_wf : wf d;
  ab_cur : exists c n, current d = Some c /\ nth_error (nodes d) c = Some n /\ path (nodes d) c st
    /\ match pend with
       | None => pre (nodes d) (List.length (nodes d)) c (children n) s
                 /\ forall x i m, children n = x ++ [i] -> nth_error (nodes d) i = Some m -> cls m <> Text
       | Some t => exists x i m, children n = x ++ [i] /\ nth_error (nodes d) i = Some m /\ cls m = Text /\ text m = t /\ children m = [] /\ c < i
                   /\ pre (nodes d) i c x s
       end }.
Definition pended (pend : option str) : str := match pend with Some t => t ++ nl | None => [] end.
(* all of it, whatever the last text *)
Lemma settle : forall d st s pend, at_back d st s pend -> exists c n, current d = Some c /\ nth_error (nodes d) c = Some n /\ path (nodes d) c st
  /\ pre (nodes d) (List.length (nodes d)) c (children n) (s ++ pended pend).
Proof.
  intros d st s pend [W (c & n & Hc & Hn & Hp & H)]. exists c, n. split; [exact Hc|]. split; [exact Hn|]. split; [exact Hp|]. destruct pend as [t|]; cbn [pended].
  - destruct H as (x & i & m & Hx & Hi & K & <- & Ech & Lt & Hpre). rewrite Hx. pose proof (nth_lt _ _ _ _ Hi).
    apply pre_more; [eapply pre_widen; [exact Hpre|lia]|]. apply wrs_one. replace (text m ++ nl) with (text m ++ [] ++ nl) by reflexivity. econstructor; try eassumption; try lia.
    + unfold TreeModel.open. rewrite K. reflexivity.
    + unfold TreeModel.close. rewrite K. reflexivity.
    + rewrite Ech. constructor.
  - rewrite app_nil_r. apply H.
Qed.
Lemma back_new : at_back new_doc [] [] None.
Proof.
  split; [apply wf_new|]. exists root. eexists. cbn [current nodes new_doc]. split; [reflexivity|]. split; [reflexivity|]. split.
  - econstructor; reflexivity.
  - split; [|intros [|? x] i m H; discriminate H].
    eapply (pre_root _ _ _ [] [] []); [unfold root; cbn; lia|reflexivity|reflexivity|constructor].
Qed.
(* attaching a node to the current one *)
Lemma pre_low : forall ns ns' b p cs s, pre ns b p cs s -> (forall j, j < b -> nth_error ns' j = nth_error ns j) -> pre ns' b p cs s.
Proof.
  intros ns ns' b p cs s H. induction H as [b n o cs s Hb Hn Ho Hw|b q nq cs0 s p n o cs t0 H IH Hq Hcq Hlt Hb Hn Hp Ho Hw]; intros F.
  - econstructor; [exact Hb|rewrite F by exact Hb; exact Hn|exact Ho|]. eapply wrs_frame; [| | |exact Hw]; auto. intros j Hj. apply F. lia.
  - econstructor; [apply IH; intros j Hj; apply F; lia|rewrite F by lia; exact Hq|exact Hcq|exact Hlt|exact Hb|rewrite F by lia; exact Hn|exact Hp|exact Ho|].
    eapply wrs_frame; [| | |exact Hw]; auto. intros j Hj. apply F. lia.
Qed.
Lemma open_children : forall n x, open (with_children n x) = open n.
Proof. intros [] x. reflexivity. Qed.
Lemma pre_touch : forall ns ns' b p cs s n x, pre ns b p cs s -> nth_error ns p = Some n -> nth_error ns' p = Some (with_children n x) ->
  (forall j, j < b -> j <> p -> nth_error ns' j = nth_error ns j) -> pre ns' b p cs s.
Proof.
  intros ns ns' b p cs s n x H Hn Hn' F. destruct H as [b m o cs s Hb Hm Ho Hw|b q nq cs0 s p m o cs t0 H Hq Hcq Hlt Hb Hm Hp Ho Hw].
  - replace m with n in * by congruence. econstructor; [exact Hb|exact Hn'|rewrite open_children; exact Ho|]. eapply wrs_frame; [| | |exact Hw]; auto. intros j Hj. apply F; unfold root; lia.
  - replace m with n in * by congruence. econstructor; [eapply pre_low; [exact H|]; intros j Hj; apply F; lia|rewrite F by lia; exact Hq|exact Hcq|exact Hlt|exact Hb|exact Hn'|exact Hp|rewrite open_children; exact Ho|].
    eapply wrs_frame; [| | |exact Hw]; auto. intros j Hj. apply F; lia.
Qed.
Lemma path_touch : forall ns ns' c st, path ns c st -> (forall j m, j <= c -> nth_error ns j = Some m -> exists x, nth_error ns' j = Some (with_children m x)) -> path ns' c st.
Proof.
  intros ns ns' c st H. induction H as [n Hn K|p q n st Hn Hp Hl K1 K2 K3 K4 H IH]; intros F.
  - destruct (F root n (le_n _) Hn) as [x Hx]. econstructor; [exact Hx|exact K].
  - destruct (F p n (le_n _) Hn) as [x Hx]. change (cls n, attrs n) with (cls (with_children n x), attrs (with_children n x)).
    econstructor; [exact Hx|exact Hp|exact Hl|exact K1|exact K2|exact K3|exact K4|]. apply IH. intros j m Hj. apply F. lia.
Qed.
Lemma with_same : forall m, m = with_children m (children m).
Proof. intros []. reflexivity. Qed.
Lemma touched : forall ns c n new j m, nth_error ns c = Some n -> nth_error ns j = Some m -> exists x, nth_error (attach ns c n new) j = Some (with_children m x).
Proof.
  intros ns c n new j m Hn Hj. rewrite (attach_nth _ _ _ _ _ Hn). pose proof (nth_lt _ _ _ _ Hj). destruct (Nat.eqb_spec j (List.length ns)); [lia|].
  destruct (Nat.eqb_spec j c) as [->|]; [replace m with n by congruence; eauto|]. exists (children m). rewrite <- with_same. exact Hj.
Qed.
(* entering an element that the current one holds *)
Lemma back_enter : forall d st s pend k a o, at_back d st s pend -> is_acceptable (match st with (c, _) :: _ => c | [] => BgRoot end) k = true -> k <> BgRoot -> k <> Text ->
  open (created k a None) = Ok o -> exists d', exec d (Enter k a) = (d', Ok tt) /\ at_back d' ((k, match k with Wrapping => [] | _ => a end) :: st) (s ++ pended pend ++ o) None.
Proof.
  intros d st s pend k a o B Hk HR HT Ho. pose proof (ab_wf _ _ _ _ B) as W. destruct (settle _ _ _ _ B) as (c & n & Hc & Hn & Hp & Hpre).
  pose proof (exec_wf d (Enter k a) W) as W'. cbn [exec] in *. unfold enter in *. destruct (append d k a) as [d' r] eqn:Ea.
  assert (Hcls : cls n = match st with (c, _) :: _ => c | [] => BgRoot end).
  { inversion Hp as [m Hm K E1 E2|p q m st' Hm Hpar Hl K1 K2 K3 K4 H E1 E2]; subst; replace m with n in * by congruence; [exact K|reflexivity]. }
  rewrite <- Hcls in Hk.
  destruct (append_cases _ _ _ _ _ W Ea) as [(-> & [(-> & _)|(C & _)])|(x & h & m & Hx & U & Hm & Ha & _ & Hl & -> & ->)]; [congruence|congruence|].
  assert (h = c).
  { unfold look in Hl. rewrite Hc in Hl. cbn [climb] in Hl. rewrite Hn, Hk in Hl. injection Hl as <-. reflexivity. }
  subst h. replace m with n in * by congruence. cbn [fst snd goto nodes] in *. eexists. split; [reflexivity|]. split; [exact W'|].
  pose proof (nth_lt _ _ _ _ Hn) as Lc.
  assert (Hnew : nth_error (attach (nodes d) c n (created k a (current d))) (List.length (nodes d)) = Some (created k a (current d))) by (rewrite (attach_nth _ _ _ _ _ Hn), Nat.eqb_refl; reflexivity).
  exists (List.length (nodes d)), (created k a (current d)). cbn [current nodes goto]. split; [reflexivity|]. split; [exact Hnew|]. split; [|split].
  - change (k, match k with Wrapping => [] | _ => a end) with (cls (created k a (current d)), attrs (created k a (current d))).
    econstructor; [exact Hnew|exact Hc|exact Lc|exact HR|exact HT|reflexivity|reflexivity|].
    eapply path_touch; [exact Hp|]. intros j y Hj Hy. apply touched; assumption.
  - cbn [created children]. rewrite (attach_length _ _ _ _ Hn). replace (s ++ pended pend ++ o) with ((s ++ pended pend) ++ o ++ []) by (rewrite app_nil_r, <- app_assoc; reflexivity).
    eapply pre_in with (q := c) (nq := with_children n (children n ++ [List.length (nodes d)])).
    + eapply pre_touch; [exact Hpre|exact Hn| |].
      * rewrite (attach_nth _ _ _ _ _ Hn). destruct (Nat.eqb_spec c (List.length (nodes d))); [lia|]. rewrite Nat.eqb_refl. reflexivity.
      * intros j Hj Nj. rewrite (attach_nth _ _ _ _ _ Hn). destruct (Nat.eqb_spec j (List.length (nodes d))); [lia|]. destruct (Nat.eqb_spec j c); [contradiction|reflexivity].
    + rewrite (attach_nth _ _ _ _ _ Hn). destruct (Nat.eqb_spec c (List.length (nodes d))); [lia|]. rewrite Nat.eqb_refl. reflexivity.
    + reflexivity.
    + exact Lc.
    + lia.
    + exact Hnew.
    + exact Hc.
    + exact Ho.
    + constructor.
  - intros y i z H. cbn [created children] in H. destruct y; discriminate H.
Qed.
(* leaving the current element *)
Lemma back_leave : forall d k a st s pend ks c, at_back d ((k, a) :: st) s pend -> is_any k ks = true ->
  close (mknode k a [] None None []) = Ok c -> exists d', exec d (Leave ks) = (d', Ok tt) /\ at_back d' st (s ++ pended pend ++ c) None.
Proof.
  intros d k a st s pend ks c B Hk Hcl. pose proof (ab_wf _ _ _ _ B) as W. destruct (settle _ _ _ _ B) as (p & n & Hc & Hn & Hp & Hpre).
  pose proof (exec_wf d (Leave ks) W) as W'. cbn [exec] in *. unfold leave in *.
  inversion Hp as [|p' q m st' Hm Hpar Hlt K1 K2 K3 K4 H E1 E2]. subst p'. subst st'. subst k a. replace m with n in * by congruence. clear m Hm.
  assert (El : look d (fun n => is_any (cls n) ks) = Ok (Some p)).
  { unfold look. rewrite Hc. cbn [climb]. rewrite Hn, Hk. reflexivity. }
  rewrite El, Hn in *. cbn [fst snd] in *. eexists. split; [reflexivity|]. split; [exact W'|]. rewrite Hpar.
  assert (Hcl' : close n = Ok c) by (rewrite <- Hcl; destruct n; cbn in *; subst; reflexivity).
  remember (List.length (nodes d)) as b eqn:Eb. remember (s ++ pended pend) as u eqn:Eu. remember (children n) as cs eqn:Ecs.
  destruct Hpre as [b m o cs s0 Hb Hm Ho Hw|b q' nq cs0 s0 p m o cs t0 Hq0 Hq Hcq Hl2 Hb Hm Hp2 Ho Hw]; [exfalso; unfold root in Hlt; lia|].
  replace m with n in * by congruence. assert (q' = q) by congruence. subst q'.
  exists q, nq. cbn [current nodes goto]. split; [reflexivity|]. split; [exact Hq|]. split; [exact H|]. rewrite <- Eb. split.
  - rewrite Hcq. replace (s ++ pended pend ++ c) with (s0 ++ o ++ t0 ++ c) by (rewrite (app_assoc s), <- Eu, <- !app_assoc; reflexivity).
    apply pre_more; [eapply pre_widen; [exact Hq0|lia]|]. apply wrs_one. econstructor; try eassumption; try lia. rewrite <- Ecs. eapply wrs_frame; [| |reflexivity|exact Hw]; lia.
  - intros x i z E1 E2. rewrite Hcq in E1. apply app_inj_tail in E1. destruct E1 as [_ <-]. replace z with n by congruence. exact K2.
Qed.
(* a text of its own *)
Lemma back_leaf : forall d st s pend t, at_back d st s pend -> exists c n, current d = Some c /\ nth_error (nodes d) c = Some n
  /\ at_back (mkdoc (attach (nodes d) c n (mknode Text [] t None (Some c) [])) (Some c)) st (s ++ pended pend) (Some t).
Proof.
  intros d st s pend t B. pose proof (ab_wf _ _ _ _ B) as W. destruct (settle _ _ _ _ B) as (c & n & Hc & Hn & Hp & Hpre). exists c, n. split; [exact Hc|]. split; [exact Hn|].
  pose proof (nth_lt _ _ _ _ Hn) as Lc. split.
  { apply wf_attach; [exact W|exact Hn|reflexivity|discriminate|exists c; split; [reflexivity|exact Lc]|]. intros x E. injection E as <-. lia. }
  assert (Hnc : nth_error (attach (nodes d) c n (mknode Text [] t None (Some c) [])) c = Some (with_children n (children n ++ [List.length (nodes d)]))).
  { rewrite (attach_nth _ _ _ _ _ Hn). destruct (Nat.eqb_spec c (List.length (nodes d))); [lia|]. rewrite Nat.eqb_refl. reflexivity. }
  exists c. eexists. cbn [current nodes]. split; [reflexivity|]. split; [exact Hnc|]. split; [eapply path_touch; [exact Hp|]; intros j y Hj Hy; apply touched; assumption|].
  exists (children n), (List.length (nodes d)), (mknode Text [] t None (Some c) []). split; [reflexivity|].
  split; [rewrite (attach_nth _ _ _ _ _ Hn), Nat.eqb_refl; reflexivity|]. do 3 (split; [reflexivity|]). split; [exact Lc|].
  eapply pre_touch; [exact Hpre|exact Hn|exact Hnc|].
  intros j Hj Nj. rewrite (attach_nth _ _ _ _ _ Hn). destruct (Nat.eqb_spec j (List.length (nodes d))); [lia|]. destruct (Nat.eqb_spec j c); [contradiction|reflexivity].
Qed.
Lemma back_text : forall d st s pend t, at_back d st s pend -> exists d', exec d (AddText t) = (d', Ok tt)
  /\ at_back d' st s (Some (match pend with Some u => u | None => [] end ++ t)).
Proof.
  intros d st s pend t B. pose proof B as B0. destruct B as [W (c & n & Hc & Hn & Hp & H)]. pose proof (exec_wf d (AddText t) W) as W'. cbn [exec] in *. unfold append_text in *. rewrite Hc, Hn in *.
  destruct pend as [u|].
  - destruct H as (x & i & m & Hx & Hi & K & Tm & Ech & Lt & Hpre). rewrite Hx, rev_app_distr in *. cbn [rev app] in *. rewrite Hi, K in *. cbn [fst] in W'.
    eexists. split; [reflexivity|]. split; [exact W'|]. unfold update in *. rewrite Hi in *. cbn [nodes current] in *.
    assert (F : forall j, j <> i -> nth_error (set_node (nodes d) i (with_text m (text m ++ t))) j = nth_error (nodes d) j).
    { intros j Nj. rewrite (set_nth _ _ _ _ _ Hi). destruct (Nat.eqb_spec j i); [contradiction|reflexivity]. }
    exists c, n. split; [exact Hc|]. split; [rewrite F by lia; exact Hn|]. split.
    { eapply path_touch; [exact Hp|]. intros j y Hj Hy. exists (children y). rewrite <- with_same, F by lia. exact Hy. }
    exists x, i, (with_text m (text m ++ t)). split; [exact Hx|]. split; [rewrite (set_nth _ _ _ _ _ Hi), Nat.eqb_refl; reflexivity|]. split; [exact K|].
    split; [cbn [with_text text]; rewrite Tm; reflexivity|]. split; [exact Ech|]. split; [exact Lt|].
    eapply pre_low; [exact Hpre|]. intros j Hj. apply F. lia.
  - destruct H as [Hpre Hlast]. destruct (back_leaf _ _ _ _ t B0) as (c' & n' & Hc' & Hn' & New). assert (c' = c) by congruence. subst c'. assert (n' = n) by congruence. subst n'.
    cbn [pended] in New. rewrite app_nil_r in New. destruct (rev (children n)) as [|i l] eqn:Er.
    + eexists. split; [reflexivity|]. exact New.
    + assert (Ech : children n = rev l ++ [i]) by (rewrite <- (rev_involutive (children n)), Er; reflexivity).
      destruct (nth_error (nodes d) i) as [m|] eqn:Hi.
      * pose proof (Hlast _ _ _ Ech Hi) as K. destruct (cls m); try contradiction; (eexists; split; [reflexivity|]; exact New).
      * exfalso. pose proof (wf_children d W _ _ i Hn) as Q. apply nth_error_None in Hi. assert (In i (children n)) by (rewrite Ech; apply in_or_app; right; left; reflexivity). specialize (Q H). lia.
Qed.
(* a leaf *)
Lemma back_append : forall d st s pend k a o c, at_back d st s pend -> is_acceptable (match st with (c, _) :: _ => c | [] => BgRoot end) k = true -> k <> BgRoot -> k <> Text ->
  open (created k a None) = Ok o -> close (created k a None) = Ok c -> exists d', exec d (Append k a) = (d', Ok tt) /\ at_back d' st (s ++ pended pend ++ o ++ c) None.
Proof.
  intros d st s pend k a o c B Hk HR HT Ho Hcl. pose proof (ab_wf _ _ _ _ B) as W.
  destruct (back_enter d st s pend k a o B Hk HR HT Ho) as (d1 & E1 & B1).
  assert (Hcl' : close (mknode k (match k with Wrapping => [] | _ => a end) [] None None []) = Ok c) by exact Hcl.
  assert (Hself : is_any k [k] = true).
  { unfold is_any. cbn [existsb]. unfold is_a. cbn [is_a_upto]. unfold klass_eqb. destruct (klass_eq_dec k k); [reflexivity|contradiction]. }
  destruct (back_leave d1 k _ st _ None [k] c B1 Hself Hcl') as (d2 & E2 & B2). cbn [pended app] in B2.
  destruct (settle _ _ _ _ B) as (x & n & Hc & Hn & Hp & _). exists (goto d1 (Some x)).
  pose proof (exec_wf d (Append k a) W) as W'. cbn [exec] in *. unfold enter in E1. destruct (append d k a) as [d' r] eqn:Ea.
  assert (Hcls : cls n = match st with (c, _) :: _ => c | [] => BgRoot end).
  { inversion Hp as [m Hm K E3 E4|p q m st' Hm Hpar Hl K1 K2 K3 K4 H E3 E4]; subst; replace m with n in * by congruence; [exact K|reflexivity]. }
  rewrite <- Hcls in Hk.
  destruct (append_cases _ _ _ _ _ W Ea) as [(-> & [(-> & _)|(C & _)])|(x' & h & m & Hx & U & Hm & Ha & _ & Hl & -> & ->)]; [congruence|congruence|].
  assert (h = x).
  { unfold look in Hl. rewrite Hc in Hl. cbn [climb] in Hl. rewrite Hn, Hk in Hl. injection Hl as <-. reflexivity. }
  subst h. cbn [fst snd goto nodes] in *. injection E1 as <-. split; [reflexivity|]. cbn [nodes] in *.
  unfold leave in E2. unfold look in E2. cbn [current climb nodes goto] in E2.
  rewrite (attach_nth _ _ _ _ _ Hm), Nat.eqb_refl in E2. cbn [created cls] in E2. rewrite Hself in E2. rewrite (attach_nth _ _ _ _ _ Hm), Nat.eqb_refl in E2. cbn [created parent] in E2.
  cbn [goto nodes] in *. injection E2 as <-. rewrite Hc in *. rewrite <- !app_assoc in B2. exact B2.
Qed.
Lemma back_post : forall d st, wf d -> forall c, path (nodes d) c st -> forall t, mapM (fun ka => close (mknode (fst ka) (snd ka) [] None None [])) st = Ok t ->
  post (nodes d) c (List.concat t).
Proof.
  intros d st W c H. induction H as [n Hn K|p q n st Hn Hp Hl K1 K2 K3 K4 H IH]; intros t Ht.
  - cbn in Ht. injection Ht as <-. cbn. eapply post_root; [exact Hn|]. unfold TreeModel.close. rewrite K. unfold generic_close. rewrite K. reflexivity.
  - cbn [mapM] in Ht. destruct (close (mknode (fst (cls n, attrs n)) (snd (cls n, attrs n)) [] None None [])) as [x|] eqn:E; [|discriminate].
    destruct (mapM _ st) as [y|] eqn:E2; [|discriminate]. injection Ht as <-. cbn [List.concat]. eapply post_in; [exact Hn|exact Hp|exact Hl| |apply IH; reflexivity].
    rewrite <- E. destruct n. cbn in *. subst. reflexivity.
Qed.
Lemma back_whole : forall d st s pend t, at_back d st s pend -> mapM (fun ka => close (mknode (fst ka) (snd ka) [] None None [])) st = Ok t ->
  render order rst d = Ok (s ++ pended pend ++ List.concat t).
Proof.
  intros d st s pend t B Ht. pose proof (ab_wf _ _ _ _ B) as W. destruct (settle _ _ _ _ B) as (c & n & Hc & Hn & Hp & Hpre).
  pose proof (back_post d st W c Hp t Ht) as Po. pose proof (nth_lt _ _ _ _ Hn).
  eapply (wr_render d _ _ W). rewrite app_assoc.
  pose proof (whole _ _ _ _ _ Hpre n [] [] (List.concat t) (List.length (nodes d)) Hn) as Q. rewrite app_nil_r in Q. cbn [app] in Q.
  apply Q; [reflexivity|constructor|lia|lia|exact Po].
Qed.
End Stream.
