(* A style sheet that passes the audit draws every board. *)
From Coq Require Import Floats.SpecFloat.
From Verif Require Import Py PyFacts Dict DictFacts UtilModel BoardModel ImageModel ImageSpec ImageCss ImageTree ImageBoard ImageMag ThemeModel ThemePath ThemeDraw ThemeScale ThemeTree ThemeSpec ThemeAudit.
Open Scope string_scope.
Open Scope list_scope.
Open Scope Z_scope.

Lemma visit_ext {St} (f g : list elem -> St -> res (head * St)) e : (forall p s, f p s = g p s) -> forall path s, visit f path e s = visit g path e s.
Proof.
  intros E. induction e as [h ks IH] using elem_induction. intros path s. cbn [visit]. rewrite E. destruct (g path s) as [[h' s']|]; cbn [bind]; [|reflexivity].
  match goal with |- bind (?a ks [] _ _) _ = bind (?b ks [] _ _) _ => set (EF := a); set (EG := b) end.
  assert (G : forall l done path s, (forall c, In (inl c) l -> In (inl c) ks) -> EF l done path s = EG l done path s).
  { induction l as [|[c|t] l IHl]; intros done path0 s0 I; [reflexivity| |].
    - cbn [EF EG]. fold EF EG. rewrite IH by (apply I; left; reflexivity). destruct (visit g (path0 ++ [c]) c s0) as [[p1 s1]|]; cbn [bind]; [|reflexivity].
      destruct (pyget p1 (-1)); cbn [bind]; [|reflexivity]. apply IHl. intros c0 J. apply I. right. exact J.
    - cbn [EF EG]. fold EF EG. apply IHl. intros c0 J. apply I. right. exact J. }
  rewrite G by auto. reflexivity.
Qed.
Definition add_drawing (path : list elem) (dc : list cmd) : res (list cmd) := let! c := draw_element path in Ok (dc ++ c).
Lemma draw_tree_paths t : draw_tree t = run_all add_drawing (paths [] t) [].
Proof.
  unfold draw_tree. set (f := fun path dc => _). assert (E : visit_tree f t [] = visit_tree (watching add_drawing) t []).
  { unfold visit_tree. rewrite (visit_ext f (watching add_drawing)); [reflexivity|]. intros p s. unfold f, watching, add_drawing. destruct (last_head p); cbn [bind]; [|reflexivity]. destruct (draw_element p); reflexivity. }
  rewrite E, visit_paths. destruct (run_all add_drawing (paths [] t) []); reflexivity.
Qed.
Lemma run_drawing l : forall dc, (forall p, In p l -> exists c, draw_element p = Ok c) -> exists cs, run_all add_drawing l dc = Ok (dc ++ cs) /\
  (forall c, In c cs -> exists p d, In p l /\ draw_element p = Ok d /\ In c d) /\ (forall p d, In p l -> draw_element p = Ok d -> incl d cs).
Proof.
  induction l as [|p l IH]; intros dc H; cbn [run_all].
  - exists []. rewrite app_nil_r. split; [reflexivity|]. split; [intros c []|intros p d []].
  - destruct (H p (or_introl eq_refl)) as (c & C). unfold add_drawing at 1. rewrite C. cbn [bind].
    destruct (IH (dc ++ c)) as (cs & R & Q1 & Q2); [intros q I; apply H; right; exact I|]. exists (c ++ cs). rewrite R, <- app_assoc. split; [reflexivity|]. split.
    + intros x I. apply in_app_or in I as [I|I]; [exists p, c; split; [left; reflexivity|auto]|]. destruct (Q1 x I) as (q & d & J & E & K). exists q, d. split; [right; exact J|auto].
    + intros q d [<-|I] E; [rewrite C in E; injection E as <-; apply incl_appl, incl_refl|]. apply incl_appr. eapply Q2; eassumption.
Qed.

(* ---- the magnification at the root ---- *)
Lemma get_attr_root l h h' n : kind h' = kind h -> dget str_eqb (attrs h') n = dget str_eqb (attrs h) n -> get_attr (l ++ [h']) n = get_attr (l ++ [h]) n.
Proof.
  intros K D. induction l as [|a l IH]; cbn [app get_attr]; [rewrite K, D; reflexivity|]. destruct (class_of (kind a) n); [|reflexivity]. destruct (dget str_eqb (attrs a) n); [reflexivity|].
  replace (match l ++ [h'] with [] => false | _ => true end) with (match l ++ [h] with [] => false | _ => true end) by (destruct l; reflexivity). rewrite IH. reflexivity.
Qed.
Lemma get_mag l h m : forallb unscaled l = true -> get_attr [h] (L "mag") = Ok (VFlt m) -> get_attr (l ++ [h]) (L "mag") = Ok (VFlt m).
Proof.
  induction l as [|a l IH]; cbn [app forallb]; intros U G; [exact G|]. apply andb_prop in U as (U & V). cbn [get_attr]. unfold unscaled in U.
  destruct (class_of (kind a) (L "mag")) as [c|]; [|discriminate]. destruct (dget str_eqb (attrs a) (L "mag")); [rewrite andb_false_r in U; discriminate|]. rewrite andb_true_r in U. rewrite U.
  replace (match l ++ [h] with [] => false | _ => true end) with true by (destruct l; reflexivity). cbn [andb]. apply IH; assumption.
Qed.
Lemma magged_root w l h h' m : kind h' = kind h -> (forall n, n <> L "mag" -> dget str_eqb (attrs h') n = dget str_eqb (attrs h) n) ->
  get_attr [h'] (L "mag") = Ok (VFlt m) -> forallb unscaled l = true ->
  (forall x, fits w x = true -> exists v, (let! f := to_float x in trunc (fmul f m)) = Ok v) -> magged w (l ++ [h]) (l ++ [h']).
Proof.
  intros K D G U F. split; [intros n N; apply get_attr_root; auto|]. split.
  - intros n N. destruct l as [|a l]; [reflexivity|]. cbn [app tl]. apply get_attr_root; auto.
  - intros x X. unfold apply_mag. rewrite (get_mag l h' m U G). cbn [bind]. apply F, X.
Qed.
Lemma ink w up up' path e : magged w up up' -> map ehead (rev path) = up' -> pyget path (-1) = Ok e -> kind (ehead e) = EPosition -> inked up = true -> draw_element path <> Ok [].
Proof.
  intros M U G K I. unfold draw_element. rewrite U, G. cbn [bind]. unfold inked in I. rewrite <- !(m_has w up up' M) in I by discriminate.
  destruct (has_attr up' "background") eqn:B.
  - unfold bg_draw. destruct (get_attr up' (L "background")); [|discriminate]. cbn [bind]. destruct (mag2 up' "width" "height"); [|discriminate]. cbn [bind]. destruct (mag2 up' "x" "y"); [|discriminate]. cbn [bind].
    destruct (if has_attr up' "image" || has_attr up' "color" then draw_method up' e else Ok []); discriminate.
  - cbn [orb] in I. rewrite I. cbn [bind orb]. unfold draw_method. rewrite K. unfold draw_base. destruct (mag2 up' "width" "height"); [|discriminate]. cbn [bind]. destruct (mag2 up' "x" "y"); [|discriminate]. cbn [bind].
    rewrite I. destruct (get_attr up' (L "image")); [|discriminate]. cbn [bind]. unfold paste. destruct (get_attr up' (L "flip")); discriminate.
Qed.

Section Sound.
Variables (rs : list rule) (ok : list head -> ekind -> ekind -> list Z -> bool).
Lemma audit_elem_inv up e next : audit_elem rs ok up e next = true -> exists h, apply_rules rs (up ++ [e]) = Ok h /\ (up <> [] -> unscaled h = true) /\
  ok (h :: rev (map ehead up)) (kind h) (kind h) [0] = true /\ next (up ++ [Elem h (children e)]) = true.
Proof.
  unfold audit_elem. destruct (apply_rules rs (up ++ [e])) as [h|]; [|discriminate]. intros H. apply andb_prop in H as (H & N). apply andb_prop in H as (U & P). exists h.
  split; [reflexivity|]. split; [destruct up; [contradiction|intros _; exact U]|]. split; assumption.
Qed.
Lemma audit_leaf_inv b zone up h s n : audit_leaf rs ok zone up h = true -> leaf_ok b zone h s n -> exists h', apply_rules rs (up ++ [Elem h [inr s]]) = Ok h' /\
  unscaled h' = true /\ kind h' = kind h /\ exists ns, In n ns /\ ok (h' :: rev (map ehead up)) (kind h) zone ns = true.
Proof.
  unfold audit_leaf. cbv zeta. rewrite (rules_concern rs up (Elem h [inr s])). cbn [ehead]. set (rk := filter (concerns (kind h)) rs). intros H K. apply andb_prop in H as (F & H).
  rewrite forallb_forall in H. apply negb_true_iff in F. assert (F' : ~ In fresh (datas rk (kind h))) by (intros I; apply str_mem_in in I; congruence).
  assert (X : exists t, In t (fresh :: nodup (list_eq_dec ascii_dec) (datas rk (kind h))) /\ apply_rules rk (up ++ [Elem h [inr s]]) = apply_rules rk (up ++ [Elem h [inr t]]) /\ In n (counts (kind h) t)).
  { assert (N0 : kind h <> EChequer -> forall t, In n (counts (kind h) t)).
    { intros D t. unfold counts. unfold leaf_ok in K. destruct (kind h); try contradiction; try (left; symmetry; exact K); try (left; symmetry; exact (proj1 K)). }
    destruct (str_mem s (datas rk (kind h))) eqn:M.
    - apply str_mem_in in M. exists s. split; [right; apply nodup_In; exact M|]. split; [reflexivity|]. destruct (kind h) eqn:Q; try (apply N0; discriminate).
      unfold leaf_ok in K. rewrite Q in K. destruct K as (-> & B & _). cbn [counts]. destruct (str_eqb (py_str_int n) fresh) eqn:E; [apply sq in E; rewrite E in M; contradiction|].
      apply filter_In. split; [apply In_zrange; lia|apply sq; reflexivity].
    - exists fresh. split; [left; reflexivity|]. split; [apply rules_fresh; [intros I; apply str_mem_in in I; congruence|exact F']|].
      destruct (kind h) eqn:Q; try (apply N0; discriminate). unfold leaf_ok in K. rewrite Q in K. destruct K as (_ & B & _). cbn [counts].
      replace (str_eqb fresh fresh) with true by reflexivity. apply In_zrange. lia. }
  destruct X as (t & I & E & C). specialize (H t I). rewrite E. destruct (apply_rules rk (up ++ [Elem h [inr t]])) as [h'|] eqn:A; [|discriminate].
  apply andb_prop in H as (U & P). exists h'. split; [reflexivity|]. split; [exact U|]. split; [apply kind_rules in A; exact A|exists (counts (kind h) t); split; [exact C|exact P]].
Qed.
Variables (wd ht : Z).
Hypothesis AU : survey rs ok wd ht = true.
(* what is known of a styled path *)
Definition vetted (b : board) (q : list elem) (e : elem) : Prop := exists r zone n,
  q = Elem (ehead (hd nobody q)) [] :: r /\ apply_rules rs [root] = Ok (ehead (hd nobody q)) /\ forallb unscaled (map ehead r) = true /\ lies b zone n /\
  (exists ns, In n ns /\ ok (rev (map ehead q)) (kind (ehead (last q nobody))) zone ns = true) /\ (forall e', child0 e' = child0 e -> written (kind (ehead (last q nobody))) e' n).
Lemma plain_written k e n : plain_kind k = true -> written k e n.
Proof. destruct k; try discriminate; intros _; exact I. Qed.
Lemma zones_plain z : In z zones -> plain_kind (kind (ehead (fst z))) = true.
Proof. assert (H : forallb (fun z => plain_kind (kind (ehead (fst z)))) zones = true) by (vm_compute; reflexivity). rewrite forallb_forall in H. apply H. Qed.
Lemma lies0 b k : lies b k 0.
Proof. intros _ N. contradiction. Qed.
Lemma route_walk b p e : route b p e -> exists q, walk rs [] p = Ok q /\ vetted b q e.
Proof.
  intros R. unfold survey in AU. apply andb_prop in AU as (_ & A). apply audit_elem_inv in A as (h0 & A0 & _ & P0 & A). cbn [app map rev children root bare] in A0, P0, A.
  apply andb_prop in A as (A & AP). apply andb_prop in A as (_ & AM). apply audit_elem_inv in AM as (hm & Am & Um & Pm & AM). apply audit_elem_inv in AP as (hp & Ap & Up & Pp & AP).
  specialize (Um ltac:(discriminate)). specialize (Up ltac:(discriminate)). change (children mt) with (@nil kid) in AM. change (children ps) with (@nil kid) in AP. cbn [app map rev ehead] in Am, Ap, Pm, Pp, AM, AP.
  apply andb_prop in AP as (_ & AP). rewrite forallb_forall in AM. rewrite forallb_forall in AP. change kid with (elem + str)%type in *.
  pose proof (kind_rules rs [] root h0 A0) as K0. pose proof (kind_rules rs [Elem h0 []] mt hm Am) as Km. pose proof (kind_rules rs [Elem h0 []] ps hp Ap) as Kp. cbn in K0, Km, Kp.
  assert (W0 : forall todo, walk rs [] (root :: todo) = walk rs [Elem h0 []] todo) by (intros todo; cbn [walk app]; rewrite A0; reflexivity).
  assert (Wm : forall todo, walk rs [Elem h0 []] (mt :: todo) = walk rs [Elem h0 []; Elem hm []] todo) by (intros todo; cbn [walk app]; rewrite Am; reflexivity).
  assert (Wp : forall todo, walk rs [Elem h0 []] (ps :: todo) = walk rs [Elem h0 []; Elem hp []] todo) by (intros todo; cbn [walk app]; rewrite Ap; reflexivity).
  assert (Z : forall z, In z zones -> exists hz, kind hz = kind (ehead (fst z)) /\ (forall todo, walk rs [Elem h0 []; Elem hp []] (fst z :: todo) = walk rs [Elem h0 []; Elem hp []; Elem hz (children (fst z))] todo) /\
     unscaled hz = true /\ ok [hz; hp; h0] (kind hz) (kind hz) [0] = true /\ forall h, In h (snd z) -> audit_leaf rs ok (kind (ehead (fst z))) [Elem h0 []; Elem hp []; Elem hz (children (fst z))] h = true).
  { intros z I. specialize (AP z I). apply audit_elem_inv in AP as (hz & Az & Uz & Pz & AZ). specialize (Uz ltac:(discriminate)). cbn [app map rev ehead] in Az, Pz, AZ. rewrite forallb_forall in AZ.
    exists hz. split; [exact (kind_rules rs [Elem h0 []; Elem hp []] (fst z) hz Az)|]. split; [intros todo; cbn [walk app]; rewrite Az; reflexivity|]. auto. }
  destruct R as [e|e|e|z e I|h s I K|z h s n I J K].
  - exists [Elem h0 []]. split; [rewrite W0; reflexivity|]. exists [], (kind h0), 0. cbn [hd last ehead map rev app]. split; [reflexivity|]. split; [exact A0|]. split; [reflexivity|]. split; [apply lies0|].
    split; [exists [0]; split; [left; reflexivity|exact P0]|]. intros e' _. apply plain_written. rewrite K0. reflexivity.
  - exists [Elem h0 []; Elem hm []]. split; [rewrite W0, Wm; reflexivity|]. exists [Elem hm []], (kind hm), 0. cbn [hd last ehead map rev app forallb]. rewrite Um. split; [reflexivity|]. split; [exact A0|].
    split; [reflexivity|]. split; [apply lies0|]. split; [exists [0]; split; [left; reflexivity|exact Pm]|]. intros e' _. apply plain_written. rewrite Km. reflexivity.
  - exists [Elem h0 []; Elem hp []]. split; [rewrite W0, Wp; reflexivity|]. exists [Elem hp []], (kind hp), 0. cbn [hd last ehead map rev app forallb]. rewrite Up. split; [reflexivity|]. split; [exact A0|].
    split; [reflexivity|]. split; [apply lies0|]. split; [exists [0]; split; [left; reflexivity|exact Pp]|]. intros e' _. apply plain_written. rewrite Kp. reflexivity.
  - destruct (Z z I) as (hz & Kz & Wz & Uz & Pz & _). exists [Elem h0 []; Elem hp []; Elem hz (children (fst z))]. split; [rewrite W0, Wp, Wz; reflexivity|].
    exists [Elem hp []; Elem hz (children (fst z))], (kind hz), 0. cbn [hd last ehead map rev app forallb]. rewrite Up, Uz. split; [reflexivity|]. split; [exact A0|]. split; [reflexivity|]. split; [apply lies0|].
    split; [exists [0]; split; [left; reflexivity|exact Pz]|]. intros e' _. apply plain_written. rewrite Kz. apply zones_plain, I.
  - specialize (AM h I). destruct (audit_leaf_inv b _ _ _ _ _ AM K) as (h' & Al & Ul & Kl & Pl). exists [Elem h0 []; Elem hm []; Elem h' [inr s]]. split; [rewrite W0, Wm; cbn [walk app] in *; rewrite Al; reflexivity|].
    exists [Elem hm []; Elem h' [inr s]], EMatch, 0. cbn [hd last ehead map rev app forallb]. rewrite Um, Ul. split; [reflexivity|]. split; [exact A0|]. split; [reflexivity|]. split; [apply lies0|].
    rewrite Kl. split; [exact Pl|]. intros e' C. eapply leaf_written; [exact K|]. rewrite C. reflexivity.
  - destruct (Z z I) as (hz & Kz & Wz & Uz & Pz & AZ). specialize (AZ h J). destruct (audit_leaf_inv b _ _ _ _ _ AZ K) as (h' & Al & Ul & Kl & Pl).
    exists [Elem h0 []; Elem hp []; Elem hz (children (fst z)); Elem h' [inr s]]. split; [rewrite W0, Wp, Wz; cbn [walk app] in *; rewrite Al; reflexivity|].
    exists [Elem hp []; Elem hz (children (fst z)); Elem h' [inr s]], (kind (ehead (fst z))), n. cbn [hd last ehead map rev app forallb]. rewrite Up, Uz, Ul. split; [reflexivity|]. split; [exact A0|]. split; [reflexivity|].
    split; [eapply leaf_lies, K|]. rewrite Kl. split; [exact Pl|]. intros e' C. eapply leaf_written; [exact K|]. rewrite C. reflexivity.
Qed.
Lemma rules_root t : stub t = root -> apply_rules rs [t] = apply_rules rs [root].
Proof. intros S. apply (apply_rules_alike rs [] [] t root eq_refl). rewrite S. reflexivity. Qed.
(* the root as it is once styled *)
Lemma styled_root : exists h0, apply_rules rs [root] = Ok h0 /\ kind h0 = EBoard /\ get_int [h0] "width" = Ok wd /\ get_int [h0] "height" = Ok ht /\ dget str_eqb (attrs h0) (L "mag") = None /\ 0 < wd /\ 0 < ht.
Proof.
  unfold survey in AU. apply andb_prop in AU as (B & A). apply andb_prop in B as (B1 & B2).
  apply audit_elem_inv in A as (h0 & A0 & _ & _ & A). cbn [app] in A0, A. exists h0. split; [exact A0|]. split; [exact (kind_rules rs [] root h0 A0)|].
  apply andb_prop in A as (A & _). apply andb_prop in A as (A & _). apply andb_prop in A as (A & U). cbn [ehead] in A, U.
  destruct (get_int [h0] "width") as [a|]; [|discriminate]. destruct (get_int [h0] "height") as [c|]; [|discriminate]. apply andb_prop in A as (A1 & A2).
  unfold unscaled in U. destruct (class_of (kind h0) (L "mag")); [|discriminate]. apply andb_prop in U as (_ & U).
  destruct (dget str_eqb (attrs h0) (L "mag")); [discriminate|]. repeat split; try lia; f_equal; lia.
Qed.
Lemma walk_inked : exists q, walk rs [] [root; ps] = Ok q /\ inked (rev (map ehead q)) = true /\ kind (ehead (last q nobody)) = EPosition.
Proof.
  unfold survey in AU. apply andb_prop in AU as (_ & A). apply audit_elem_inv in A as (h0 & A0 & _ & _ & A). apply andb_prop in A as (_ & A).
  apply audit_elem_inv in A as (hp & Ap & _ & _ & A). apply andb_prop in A as (A & _). pose proof (kind_rules rs _ ps hp Ap) as Kp. cbn [app] in A0, Ap, A. change (children root) with (@nil (elem + str)) in *. change (children ps) with (@nil (elem + str)) in *.
  exists [Elem h0 []; Elem hp []]. split; [|split; [exact A|exact Kp]]. cbn [walk app]. rewrite A0. cbn [bind]. change (set_head root h0) with (Elem h0 []). rewrite Ap. reflexivity.
Qed.
Lemma Forall2_in {X Y} (R : X -> Y -> Prop) l l' y : Forall2 R l l' -> In y l' -> exists x, In x l /\ R x y.
Proof. induction 1 as [|a c l l' H F IH]; intros I; [destruct I|]. destruct I as [<-|I]; [exists a; split; [left; reflexivity|exact H]|]. destruct (IH I) as (x & J & K). exists x. split; [right; exact J|exact K]. Qed.
Lemma heads_stub l l' : map stub l = map stub l' -> map ehead l = map ehead l'.
Proof. intros H. assert (G : forall m, map ehead m = map ehead (map stub m)) by (intros m; rewrite map_map; apply map_ext; intros e; reflexivity). rewrite (G l), (G l'), H. reflexivity. Qed.
Lemma last_head_of l : ehead (last l nobody) = last (map ehead l) (ehead nobody).
Proof. induction l as [|a l IH]; [reflexivity|]. destruct l as [|c l]; [reflexivity|exact IH]. Qed.
Lemma pyget_last {X} (l : list X) d : l <> [] -> pyget l (-1) = Ok (last l d).
Proof. intros N. destruct l as [|x l _] using rev_ind; [contradiction|]. rewrite last_snoc, last_last. reflexivity. Qed.
Definition reroot (h : head) (q : list elem) : list elem := match q with [] => [] | e :: r => set_head e h :: r end.
Lemma reroot_paths t h : paths [] (set_head t h) = map (reroot h) (paths [] t).
Proof. destruct t as [h1 ks]. unfold set_head. cbn [children]. rewrite !paths_eq. cbn [map reroot]. f_equal. rewrite map_map. reflexivity. Qed.
Lemma routes b x : counts_ok b -> extras_ok b x -> forall p, In p (paths [] (trunk b x)) -> exists q q1, walk rs [] p = Ok q /\ map stub q = map stub q1 /\ vetted b q1 (last p nobody).
Proof.
  intros CO XO p I. destruct (route_walk b _ _ (trunk_paths b x CO XO p I)) as (q1 & W1 & V). assert (SS : map stub p = map stub (map stub p)) by (rewrite map_map; apply map_ext; intros y; symmetry; apply stub_stub).
  pose proof (walk_alike rs p (map stub p) [] [] eq_refl SS) as H. rewrite W1 in H. destruct (walk rs [] p) as [q|]; [exists q, q1; split; [reflexivity|]; split; [exact H|exact V]|contradiction].
Qed.
End Sound.
Section Audited.
Variables (rs : list rule) (w : Z) (allowed : ekind -> Z -> value -> bool) (wd ht : Z).
Hypothesis AU : audit rs w allowed wd ht = true.
Theorem audited b : proper b -> exists t, board_tree b = Ok t /\ forall size,
  match mag_of (fst size) (snd size) wd ht with
  | Exc x => draw rs b size = Exc x
  | Ok m => exists cs, draw rs b size = Ok cs /\ (forall v, In v (files cs) -> exists zone n, lies b zone n /\ allowed zone n v = true) /\
     (forall p, In p (paths [] t) -> exists q q' cs', walk rs [] p = Ok q /\ magged w (rev (map ehead q)) (rev (map ehead q')) /\ child0 (last q' nobody) = child0 (last p nobody) /\
       pyget q' (-1) = Ok (last q' nobody) /\ kind (ehead (last q' nobody)) = kind (ehead (last q nobody)) /\ draw_element q' = Ok cs' /\ incl cs' cs) /\
     (forall c, In c cs -> exists p q q' h1 cs', In p (paths [] t) /\ walk rs [] p = Ok q /\ set_attr (hd (ehead nobody) (map ehead q)) (L "mag") (VFlt m) = Ok h1 /\
       map ehead q' = h1 :: tl (map ehead q) /\ child0 (last q' nobody) = child0 (last p nobody) /\ draw_element q' = Ok cs' /\ In c cs')
  end.
Proof.
  assert (SV := AU). unfold audit in SV. apply andb_prop in SV as (EW & SV). apply Z.eqb_eq in EW. intros P. destruct (proper_tree b P) as (x & T & XO). assert (CO : counts_ok b) by exact (proj1 P). exists (trunk b x). split; [exact T|]. intros size.
  destruct (styled_root rs (pass_all w allowed) wd ht SV) as (h0 & A0 & K0 & G1 & G2 & NM & P1 & P2).
  assert (WK := routes rs (pass_all w allowed) wd ht SV b x CO XO).
  destruct (style_paths rs (trunk b x)) as (t' & St & R0 & F). { intros p I. destruct (WK p I) as (q & _ & W & _). eauto. }
  assert (H0 : ehead t' = h0). { rewrite (rules_root rs (trunk b x)), A0 in R0 by (unfold trunk; apply (stub_elements _ [_; _])). congruence. }
  unfold draw. rewrite T. cbn [bind]. rewrite St. cbn [bind]. unfold set_mag. rewrite H0, G1, G2. cbn [bind].
  destruct (mag_of (fst size) (snd size) wd ht) as [m|] eqn:MO; cbn [bind]; [|reflexivity].
  unfold set_attr. rewrite K0, NM. change (class_of EBoard (L "mag")) with (Some InheritFloat). cbv zeta. cbn [a_class a_path]. change (is_acceptable InheritFloat (VFlt m)) with true. cbn [bind].
  set (h1 := mkhead EBoard _ _).
  assert (D1 : forall n, n <> L "mag" -> dget str_eqb (attrs h1) n = dget str_eqb (attrs h0) n).
  { intros n N. cbn [attrs h1]. rewrite dget_dset by apply sq. destruct (str_eqb n (L "mag")) eqn:Q; [apply sq in Q; contradiction|reflexivity]. }
  assert (GM : get_attr [h1] (L "mag") = Ok (VFlt m)).
  { cbn [get_attr]. change (class_of (kind h1) (L "mag")) with (Some InheritFloat). cbn [attrs h1]. rewrite dget_dset by apply sq. reflexivity. }
  destruct (mag_of_ok _ _ _ _ _ MO) as (fx & fw & fy & fh & T1 & T2 & T3 & T4 & W & Hn & Mm & L1 & L2 & PM & F1 & F2).
  assert (SC : forall z, fits w z = true -> exists v, (let! f := to_float z in trunc (fmul f m)) = Ok v).
  { intros z Z. unfold fits in Z. apply andb_prop in Z as (Z1 & Z2). destruct (Z_le_gt_dec ht wd) as [Q|Q].
    - destruct (scaled_between m wd fw _ PM P1 T2 F1 z ltac:(lia)) as (v & V & _). exists v. exact V.
    - destruct (scaled_between m ht fh _ PM P2 T4 F2 z ltac:(lia)) as (v & V & _). exists v. exact V. }
  assert (EL : forall p q, In p (paths [] (trunk b x)) -> walked rs [] p q -> In q (paths [] t') -> exists q0 cs, walk rs [] p = Ok q0 /\
     magged w (rev (map ehead q0)) (rev (map ehead (reroot h1 q))) /\ child0 (last (reroot h1 q) nobody) = child0 (last p nobody) /\ pyget (reroot h1 q) (-1) = Ok (last (reroot h1 q) nobody) /\
     kind (ehead (last (reroot h1 q) nobody)) = kind (ehead (last q0 nobody)) /\
     draw_element (reroot h1 q) = Ok cs /\ (map ehead (reroot h1 q) = h1 :: tl (map ehead q0) /\ hd (ehead nobody) (map ehead q0) = h0) /\ forall v, In v (flat_map loads cs) -> exists zone n, lies b zone n /\ allowed zone n v = true).
  { intros p q Ip (q0 & W0 & SQ & C) Iq. cbn [app] in SQ. destruct (WK p Ip) as (q2 & q1 & W1 & SQ1 & V). rewrite W0 in W1. injection W1 as <-.
    apply paths_head in Iq as (r & ->). destruct V as (r1 & zone & n & E1 & A1 & U1 & LZ & PS & WR). rewrite A0 in A1. injection A1 as A1. rewrite <- A1 in E1.
    assert (HQ : map ehead q0 = h0 :: map ehead r). { rewrite (heads_stub _ _ SQ). cbn [map]. rewrite H0. reflexivity. }
    assert (HQ1 : map ehead q0 = h0 :: map ehead r1). { rewrite (heads_stub _ _ SQ1), E1. reflexivity. }
    assert (HR : map ehead r = map ehead r1) by congruence.
    assert (M : magged w (rev (map ehead q0)) (rev (map ehead (reroot h1 (t' :: r))))).
    { rewrite HQ. cbn [reroot map rev]. unfold set_head. cbn [ehead]. apply (magged_root w (rev (map ehead r)) h0 h1 m); [symmetry; exact K0|exact D1|exact GM| |exact SC].
      rewrite HR. rewrite forallb_forall in *. intros z I. apply U1, in_rev, I. }
    assert (KL : kind (ehead (last (reroot h1 (t' :: r)) nobody)) = kind (ehead (last q0 nobody))).
    { rewrite (last_head_of q0), HQ. cbn [reroot]. rewrite last_head_of. cbn [map]. unfold set_head. cbn [ehead]. destruct (map ehead r); [cbn [last]; rewrite K0; reflexivity|reflexivity]. }
    assert (KL1 : kind (ehead (last q0 nobody)) = kind (ehead (last q1 nobody))) by (rewrite !last_head_of, HQ1, E1; reflexivity).
    assert (CL : child0 (last (reroot h1 (t' :: r)) nobody) = child0 (last p nobody)).
    { rewrite <- C. cbn [reroot]. destruct r; [|reflexivity]. cbn [last]. unfold set_head, child0. cbn [children]. reflexivity. }
    assert (PG : pyget (reroot h1 (t' :: r)) (-1) = Ok (last (reroot h1 (t' :: r)) nobody)) by (apply pyget_last; discriminate).
    destruct PS as (ns & Ins & PS). unfold pass_all in PS. rewrite forallb_forall in PS. specialize (PS n Ins). unfold pass in PS. destruct (sketch w (rev (map ehead q1)) (kind (ehead (last q1 nobody))) n) as [fs|] eqn:SK; [|discriminate]. rewrite forallb_forall in PS.
    replace (map ehead q1) with (map ehead q0) in SK by (rewrite HQ1, E1; reflexivity). rewrite <- KL1, <- KL in SK.
    destruct (sketch_sound w _ _ M (reroot h1 (t' :: r)) _ fs n (map_rev ehead _) PG) as (cs & DE & IN); [|exact SK|].
    { rewrite KL, KL1. apply WR, CL. }
    exists q0, cs. repeat (split; [assumption|]). split; [rewrite HQ; split; reflexivity|]. intros v I. exists zone, n. split; [exact LZ|]. apply PS, IN, I. }
  rewrite draw_tree_paths, reroot_paths.
  destruct (run_drawing (map (reroot h1) (paths [] t')) []) as (cs & RD & C1 & C2).
  { intros q I. apply in_map_iff in I as (q0 & <- & I). destruct (Forall2_in _ _ _ _ F I) as (p & Ip & Wk). destruct (EL p q0 Ip Wk I) as (_ & c & _ & _ & _ & _ & _ & D & _ & _). eauto. }
  rewrite RD. cbn [bind app]. 
  assert (EX : forall p, In p (paths [] (trunk b x)) -> exists q, In q (paths [] t') /\ walked rs [] p q).
  { intros p Ip. clear -F Ip. induction F as [|a c l l' H F IH]; [destruct Ip|]. destruct Ip as [<-|I]; [exists c; split; [left; reflexivity|exact H]|]. destruct (IH I) as (q & J & K). exists q. split; [right; exact J|exact K]. }
  assert (NE : cs <> []).
  { intros ->. assert (Ip : In [trunk b x; bare EPosition (laid b x)] (paths [] (trunk b x))).
    { unfold trunk at 2. apply in_paths. right. exists (bare EPosition (laid b x)), [bare EPosition (laid b x)]. split; [right; left; reflexivity|].
      split; [apply in_paths; left; reflexivity|reflexivity]. }
    destruct (EX _ Ip) as (q & Iq & Wk). destruct (EL _ _ Ip Wk Iq) as (q0 & c' & W0 & M & C & PG & KK & D & _).
    destruct (walk_inked rs (pass_all w allowed) wd ht SV) as (q1 & W1 & I1 & K1).
    assert (SS : map stub [trunk b x; bare EPosition (laid b x)] = map stub [root; ps]).
    { cbn [map]. rewrite stub_laid. f_equal. }
    pose proof (walk_alike rs _ _ [] [] eq_refl SS) as H. rewrite W0, W1 in H. apply heads_stub in H.
    apply (ink w (rev (map ehead q0)) (rev (map ehead (reroot h1 q))) (reroot h1 q) (last (reroot h1 q) nobody) M (map_rev ehead _) PG).
    - rewrite KK, last_head_of, H, <- last_head_of. exact K1.
    - rewrite H. exact I1.
    - rewrite D. specialize (C2 (reroot h1 q) c' (in_map _ _ _ Iq) D). destruct c' as [|c0 c']; [reflexivity|]. destruct (C2 c0 (or_introl eq_refl)). }
  destruct cs as [|c cs]; [contradiction|]. cbn [passert nonempty bind]. exists (c :: cs). split; [reflexivity|]. split.
  - intros v I. unfold files in I. apply in_flat_map in I as (cm & I & J). destruct (C1 cm I) as (q & d & Iq & Dq & Id). apply in_map_iff in Iq as (q0 & <- & Iq).
    destruct (Forall2_in _ _ _ _ F Iq) as (p & Ip & Wk). destruct (EL p q0 Ip Wk Iq) as (_ & c' & _ & _ & _ & _ & _ & D & _ & Al). rewrite Dq in D. injection D as <-. apply Al. apply in_flat_map. eauto.
  - split.
    + intros p Ip. destruct (EX p Ip) as (q & Iq & Wk). destruct (EL p q Ip Wk Iq) as (q0 & c' & W0 & M & C & PG & KK & D & _). exists q0, (reroot h1 q), c'. repeat (split; [assumption|]).
      apply (C2 (reroot h1 q)); [apply in_map, Iq|exact D].
    + intros cm I. destruct (C1 cm I) as (q & d & Iq & Dq & Id). apply in_map_iff in Iq as (q0 & <- & Iq).
      destruct (Forall2_in _ _ _ _ F Iq) as (p & Ip & Wk). destruct (EL p q0 Ip Wk Iq) as (q1 & c' & W0 & _ & C & _ & _ & D & (HE & H0') & _). exists p, q1, (reroot h1 q0), h1, d.
      split; [exact Ip|]. split; [exact W0|]. split; [rewrite H0'; unfold set_attr; rewrite K0, NM; reflexivity|]. repeat (split; [assumption|]). exact Id.
Qed.
End Audited.
