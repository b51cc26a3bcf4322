(* What is said about the XML of a board. *)
From Verif Require Import Py PyFacts Dict DictFacts UtilModel BoardModel BoardSpec ImageModel ImageSpec ImageCss ImageTree ImageBoard AttrProofs DrawnSpec DrawnTree DrawnProofs ThemeData ThemeModel ThemeSpec XmlModel XmlSpec XmlProofs XmlTree XmlStyle XmlDtd.
From Coq Require Import Permutation.
Open Scope string_scope.
Open Scope list_scope.
Open Scope Z_scope.

(* a board that has not been styled has no floats *)
Definition no_float : Floats.SpecFloat.spec_float -> str := fun _ => L "0.0".
Lemma neat_board fs b t : sides_ok b -> board_tree b = Ok t -> kind (ehead t) = EBoard /\ neat fs t /\ fine_tree t.
Proof.
  intros S H. destruct (tree_built b t S H) as (K & B). split; [exact K|].
  assert (F : fine_tree t) by (intros x I; apply in_map_iff in I as (e & <- & I); apply B, I). split; [|exact F].
  apply pure_fine_neat; [|exact F]. intros e I. apply headb_pure, B, I.
Qed.
Lemma xml_of_board : forall items float_str b t, listed items -> sides_ok b -> board_tree b = Ok t ->
  read_document (xml items float_str t) = Some (L "board", meant items float_str t).
Proof. intros items fs b t Li S H. destruct (neat_board fs b t S H) as (K & N & _). apply reads_back; assumption. Qed.
Lemma styled_neat fs css b t : (forall f, bare_value (fs f) = true) -> (forall r, In r css -> tame r) -> sides_ok b -> in_style css b t -> kind (ehead t) = EBoard /\ neat fs t /\ fine_tree t.
Proof.
  intros Fl R S [(t1 & H & St)|(size & D)].
  - destruct (styled_good fs css b t1 t S R H St) as (K & P & F). split; [exact K|]. split; [|exact F]. apply pure_fine_neat; assumption.
  - destruct (dressed_good fs Fl css b size t S R D) as (K & P & F). split; [exact K|]. split; [|exact F]. apply pure_fine_neat; assumption.
Qed.
Lemma xml_of_styled : forall items float_str css b t, listed items -> (forall f, bare_value (float_str f) = true) -> (forall r, In r css -> tame r) ->
  sides_ok b -> in_style css b t -> read_document (xml items float_str t) = Some (L "board", meant items float_str t).
Proof. intros items fs css b t Li Fl R S D. destruct (styled_neat fs css b t Fl R S D) as (K & N & F). apply reads_back; assumption. Qed.
Lemma xml_conforms : forall items keys_of float_str classes, listed items -> listed keys_of -> Permutation classes all_kinds -> (forall f, bare_value (float_str f) = true) ->
  exists ds, read_dtd (make_dtd keys_of classes) = Some ds /\
    (forall b t, sides_ok b -> board_tree b = Ok t -> exists n, read_document (xml items float_str t) = Some (L "board", n) /\ conforms ds n) /\
    (forall css b t, (forall r, In r css -> tame r) -> sides_ok b -> in_style css b t -> exists n, read_document (xml items float_str t) = Some (L "board", n) /\ conforms ds n).
Proof.
  intros items ko fs cl Li Lk P Fl. exists (flat_map (declare ko) cl). split; [apply dtd_read; assumption|]. split.
  - intros b t S H. exists (meant items fs t). split; [eapply xml_of_board; eassumption|]. destruct (neat_board fs b t S H) as (_ & N & F). apply tree_conforms; assumption.
  - intros css b t R S D. exists (meant items fs t). split; [eapply xml_of_styled; eassumption|]. destruct (styled_neat fs css b t Fl R S D) as (_ & N & F).
    apply tree_conforms; assumption.
Qed.

(* ---- two boards with the same XML ---- *)
Lemma ename_inj k k' : ename k = ename k' -> k = k'.
Proof. destruct k, k'; intros H; try reflexivity; vm_compute in H; discriminate. Qed.
Lemma items_one {X} (items : list X -> list X) l : listed items -> (List.length l <= 1)%nat -> items l = l.
Proof.
  intros Li Le. pose proof (Li l) as P. destruct l as [|x [|y l]]; [|..|cbn in Le; lia].
  - apply Permutation_nil, Permutation_sym, P.
  - apply Permutation_length_1_inv, Permutation_sym, P.
Qed.
Lemma headb_one h : headb h = true -> (List.length (attrs h) <= 1)%nat.
Proof. unfold headb. intros H. apply andb_prop in H as (_ & H). destruct (attrs h) as [|(n, a) [|? ?]]; cbn; [lia|lia|discriminate]. Qed.
Lemma head_same items fs h h' : listed items -> headb h = true -> headb h' = true -> kind h = kind h' -> given items fs h = given items fs h' -> h = h'.
Proof.
  intros Li B B' K G. unfold given in G. rewrite !items_one in G by (auto using headb_one). unfold headb in B, B'. destruct h as [k a l], h' as [k' a' l']. cbn [kind attrs css_lineno] in *. subst k'.
  apply andb_prop in B as (L1 & B). apply andb_prop in B' as (L2 & B'). destruct l; [|discriminate]. destruct l'; [|discriminate].
  destruct a as [|(n, x) [|? ?]]; [|..|discriminate]; (destruct a' as [|(n', x') [|? ?]]; [|..|discriminate]); try discriminate; [reflexivity|].
  cbn [map fst snd] in G. injection G as <- V. destruct x as [c p v], x' as [c' p' v']. cbn [a_class a_path a_value] in *.
  destruct (class_of k n) as [d|]; [|discriminate].
  destruct d; try discriminate; destruct c; try discriminate; destruct p; try discriminate; destruct v; try discriminate; destruct c'; try discriminate; destruct p'; try discriminate; destruct v'; try discriminate; cbn [show] in V; subst; reflexivity.
Qed.
Lemma meant_inj items fs t : listed items -> forall t', (forall e, In e (elements t) -> headb (ehead e) = true) -> (forall e, In e (elements t') -> headb (ehead e) = true) ->
  meant items fs t = meant items fs t' -> t = t'.
Proof.
  intros Li. induction t as [h ks IH] using elem_induction. intros [h' ks'] B B' E. rewrite !meant_eq in E. injection E as E1 E2 E3.
  apply ename_inj in E1. assert (h = h') by (eapply head_same; try eassumption; [apply (B (Elem h ks)), elements_self|apply (B' (Elem h' ks')), elements_self]). subst h'. f_equal.
  assert (BK : forall c, In (inl c) ks -> forall e, In e (elements c) -> headb (ehead e) = true) by (intros c I e J; apply B; eapply elements_kid; eassumption).
  assert (BK' : forall c, In (inl c) ks' -> forall e, In e (elements c) -> headb (ehead e) = true) by (intros c I e J; apply B'; eapply elements_kid; eassumption).
  clear B B' E1 E2. revert ks' E3 BK'. induction ks as [|c ks IHk]; intros [|c' ks'] E3 BK'; try discriminate; [reflexivity|]. cbn [kids_meant map] in E3. injection E3 as Ec E3.
  f_equal; [|apply IHk; [intros c0 I; apply IH; right; exact I|intros c0 I; apply BK; right; exact I|exact E3|intros c0 I; apply BK'; right; exact I]].
  destruct c as [c|s], c' as [c'|s']; try discriminate; [|congruence]. f_equal. injection Ec as Ec. apply IH; [left; reflexivity|apply BK; left; reflexivity|apply BK'; left; reflexivity|exact Ec].
Qed.
Lemma same_tree items fs b c t u : listed items -> sides_ok b -> sides_ok c -> board_tree b = Ok t -> board_tree c = Ok u -> xml items fs t = xml items fs u -> t = u.
Proof.
  intros Li Sb Sc Hb Hc E. pose proof (xml_of_board items fs b t Li Sb Hb) as R. pose proof (xml_of_board items fs c u Li Sc Hc) as R'. rewrite E, R' in R. injection R as R.
  eapply meant_inj; [exact Li| | |symmetry; exact R].
  - intros e I. apply (proj2 (tree_built b t Sb Hb) e I).
  - intros e I. apply (proj2 (tree_built c u Sc Hc) e I).
Qed.

(* the tree tells what the board is like *)
Lemma number_inj n m : number n = number m -> n = m.
Proof.
  unfold number. destruct (Z.eqb_spec n 0), (Z.eqb_spec m 0); intros H; try discriminate; [congruence|]. injection H as H. apply py_str_inj, H.
Qed.
Lemma one_same t f P Q : the_one t f P -> the_one t f Q -> exists e, P e /\ Q e.
Proof. intros (e & E & HP) (e' & E' & HQ). rewrite E in E'. injection E' as <-. exists e. split; assumption. Qed.
Lemma side_same (l m : list Z) : List.length l = 25%nat -> List.length m = 25%nat -> (forall i, (i < 25)%nat -> nth i l 0 = nth i m 0) -> l = m.
Proof. intros A B H. apply (nth_ext l m 0 0); [congruence|]. intros i I. apply H. lia. Qed.
Lemma position_same b c t : sides_ok b -> sides_ok c -> shows_chequers b t -> shows_chequers c t -> position b = position c.
Proof.
  intros (A1 & A2) (B1 & B2) (P & Q) (P' & Q'). rewrite (surjective_pairing (position b)), (surjective_pairing (position c)). f_equal.
  - apply side_same; try assumption. intros i I. destruct (Nat.eq_dec i 24) as [->|N].
    + destruct (Q YOU (or_introl eq_refl)) as (X & _). destruct (Q' YOU (or_introl eq_refl)) as (X' & _). destruct (one_same _ _ _ _ X X') as (e & (E & _) & (E' & _)). rewrite E in E'. apply number_inj, E'.
    + assert (R : 1 <= Z.of_nat i + 1 <= 24) by lia. destruct (one_same _ _ _ _ (P _ R) (P' _ R)) as (e & (E & _) & (E' & _)). rewrite E in E'. apply number_inj in E'.
      replace (Z.to_nat (Z.of_nat i + 1 - 1)) with i in E' by lia. exact E'.
  - apply side_same; try assumption. intros i I. destruct (Nat.eq_dec i 24) as [->|N].
    + destruct (Q HIM (or_intror eq_refl)) as (X & _). destruct (Q' HIM (or_intror eq_refl)) as (X' & _). destruct (one_same _ _ _ _ X X') as (e & (E & _) & (E' & _)). rewrite E in E'. apply number_inj, E'.
    + assert (R : 1 <= 24 - Z.of_nat i <= 24) by lia. destruct (one_same _ _ _ _ (P _ R) (P' _ R)) as (e & (_ & E) & (_ & E')). rewrite E in E'. apply number_inj in E'.
      replace (Z.to_nat (24 - (24 - Z.of_nat i))) with i in E' by lia. exact E'.
Qed.
Lemma match_same b c t : shows_match b t -> shows_match c t -> score b = score c /\ match_length b = match_length c /\ crawford b = crawford c.
Proof.
  intros (A & B & C) (A' & B' & C'). rewrite A in A'. rewrite B in B'. rewrite C in C'. injection A' as X Y. injection B' as Z. apply py_str_inj in X, Y, Z. split; [|split; [exact Z|]].
  - rewrite (surjective_pairing (score b)), (surjective_pairing (score c)). congruence.
  - destruct (crawford b), (crawford c); try reflexivity; discriminate.
Qed.
Lemma dice_same b c t : shows_dice b t -> shows_dice c t -> rolled b = rolled c.
Proof.
  assert (D : forall p : Z * Z, p = (0, 0) \/ p <> (0, 0)) by (intros [x y]; destruct (Z.eq_dec x 0), (Z.eq_dec y 0); subst; [left; reflexivity|right; congruence..]).
  intros (A & B) (A' & B'). destruct (D (rolled b)) as [E|N], (D (rolled c)) as [E'|N']; [congruence|..].
  - rewrite (A E) in B'. destruct (B' N') as (X & _). discriminate.
  - rewrite (A' E') in B. destruct (B N) as (X & _). discriminate.
  - destruct (B N) as (X & _). destruct (B' N') as (X' & _). rewrite X in X'. injection X' as X1 X2. apply py_str_inj in X1, X2.
    rewrite (surjective_pairing (rolled b)), (surjective_pairing (rolled c)). congruence.
Qed.
Lemma sentence_same b c : player_no (on_action b) -> player_no (on_action c) -> (not_rolled b = true -> player_no (on_inner_action b)) -> (not_rolled c = true -> player_no (on_inner_action c)) ->
  sentence b = sentence c -> on_action b = on_action c /\ (not_rolled b = true -> doubled b = doubled c /\ on_inner_action b = on_inner_action c).
Proof.
  unfold sentence. intros P P' Q Q'. destruct (not_rolled b), (not_rolled c).
  - destruct P as [->| ->], P' as [->| ->], (Q eq_refl) as [->| ->], (Q' eq_refl) as [->| ->], (doubled b), (doubled c); intros H; vm_compute in H; try discriminate H; auto.
  - destruct P as [->| ->], P' as [->| ->], (Q eq_refl) as [->| ->], (doubled b); intros H; vm_compute in H; discriminate H.
  - destruct P as [->| ->], P' as [->| ->], (Q' eq_refl) as [->| ->], (doubled c); intros H; vm_compute in H; discriminate H.
  - destruct P as [->| ->], P' as [->| ->]; intros H; vm_compute in H; try discriminate H; (split; [reflexivity|discriminate]).
Qed.
Lemma cubes_same b c t : sides_ok b -> sides_ok c -> position b = position c -> board_tree b = Ok t -> board_tree c = Ok t -> the_cubes b = the_cubes c.
Proof.
  intros Sb Sc P Hb Hc. rewrite board_tree_ok in Hb, Hc by assumption.
  destruct (the_cubes b) as [[[m y] h]|e] eqn:EC; [|discriminate]. destruct (the_action b) as [[[[p s] f] g]|e] eqn:EA; [|discriminate].
  destruct (the_cubes c) as [[[m' y'] h']|e] eqn:EC'; [|discriminate]. destruct (the_action c) as [[[[p' s'] f'] g']|e] eqn:EA'; [|discriminate].
  cbn [bind] in Hb, Hc. assert (T : trunk b (mkextras (Some p) [L s] f g m y h) = trunk c (mkextras (Some p') [L s'] f' g' m' y' h')) by congruence. clear Hb Hc.
  pose proof (stages_ok b m y h p s f g (cubes_of _ _ EC) (action_stage _ _ EA)) as O. pose proof (stages_ok c m' y' h' p' s' f' g' (cubes_of _ _ EC') (action_stage _ _ EA')) as O'.
  pose proof (find_middle b _ O) as M. rewrite T, (find_middle c _ O') in M. cbn [c_mid] in M. injection M as M.
  pose proof (find_home b _ YOU O (or_introl eq_refl)) as Y. rewrite T, (find_home c _ YOU O' (or_introl eq_refl)) in Y.
  pose proof (find_home b _ HIM O (or_intror eq_refl)) as H. rewrite T, (find_home c _ HIM O' (or_intror eq_refl)) in H.
  unfold half in Y, H. rewrite P in Y, H. cbn [c_you c_him Z.eqb YOU HIM] in Y, H. injection Y as Y. injection H as H.
  apply app_inv_head in Y, H. congruence.
Qed.
Lemma cubes_owner b c : the_cubes b = the_cubes c -> (exists r, the_cubes b = Ok r) -> (offered b <-> offered c) /\ (~ offered b -> cube_owner b = cube_owner c /\ cube_in_logarithm b = cube_in_logarithm c).
Proof.
  intros E (r & R). rewrite R in E. symmetry in E. apply cubes_of in R, E. inversion R; subst; inversion E; subst; (split; [tauto|]); intros N;
    first [contradiction | split; [congruence|apply py_str_inj; congruence]].
Qed.
Lemma same_cubes b c : (offered b <-> offered c) -> (~ offered b -> cube_owner b = cube_owner c) -> (~ offered b -> cube_in_logarithm b = cube_in_logarithm c) -> the_cubes b = the_cubes c.
Proof.
  intros O W Cu. unfold the_cubes. destruct (negb (doubled b) || (on_inner_action b =? on_action b)) eqn:E, (negb (doubled c) || (on_inner_action c =? on_action c)) eqn:E'.
  - apply offered_eq in E. rewrite (W E), (Cu E). reflexivity.
  - apply offered_eq in E. rewrite O in E. apply offered_eq in E. congruence.
  - apply offered_eq in E'. rewrite <- O in E'. apply offered_eq in E'. congruence.
  - reflexivity.
Qed.
Lemma same_action b c : drawable b -> drawable c -> rolled b = rolled c -> on_action b = on_action c -> (rolled b = (0, 0) -> doubled b = doubled c /\ on_inner_action b = on_inner_action c) ->
  (rolled b = (0, 0) -> doubled b = false -> on_inner_action b <> on_action b -> resign_offer b = resign_offer c) ->
  (offered b -> rolled b = (0, 0) -> cube_in_logarithm b = cube_in_logarithm c) -> the_action b = the_action c.
Proof.
  intros (P & _ & D) _ Ro A I Re Cu. unfold the_action, dice_elems. cbv zeta. assert (Nr : not_rolled c = not_rolled b) by (unfold not_rolled; rewrite Ro; reflexivity). rewrite Nr, <- Ro, <- A.
  destruct (not_rolled b) eqn:N.
  - apply not_rolled_eq in N. destruct (I N) as (I1 & I2). destruct (D N) as (D1 & D2). rewrite <- I1, <- I2. destruct (doubled b) eqn:Db.
    + destruct (Z.eq_dec (on_inner_action b) (on_action b)) as [E|E].
      * rewrite E. destruct P as [->| ->]; reflexivity.
      * assert (O : offered b) by (split; assumption). rewrite <- (Cu O N). destruct P as [P|P], D1 as [D1|D1]; rewrite P, D1 in *; try contradiction; reflexivity.
    + destruct (Z.eq_dec (on_inner_action b) (on_action b)) as [E|E].
      * rewrite E. destruct P as [->| ->]; reflexivity.
      * rewrite <- (Re N eq_refl E). destruct P as [P|P], D1 as [D1|D1]; rewrite P, D1; reflexivity.
  - destruct P as [->| ->]; cbn [negb andb]; rewrite ?andb_false_r; reflexivity.
Qed.
Lemma same_trunk b c x : position b = position c -> score b = score c -> match_length b = match_length c -> crawford b = crawford c -> trunk b x = trunk c x.
Proof.
  intros P Sc M C. unfold trunk. rewrite P, Sc, M, C. rewrite (map_ext (fun i => inl (point b i)) (fun i => @inl elem str (point c i))); [reflexivity|].
  intros i. unfold point, on_point. rewrite P. reflexivity.
Qed.
Lemma view_xml : forall items float_str b c t u, listed items -> sides_ok b -> sides_ok c -> board_tree b = Ok t -> board_tree c = Ok u ->
  (xml items float_str t = xml items float_str u <-> same_view b c).
Proof.
  intros items fs b c t u Li Sb Sc Hb Hc. assert (Db : drawable b) by (apply (board_tree_iff b Sb); exists t; exact Hb). assert (Dc : drawable c) by (apply (board_tree_iff c Sc); exists u; exact Hc).
  split.
  - intros E. assert (t = u) by (exact (same_tree items fs b c t u Li Sb Sc Hb Hc E)). subst u.
    destruct (board_shown b t Sb Hb) as (B1 & B2 & B3 & B4 & B5). destruct (board_shown c t Sc Hc) as (C1 & C2 & C3 & C4 & C5).
    pose proof (position_same b c t Sb Sc B1 C1) as P. destruct (match_same b c t B5 C5) as (M1 & M2 & M3). pose proof (dice_same b c t B3 C3) as Ro.
    destruct (action_partial b t Sb Hb) as (W & _). destruct (action_partial c t Sc Hc) as (W' & _). rewrite W in W'. injection W' as W'.
    destruct Db as (Pb & Ob & Ib). destruct Dc as (Pc & Oc & Ic).
    destruct (sentence_same b c Pb Pc) as (A & I); [intros N; apply Ib, not_rolled_eq, N|intros N; apply Ic, not_rolled_eq, N|exact W'|].
    assert (I' : rolled b = (0, 0) -> doubled b = doubled c /\ on_inner_action b = on_inner_action c) by (intros N; apply I, not_rolled_eq, N).
    destruct (cubes_owner b c) as (O & Cu); [eapply cubes_same; eassumption|apply cubes_ok_iff, Ob|].
    assert (Rd : rolled b = (0, 0) \/ rolled b <> (0, 0)) by (destruct (not_rolled b) eqn:N; [left; apply not_rolled_eq, N|right; intros F; apply not_rolled_eq in F; congruence]).
    unfold same_view. repeat (split; [assumption|]). split; [|split; [exact O|split; [intros N; apply Cu, N|]]].
    + intros N Dd Ne. destruct (I' N) as (I1 & I2). destruct B4 as (B4 & _). destruct C4 as (C4 & _). destruct (B4 N Dd Ne) as (_ & X & _).
      destruct C4 as (_ & X' & _); [congruence..|]. rewrite X in X'. injection X' as X'. apply py_str_inj, X'.
    + intros N. destruct (negb (doubled b) || (on_inner_action b =? on_action b)) eqn:Q.
      * apply offered_eq in Q. apply Cu, Q.
      * assert (Of : offered b) by (destruct (doubled b) eqn:Dd; [|discriminate Q]; split; [exact Dd|apply Z.eqb_neq, Q]). destruct Rd as [Rd|Rd]; [|exfalso; apply N; split; assumption].
        destruct B2 as (_ & B2 & _). destruct C2 as (_ & C2 & _). destruct (B2 Of Rd) as (X & _). destruct C2 as (X' & _); [apply O, Of|congruence|]. rewrite X in X'. injection X' as X'. apply py_str_inj in X'. lia.
  - intros (P & Sco & M & Cr & Ro & A & I & Re & O & W & Cu). f_equal. rewrite board_tree_ok in Hb, Hc by assumption.
    rewrite (same_cubes b c) in Hb; [|exact O|exact W|intros N; apply Cu; tauto]. rewrite (same_action b c) in Hb; try assumption; [|intros Of N; apply Cu; tauto].
    destruct (the_cubes c) as [[[m y] h]|e]; [|discriminate]. destruct (the_action c) as [[[[p s] f] g]|e]; [|discriminate]. cbn [bind] in Hb, Hc. rewrite (same_trunk b c) in Hb by assumption. congruence.
Qed.

(* ---- the sheets of the package ---- *)
Definition tameb (r : rule) : bool :=
  bare_value (r_path r) && forallb (fun nv => if str_mem (fst nv) [L "image"; L "font"] then forallb bare_char (snd nv) else bare_value (snd nv)) (block r).
Lemma tameb_tame r : tameb r = true -> tame r.
Proof.
  unfold tameb, tame. intros H. apply andb_prop in H as (P & H). split; [exact P|]. intros n v I. rewrite forallb_forall in H. apply H in I. cbn [fst snd] in I. destruct (str_mem n _); exact I.
Qed.
Lemma themes_tame : forallb (fun f => match theme f with Ok rs => forallb tameb rs | Exc _ => false end) theme_files = true.
Proof. vm_compute. reflexivity. Qed.
Lemma shipped_tame name rs w h : ships name rs w h -> forall r, In r rs -> tame r.
Proof.
  intros (_ & text & I & E) r J. pose proof themes_tame as T. rewrite forallb_forall in T. specialize (T _ I). cbv beta in T. rewrite E in T. rewrite forallb_forall in T. apply tameb_tame, T, J.
Qed.
Lemma xml_of_theme : forall items float_str name rs w h b t, listed items -> (forall f, bare_value (float_str f) = true) -> ships name rs w h ->
  sides_ok b -> in_style rs b t -> read_document (xml items float_str t) = Some (L "board", meant items float_str t).
Proof. intros items fs name rs w h b t Li Fl Sh S D. eapply xml_of_styled; try eassumption. eapply shipped_tame, Sh. Qed.
(* a value with a quotation mark *)
Definition quoting : list rule := match load (L "t/default.css") [L "board {background: ""red""}"] with Ok rs => rs | Exc _ => [] end.
Lemma xml_quotes : exists css b t, load (L "t/default.css") [L "board {background: ""red""}"] = Ok css /\ sides_ok b /\ in_style css b t /\
  read_document (xml (fun l => l) (fun _ => L "1.0") t) = None.
Proof.
  exists quoting, default_board. eexists. split; [vm_compute; reflexivity|]. split; [split; reflexivity|]. split.
  - left. eexists. split; [vm_compute; reflexivity|]. vm_compute. reflexivity.
  - vm_compute. reflexivity.
Qed.
