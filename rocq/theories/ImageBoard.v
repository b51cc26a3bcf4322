(* The tree of a board shows the board. *)
From Verif Require Import Py PyFacts Dict DictFacts UtilModel BoardModel ImageModel ImageSpec ImageCss ImageTree.
Open Scope string_scope.
Open Scope list_scope.
Open Scope Z_scope.

Lemma texts_point b i : texts (point b i) = [py_str_int i].
Proof.
  unfold texts, point. cbn [children flat_map app]. f_equal. unfold on_point. destruct (i <=? 12); rewrite flat_map_app, !texts_chequer; reflexivity.
Qed.
Lemma is_point_point b i j : is_point i (point b j) = (i =? j).
Proof.
  unfold is_point. change (of_kind EPoint (point b j)) with true. cbn [andb]. rewrite texts_point. destruct (Z.eqb_spec i j) as [->|N].
  - apply str_mem_in. left. reflexivity.
  - destruct (str_mem _ _) eqn:Q; [|reflexivity]. apply str_mem_in in Q. destruct Q as [Q|[]]. apply py_str_inj in Q. congruence.
Qed.
Lemma find_point b x i : ok_extras x -> 1 <= i <= 24 -> filter (is_point i) (elements (trunk b x)) = [point b i].
Proof.
  intros (O1 & O2 & O3 & O4 & O5) B. assert (F : only (is_point i) EPoint) by apply only_and.
  destruct x as [[pl|] xs xa xb xc xd xe]; cbn [f_you f_him c_mid c_you c_him] in *; rewrite elements_trunk; unfold action_elem; cbn [x_player x_says f_you f_him c_mid c_you c_him]; rewrite !filter_app;
  repeat (sift1; rewrite ?filter_app; rewrite ?(below_chequer _ EPoint) by (exact F || discriminate); rewrite ?(below_extra _ EPoint) by (assumption || exact F || (intros [E|[E|E]]; discriminate)));
  cbn [app filter]; rewrite ?app_nil_r.
  all: rewrite filter_flat_map.
  all: rewrite (flat_map_ext _ (fun j => if i =? j then [point b j] else [])) by (intros j; cbn [filter]; rewrite (below_on_point _ EPoint) by (exact F || discriminate); rewrite is_point_point; reflexivity).
  all: assert (C : i=1\/i=2\/i=3\/i=4\/i=5\/i=6\/i=7\/i=8\/i=9\/i=10\/i=11\/i=12\/i=13\/i=14\/i=15\/i=16\/i=17\/i=18\/i=19\/i=20\/i=21\/i=22\/i=23\/i=24) by lia;
    clear -C; repeat (destruct C as [->|C]; [reflexivity|]); rewrite C; reflexivity.
Qed.
(* chequers in a list of children *)
Definition chq (p : str) (l : list kid) : list str :=
  flat_map texts (filter (fun c => of_kind EChequer c && of_player p c) (flat_map (fun c : kid => match c with inl c => [c] | inr _ => [] end) l)).
Lemma chequers_eq p h l : chequers p (Elem h l) = chq p l.
Proof. reflexivity. Qed.
Lemma chq_app p l1 l2 : chq p (l1 ++ l2) = chq p l1 ++ chq p l2.
Proof. unfold chq. rewrite flat_map_app, filter_app, flat_map_app. reflexivity. Qed.
Lemma chq_own p n : p = you \/ p = him -> chq p (chequer p n) = number n.
Proof. intros [->| ->]; unfold chequer, number; destruct (n =? 0); reflexivity. Qed.
Lemma chq_other p q n : (p = you /\ q = him) \/ (p = him /\ q = you) -> chq p (chequer q n) = [].
Proof. intros [(->,->)|(->,->)]; unfold chequer; destruct (n =? 0); reflexivity. Qed.
Lemma chq_extra p l : ok_extra l -> chq p l = [].
Proof.
  intros O. unfold chq. rewrite filter_none; [reflexivity|]. intros e I. apply in_flat_map in I as (c & I & J). destruct (O c I) as (k & a & s & E & ->).
  destruct J as [<-|[]]. destruct E as [->|[->| ->]]; reflexivity.
Qed.
Lemma name_cases p : player_no p -> (name_of p = you \/ name_of p = him) /\ ((name_of p = you /\ name_of (1 - p) = him) \/ (name_of p = him /\ name_of (1 - p) = you)).
Proof. intros [->| ->]; split; [left|left|right|right]; try split; reflexivity. Qed.
(* all of them *)
Definition mine (p : str) (c : elem) : bool := of_kind EChequer c && of_player p c.
Lemma mine_chequer p n : p = you \/ p = him -> flat_map texts (filter (mine p) (below (chequer p n))) = number n.
Proof. intros [->| ->]; unfold chequer, number; destruct (n =? 0); reflexivity. Qed.
Lemma mine_other p q n : (p = you /\ q = him) \/ (p = him /\ q = you) -> flat_map texts (filter (mine p) (below (chequer q n))) = [].
Proof. intros [(->,->)|(->,->)]; unfold chequer; destruct (n =? 0); reflexivity. Qed.
Lemma mine_extra p l : ok_extra l -> flat_map texts (filter (mine p) (below l)) = [].
Proof. intros O. rewrite (below_extra (mine p) EChequer); [reflexivity|exact O|apply only_and|]. intros [E|[E|E]]; discriminate. Qed.
Definition spot (b : board) (p : Z) (i : Z) : Z := if p =? YOU then nth (Z.to_nat (i - 1)) (fst (position b)) 0 else nth (Z.to_nat (24 - i)) (snd (position b)) 0.
Lemma flat_map_flat_map {X Y W} (f : Y -> list W) (g : X -> list Y) l : flat_map f (flat_map g l) = flat_map (fun x => flat_map f (g x)) l.
Proof. induction l as [|x l IH]; [reflexivity|]. cbn. rewrite flat_map_app, IH. reflexivity. Qed.
Lemma mine_points b p : player_no p -> flat_map texts (filter (mine (name_of p)) (flat_map (fun i => point b i :: below (on_point b i)) (zrange 1 25))) = flat_map (fun i => number (spot b p i)) (zrange 1 25).
Proof.
  intros P. destruct (name_cases p P) as (N1 & N2). rewrite filter_flat_map, flat_map_flat_map. apply flat_map_ext. intros i. cbn [filter].
  change (mine (name_of p) (point b i)) with false. cbn match. unfold on_point, spot.
  destruct P as [->| ->]; [change (name_of YOU) with you in *; change (YOU =? YOU) with true|change (name_of HIM) with him in *; change (HIM =? YOU) with false]; cbn match;
  destruct (i <=? 12); rewrite below_app, filter_app, flat_map_app, mine_chequer, mine_other by (auto; fail); rewrite ?app_nil_r; reflexivity.
Qed.
Lemma written_app f l1 l2 : flat_map texts (filter f (l1 ++ l2)) = flat_map texts (filter f l1) ++ flat_map texts (filter f l2).
Proof. rewrite filter_app, flat_map_app. reflexivity. Qed.
Lemma all_mine b x p : ok_extras x -> player_no p -> all_chequers (name_of p) (trunk b x) =
  if p =? YOU then number (15 - zsum (half b p)) ++ flat_map (fun i => number (spot b p i)) (zrange 1 25) ++ number (nth 24 (half b p) 0)
  else number (nth 24 (half b p) 0) ++ flat_map (fun i => number (spot b p i)) (zrange 1 25) ++ number (15 - zsum (half b p)).
Proof.
  intros (O1 & O2 & O3 & O4 & O5) P. unfold all_chequers. change (fun e => of_kind EChequer e && of_player (name_of p) e) with (mine (name_of p)).
  destruct x as [[pl|] xs xa xb xc xd xe]; cbn [f_you f_him c_mid c_you c_him] in *; rewrite elements_trunk; unfold action_elem; cbn [x_player x_says f_you f_him c_mid c_you c_him]; rewrite !written_app, (mine_points b p P);
  (destruct P as [->| ->]; [change (YOU =? YOU) with true; change (half b YOU) with (fst (position b)); change (name_of YOU) with you|change (HIM =? YOU) with false; change (half b HIM) with (snd (position b)); change (name_of HIM) with him]); cbn match;
  repeat (sift1; rewrite ?written_app; rewrite ?mine_chequer by (auto; fail); rewrite ?mine_other by (auto; fail); rewrite ?mine_extra by assumption);
  cbn [app filter flat_map]; rewrite ?app_nil_r; reflexivity.
Qed.
Lemma read_number n : zsum (map read (number n)) = n.
Proof. unfold number. destruct (Z.eqb_spec n 0) as [->|N]; [reflexivity|]. cbn. unfold read. rewrite py_int_str. lia. Qed.
Lemma read_numbers (f : Z -> Z) l : zsum (map read (flat_map (fun i => number (f i)) l)) = zsum (map f l).
Proof. induction l as [|i l IH]; [reflexivity|]. cbn [flat_map map]. rewrite map_app, zsum_app, read_number, IH. reflexivity. Qed.
Lemma sum_spot b p : sides_ok b -> player_no p -> zsum (map (spot b p) (zrange 1 25)) + nth 24 (half b p) 0 = zsum (half b p).
Proof.
  intros (L1 & L2). assert (G : forall l : list Z, List.length l = 25%nat -> exists a0 a1 a2 a3 a4 a5 a6 a7 a8 a9 a10 a11 a12 a13 a14 a15 a16 a17 a18 a19 a20 a21 a22 a23 a24,
    l = [a0;a1;a2;a3;a4;a5;a6;a7;a8;a9;a10;a11;a12;a13;a14;a15;a16;a17;a18;a19;a20;a21;a22;a23;a24]).
  { intros l H. do 25 (destruct l as [|? l]; [discriminate|]). destruct l; [|discriminate]. repeat eexists. }
  unfold spot, half. intros [->| ->].
  - change (YOU =? YOU) with true. cbn match. destruct (G _ L1) as (a0&a1&a2&a3&a4&a5&a6&a7&a8&a9&a10&a11&a12&a13&a14&a15&a16&a17&a18&a19&a20&a21&a22&a23&a24&E). rewrite E. let v := eval vm_compute in (zrange 1 25) in change (zrange 1 25) with v. cbn [map]. repeat match goal with |- context[nth (Z.to_nat ?e) _ _] => let v := eval vm_compute in (Z.to_nat e) in change (Z.to_nat e) with v end. cbn [nth]. unfold zsum. cbn [fold_right]. ring.
  - change (HIM =? YOU) with false. cbn match. destruct (G _ L2) as (a0&a1&a2&a3&a4&a5&a6&a7&a8&a9&a10&a11&a12&a13&a14&a15&a16&a17&a18&a19&a20&a21&a22&a23&a24&E). rewrite E. let v := eval vm_compute in (zrange 1 25) in change (zrange 1 25) with v. cbn [map]. repeat match goal with |- context[nth (Z.to_nat ?e) _ _] => let v := eval vm_compute in (Z.to_nat e) in change (Z.to_nat e) with v end. cbn [nth]. unfold zsum. cbn [fold_right]. ring.
Qed.
Lemma trunk_chequers b x : sides_ok b -> ok_extras x -> shows_chequers b (trunk b x).
Proof.
  intros SO O. pose proof O as (O1 & O2 & O3 & O4 & O5). split.
  - intros i B. exists (point b i). split; [apply find_point; assumption|]. unfold point. rewrite !chequers_eq.
    change (chq you (inr (py_str_int i) :: on_point b i)) with (chq you (on_point b i)). change (chq him (inr (py_str_int i) :: on_point b i)) with (chq him (on_point b i)).
    unfold on_point. change (half b YOU) with (fst (position b)). change (half b HIM) with (snd (position b)).
    destruct (i <=? 12); rewrite !chq_app, !chq_own, !chq_other by (auto; fail); rewrite ?app_nil_r; split; reflexivity.
  - intros p P. destruct (name_cases p P) as (N1 & N2).
    assert (N3 : (name_of (1 - p) = you /\ name_of p = him) \/ (name_of (1 - p) = him /\ name_of p = you)) by tauto. split; [|split].
    + eexists. split; [apply find_bar; assumption|]. unfold owned. rewrite !chequers_eq, chq_own, chq_other by assumption. split; reflexivity.
    + eexists. split; [apply find_home; assumption|]. unfold owned. rewrite !chequers_eq, !chq_app, chq_own, chq_other by assumption.
      assert (E : forall q, chq q (if p =? YOU then c_you x else c_him x) = []) by (intros q; apply chq_extra; destruct (p =? YOU); assumption).
      rewrite !E, app_nil_r. split; reflexivity.
    + rewrite (all_mine b x p O P). pose proof (sum_spot b p SO P). destruct (p =? YOU); rewrite !map_app, !zsum_app, !read_number, read_numbers; lia.
Qed.
Lemma trunk_match b x : ok_extras x -> shows_match b (trunk b x).
Proof.
  intros O. unfold shows_match, written_on. rewrite find_score, find_length, find_crawford by assumption. split; [reflexivity|]. split; [reflexivity|].
  unfold texts. cbn. destruct (crawford b); reflexivity.
Qed.
Lemma not_rolled_eq b : not_rolled b = true <-> rolled b = (0, 0).
Proof.
  unfold not_rolled, zpair_eqb. destruct (rolled b) as [i j]. cbn. rewrite andb_true_iff, !Z.eqb_eq. split; [intros (-> & ->); reflexivity|intros H; injection H as -> ->; auto].
Qed.
Lemma resigning_eq b : zmem (resign_offer b) RESIGN_TYPES = true <-> 1 <= resign_offer b <= 3.
Proof.
  unfold zmem, RESIGN_TYPES. cbn. rewrite !orb_true_iff, !Z.eqb_eq. change RESIGN_SINGLE with 1. change RESIGN_GAMMON with 2. change RESIGN_BACKGAMMON with 3. intuition lia.
Qed.
(* what has to be decided, read off the board *)
Inductive stage (b : board) : str * string * list kid * list kid -> Prop :=
  | st_roll s p : on_inner_action b = on_action b -> rolled b = (0, 0) -> stage b (p, s, [], [])
  | st_resign s p f g : rolled b = (0, 0) -> doubled b = false -> on_inner_action b <> on_action b -> player_no (on_inner_action b) -> 1 <= resign_offer b <= 3 ->
      f = (if on_inner_action b =? YOU then [resign_elem (resign_offer b)] else []) -> g = (if on_inner_action b =? YOU then [] else [resign_elem (resign_offer b)]) ->
      stage b (p, s, f, g)
  | st_double s p f g : rolled b = (0, 0) -> doubled b = true -> on_inner_action b <> on_action b -> player_no (on_inner_action b) ->
      f = (if on_inner_action b =? YOU then [cube_elem (cube_in_logarithm b + 1)] else []) -> g = (if on_inner_action b =? YOU then [] else [cube_elem (cube_in_logarithm b + 1)]) ->
      stage b (p, s, f, g)
  | st_move s p f g : rolled b <> (0, 0) -> player_no (on_action b) ->
      f = (if on_action b =? YOU then dice_elems b else []) -> g = (if on_action b =? YOU then [] else dice_elems b) -> stage b (p, s, f, g).
Ltac bools := repeat match goal with
  | H : (_ && _)%bool = true |- _ => apply andb_prop in H as (? & ?)
  | H : (_ =? _) = true |- _ => apply Z.eqb_eq in H
  | H : negb _ = true |- _ => apply negb_true_iff in H
  | H : not_rolled _ = true |- _ => apply not_rolled_eq in H
  | H : zmem _ RESIGN_TYPES = true |- _ => apply resigning_eq in H
  end.
Lemma action_stage b a : the_action b = Ok a -> stage b a.
Proof.
  assert (YH : YOU <> HIM) by discriminate. assert (HY : HIM =? YOU = false) by reflexivity. assert (YY : YOU =? YOU = true) by reflexivity.
  assert (NR : not_rolled b = false -> rolled b <> (0, 0)) by (intros E F; apply not_rolled_eq in F; congruence).
  unfold the_action. cbv zeta. intros H.
  repeat match type of H with (if ?c then _ else _) = _ => let E := fresh "E" in destruct c eqn:E; [injection H as <-; clear -E YH HY YY NR; bools|clear E] end; [..|discriminate H].
  - apply st_roll; congruence.
  - apply st_resign; try congruence; try (right; congruence); try assumption; match goal with I : on_inner_action b = _ |- _ => rewrite I end; reflexivity.
  - apply st_double; try congruence; try (right; congruence); match goal with I : on_inner_action b = _ |- _ => rewrite I end; reflexivity.
  - apply st_roll; congruence.
  - apply st_move; try (apply NR; assumption); try (left; assumption); match goal with I : on_action b = _ |- _ => rewrite I end; reflexivity.
  - apply st_roll; congruence.
  - apply st_resign; try congruence; try (left; congruence); try assumption; match goal with I : on_inner_action b = _ |- _ => rewrite I end; reflexivity.
  - apply st_double; try congruence; try (left; congruence); match goal with I : on_inner_action b = _ |- _ => rewrite I end; reflexivity.
  - apply st_roll; congruence.
  - apply st_move; try (apply NR; assumption); try (right; assumption); match goal with I : on_action b = _ |- _ => rewrite I end; reflexivity.
Qed.
Inductive cubes (b : board) : list kid * list kid * list kid -> Prop :=
  | cb_you : ~ offered b -> cube_owner b = YOU -> cubes b ([], [cube_elem (cube_in_logarithm b)], [])
  | cb_him : ~ offered b -> cube_owner b = HIM -> cubes b ([], [], [cube_elem (cube_in_logarithm b)])
  | cb_mid : ~ offered b -> cube_owner b = CENTER -> cubes b ([cube_elem (cube_in_logarithm b)], [], [])
  | cb_off : offered b -> cubes b ([], [], []).
Lemma offered_eq b : negb (doubled b) || (on_inner_action b =? on_action b) = true <-> ~ offered b.
Proof.
  unfold offered. rewrite orb_true_iff, negb_true_iff, Z.eqb_eq. destruct (doubled b); destruct (Z.eq_dec (on_inner_action b) (on_action b)); intuition congruence.
Qed.
Lemma cubes_of b c : the_cubes b = Ok c -> cubes b c.
Proof.
  unfold the_cubes. destruct (negb (doubled b) || _) eqn:E.
  - apply offered_eq in E. destruct (Z.eqb_spec (cube_owner b) YOU); [intros H; injection H as <-; constructor; assumption|].
    destruct (Z.eqb_spec (cube_owner b) HIM); [intros H; injection H as <-; constructor; assumption|].
    destruct (Z.eqb_spec (cube_owner b) CENTER); [intros H; injection H as <-; constructor; assumption|discriminate].
  - intros H. injection H as <-. apply cb_off. destruct (doubled b) eqn:D; [|discriminate E]. split; [exact D|]. apply Z.eqb_neq. exact E.
Qed.
Lemma stages_ok b m y h p s f g : cubes b (m, y, h) -> stage b (p, s, f, g) -> ok_extras (mkextras (Some p) [L s] f g m y h).
Proof.
  assert (N : ok_extra []) by (intros c []).
  assert (C : forall n, ok_extra [cube_elem n]) by (intros n c [<-|[]]; exists ECube; repeat eexists; left; reflexivity).
  assert (R : forall n, ok_extra [resign_elem n]) by (intros n c [<-|[]]; exists EResign; repeat eexists; right; right; reflexivity).
  assert (D : ok_extra (dice_elems b)) by (intros c [<-|[<-|[]]]; exists EDie; repeat eexists; right; left; reflexivity).
  intros HC HS. unfold ok_extras. cbn [f_you f_him c_mid c_you c_him].
  assert (OC : ok_extra m /\ ok_extra y /\ ok_extra h) by (inversion HC; subst; auto).
  assert (OS : ok_extra f /\ ok_extra g).
  { inversion HS; subst; auto; match goal with |- context[if ?c then _ else _] => destruct c; auto end. }
  tauto.
Qed.
Lemma shown_eq k h ks : (forall c : kid, In c ks -> match c with inl e => below (children e) = [] | inr _ => True end) -> shown k (Elem h ks) = flat_map texts (filter (of_kind k) (below ks)).
Proof.
  intros H. unfold shown, inside. cbn [children]. f_equal. f_equal. unfold below. induction ks as [|[c|s] ks IH]; [reflexivity|..].
  - cbn [flat_map]. rewrite IH by (intros d I; apply H; right; exact I). f_equal. destruct c as [ch cs]. rewrite elements_eq. f_equal. symmetry. apply (H (inl (Elem ch cs))). left. reflexivity.
  - cbn [flat_map]. apply IH. intros d I; apply H; right; exact I.
Qed.
Definition kinds_in (k : ekind) (l : list kid) : list str := flat_map texts (filter (of_kind k) (below l)).
Lemma written_extra b x k : extra_kind k -> written_on k (trunk b x) = kinds_in k (c_mid x) ++ kinds_in k (f_you x) ++ kinds_in k (c_you x) ++ kinds_in k (c_him x) ++ kinds_in k (f_him x).
Proof. intros E. unfold written_on. rewrite find_extra by exact E. rewrite !flat_map_app. reflexivity. Qed.
Lemma shown_extra k h p n l : ok_extra l -> extra_kind k -> shown k (Elem h (chequer p n ++ l)) = kinds_in k l.
Proof.
  intros O E. unfold shown, inside. cbn [children]. rewrite flat_map_app, filter_app, flat_map_app.
  replace (filter (of_kind k) (flat_map _ (chequer p n))) with (@nil elem); [|unfold chequer; destruct (n =? 0); [reflexivity|]; destruct E as [->|[->| ->]]; reflexivity].
  cbn [flat_map app]. unfold kinds_in, below. f_equal. f_equal. induction l as [|c l IH]; [reflexivity|]. cbn [flat_map]. rewrite IH by (intros d I; apply O; right; exact I).
  destruct (O c (or_introl eq_refl)) as (k' & a & s & _ & ->). reflexivity.
Qed.
Lemma shown_extra0 k h l : ok_extra l -> extra_kind k -> shown k (Elem h l) = kinds_in k l.
Proof. intros O E. rewrite <- (shown_extra k h you 0 l O E). reflexivity. Qed.
Lemma trunk_extras b m y h p s f g : cubes b (m, y, h) -> stage b (p, s, f, g) -> let t := trunk b (mkextras (Some p) [L s] f g m y h) in
  shows_cube b t /\ shows_dice b t /\ shows_resign b t.
Proof.
  intros HC HS. pose proof (stages_ok b m y h p s f g HC HS) as O. cbv zeta. set (x := mkextras _ _ _ _ _ _ _) in *. pose proof O as (O1 & O2 & O3 & O4 & O5).
  assert (EC : extra_kind ECube) by (left; reflexivity). assert (ED : extra_kind EDie) by (right; left; reflexivity). assert (ER : extra_kind EResign) by (right; right; reflexivity).
  assert (FF : forall k z l, extra_kind k -> player_no z -> kinds_in k (if z =? YOU then f else g) = l -> the_one (trunk b x) (is_field (name_of z)) (fun e => shown k e = l)).
  { intros k z l E P Q. eexists. split; [apply find_field; assumption|]. unfold owned. rewrite shown_extra0 by (assumption || (destruct (z =? YOU); assumption)). exact Q. }
  assert (W : forall k, extra_kind k -> written_on k (trunk b x) = kinds_in k m ++ kinds_in k f ++ kinds_in k y ++ kinds_in k h ++ kinds_in k g) by (intros k E; rewrite written_extra by exact E; reflexivity).
  assert (KC : forall n, kinds_in EDie [cube_elem n] = [] /\ kinds_in EResign [cube_elem n] = []) by (intros n; split; reflexivity).
  assert (MC : forall k, k = EDie \/ k = EResign -> kinds_in k m = [] /\ kinds_in k y = [] /\ kinds_in k h = []).
  { intros k K. destruct K as [->| ->]; inversion HC; subst; repeat split; reflexivity. }
  assert (RN : rolled b = (0, 0) \/ rolled b <> (0, 0)) by (destruct (not_rolled b) eqn:E; [left; apply not_rolled_eq, E|right; intros N; apply not_rolled_eq in N; congruence]).
  assert (FC : kinds_in ECube f ++ kinds_in ECube g = if (negb (doubled b) || (on_inner_action b =? on_action b)) || negb (not_rolled b) then [] else [py_str_int (cube_in_logarithm b + 1)]).
  { inversion HS; subst; cbn [app].
    - replace (on_inner_action b =? on_action b) with true by (symmetry; apply Z.eqb_eq; assumption). rewrite orb_true_r. reflexivity.
    - match goal with D : doubled b = false |- _ => rewrite D end. cbn [negb orb]. destruct (on_inner_action b =? YOU); reflexivity.
    - match goal with D : doubled b = true |- _ => rewrite D end. cbn [negb orb]. rewrite (proj2 (Z.eqb_neq (on_inner_action b) (on_action b))) by assumption. rewrite (proj2 (not_rolled_eq b)) by assumption. cbn [negb orb].
      destruct (on_inner_action b =? YOU); reflexivity.
    - replace (not_rolled b) with false by (symmetry; destruct (not_rolled b) eqn:E; [apply not_rolled_eq in E; contradiction|reflexivity]). rewrite orb_true_r. destruct (on_action b =? YOU); reflexivity. }
  split; [|split].
  - assert (WC : written_on ECube (trunk b x) = (kinds_in ECube m ++ kinds_in ECube y ++ kinds_in ECube h) ++ kinds_in ECube f ++ kinds_in ECube g).
    { rewrite W by exact EC. assert (Em : kinds_in ECube m ++ kinds_in ECube y ++ kinds_in ECube h = [] \/ kinds_in ECube f ++ kinds_in ECube g = []).
      { inversion HC as [N|N|N|N]; subst; [right..|left; reflexivity]; rewrite FC; rewrite (proj2 (offered_eq b) N); reflexivity. }
      destruct Em as [Em|Em]; rewrite Em; [apply app_eq_nil in Em as (-> & Em); apply app_eq_nil in Em as (-> & ->); reflexivity|].
      apply app_eq_nil in Em as (-> & ->). cbn [app]. rewrite !app_nil_r. reflexivity. }
    unfold shows_cube. rewrite WC, FC. split; [|split].
    + intros N. rewrite (proj2 (offered_eq b) N). cbn [orb]. rewrite app_nil_r. unfold cube_place.
      inversion HC as [N' Q|N' Q|N' Q|N']; subst; [..|contradiction]; rewrite Q; (split; [reflexivity|]).
      * change (YOU =? YOU) with true. cbn match. eexists. split; [apply (find_home b x YOU O); left; reflexivity|]. unfold owned. rewrite shown_extra by (exact O4 || exact O5 || exact EC). reflexivity.
      * change (HIM =? YOU) with false. change (HIM =? HIM) with true. cbn match. eexists. split; [apply (find_home b x HIM O); right; reflexivity|]. unfold owned. rewrite shown_extra by (exact O4 || exact O5 || exact EC). reflexivity.
      * change (CENTER =? YOU) with false. change (CENTER =? HIM) with false. cbn match. eexists. split; [apply (find_middle b x O)|]. unfold bare. rewrite shown_extra0 by (exact O3 || exact EC). reflexivity.
    + intros (D & N) R. rewrite D. cbn [negb orb]. rewrite (proj2 (Z.eqb_neq _ _) N). rewrite (proj2 (not_rolled_eq b) R). cbn [negb orb].
      assert (Em : kinds_in ECube m ++ kinds_in ECube y ++ kinds_in ECube h = []) by (inversion HC; subst; [exfalso; match goal with Q : ~ offered b |- _ => apply Q end; split; assumption..|reflexivity]).
      rewrite Em. split; [reflexivity|]. inversion HS; subst; try contradiction; try congruence. apply FF; [exact EC|assumption|]. destruct (on_inner_action b =? YOU); reflexivity.
    + intros (D & N) R. rewrite D. cbn [negb orb]. rewrite (proj2 (Z.eqb_neq _ _) N). replace (not_rolled b) with false by (symmetry; destruct (not_rolled b) eqn:E; [apply not_rolled_eq in E; contradiction|reflexivity]).
      cbn [negb orb]. rewrite app_nil_r. inversion HC; subst; [exfalso; match goal with Q : ~ offered b |- _ => apply Q end; split; assumption..|reflexivity].
  - unfold shows_dice. rewrite W by exact ED. destruct (MC EDie (or_introl eq_refl)) as (-> & -> & ->). cbn [app]. split; intros R.
    + inversion HS; subst; try contradiction; try reflexivity; destruct (on_inner_action b =? YOU); reflexivity.
    + inversion HS; subst; try contradiction. split; [destruct (on_action b =? YOU); reflexivity|]. apply FF; [exact ED|assumption|]. destruct (on_action b =? YOU); reflexivity.
  - unfold shows_resign. rewrite W by exact ER. destruct (MC EResign (or_intror eq_refl)) as (-> & -> & ->). cbn [app]. split.
    + intros R D N. inversion HS; subst; try contradiction; try congruence. split; [assumption|]. split; [destruct (on_inner_action b =? YOU); reflexivity|].
      apply FF; [exact ER|assumption|]. destruct (on_inner_action b =? YOU); reflexivity.
    + intros Q. inversion HS; subst; try reflexivity; [|destruct (on_inner_action b =? YOU); reflexivity|destruct (on_action b =? YOU); reflexivity].
      exfalso. destruct Q as [Q|[Q|Q]]; congruence.
Qed.
Lemma board_shown b t : sides_ok b -> board_tree b = Ok t -> shows_chequers b t /\ shows_cube b t /\ shows_dice b t /\ shows_resign b t /\ shows_match b t.
Proof.
  intros SO H. rewrite board_tree_ok in H by exact SO. destruct (the_cubes b) as [[[m y] h]|e] eqn:EC; [|discriminate]. destruct (the_action b) as [[[[p s] f] g]|e] eqn:EA; [|discriminate].
  cbn in H. injection H as <-. apply cubes_of in EC. apply action_stage in EA. pose proof (stages_ok b m y h p s f g EC EA) as O.
  split; [apply trunk_chequers; assumption|]. pose proof (trunk_extras b m y h p s f g EC EA) as (A1 & A2 & A3). split; [exact A1|]. split; [exact A2|]. split; [exact A3|]. apply trunk_match, O.
Qed.
(* ---- which boards can be shown ---- *)
Lemma cubes_ok_iff b : (exists c, the_cubes b = Ok c) <-> (offered b \/ cube_owner b = YOU \/ cube_owner b = HIM \/ cube_owner b = CENTER).
Proof.
  unfold the_cubes. destruct (negb (doubled b) || _) eqn:E.
  - apply offered_eq in E. destruct (Z.eqb_spec (cube_owner b) YOU); [split; [tauto|intros _; eexists; reflexivity]|].
    destruct (Z.eqb_spec (cube_owner b) HIM); [split; [tauto|intros _; eexists; reflexivity]|].
    destruct (Z.eqb_spec (cube_owner b) CENTER); [split; [tauto|intros _; eexists; reflexivity]|]. split; [intros (c & H); discriminate H|tauto].
  - split; [|intros _; eexists; reflexivity]. intros _. left. destruct (doubled b) eqn:D; [|discriminate E]. split; [exact D|]. apply Z.eqb_neq. exact E.
Qed.
Lemma action_ok_iff b : (exists a, the_action b = Ok a) <-> (player_no (on_action b) /\
  (rolled b = (0, 0) -> player_no (on_inner_action b) /\ (doubled b = true \/ on_inner_action b = on_action b \/ 1 <= resign_offer b <= 3))).
Proof.
  rewrite <- not_rolled_eq. rewrite <- resigning_eq. unfold the_action, player_no. cbv zeta.
  assert (YH : YOU <> HIM) by discriminate.
  destruct (Z.eqb_spec (on_action b) YOU) as [A|A], (Z.eqb_spec (on_action b) HIM) as [A'|A']; try congruence;
  destruct (Z.eqb_spec (on_inner_action b) YOU) as [I|I], (Z.eqb_spec (on_inner_action b) HIM) as [I'|I']; try congruence;
  destruct (not_rolled b), (doubled b), (zmem (resign_offer b) RESIGN_TYPES); cbn [andb negb];
  split; try (intros (a & H); discriminate H); try (intros _; eexists; reflexivity); intuition (congruence || discriminate).
Qed.
Lemma board_tree_iff b : sides_ok b -> ((exists t, board_tree b = Ok t) <-> drawable b) /\ (~ drawable b -> board_tree b = Exc AssertionError).
Proof.
  intros SO. rewrite board_tree_ok by exact SO. pose proof (cubes_ok_iff b) as C. pose proof (action_ok_iff b) as D. unfold drawable.
  assert (XC : forall e, the_cubes b = Exc e -> e = AssertionError).
  { unfold the_cubes. intros e. repeat match goal with |- (if ?c then _ else _) = _ -> _ => destruct c end; congruence. }
  assert (XA : forall e, the_action b = Exc e -> e = AssertionError).
  { unfold the_action. cbv zeta. intros e. repeat match goal with |- (if ?c then _ else _) = _ -> _ => destruct c end; congruence. }
  destruct (the_cubes b) as [[[m y] h]|e] eqn:EC; cbn [bind].
  - assert (C1 : exists c, Ok (m, y, h) = Ok c :> res (list kid * list kid * list kid)) by (eexists; reflexivity). apply C in C1.
    destruct (the_action b) as [[[[p s] f] g]|e] eqn:EA; cbn [bind].
    + assert (D1 : exists a, Ok (p, s, f, g) = Ok a :> res (str * string * list kid * list kid)) by (eexists; reflexivity). apply D in D1.
      split; [split; [tauto|intros _; eexists; reflexivity]|]. intros N. exfalso. apply N. tauto.
    + assert (D1 : ~ exists a, Exc e = Ok a :> res (str * string * list kid * list kid)) by (intros (a & H); discriminate H). rewrite (XA e eq_refl).
      split; [split; [intros (t & H); discriminate H|]|reflexivity]. intros Q. exfalso. apply D1, D. tauto.
  - assert (C1 : ~ exists c, Exc e = Ok c :> res (list kid * list kid * list kid)) by (intros (a & H); discriminate H). rewrite (XC e eq_refl).
    split; [split; [intros (t & H); discriminate H|]|reflexivity]. intros Q. exfalso. apply C1, C. tauto.
Qed.

