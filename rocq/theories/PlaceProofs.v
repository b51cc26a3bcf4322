(* Where the parts of a drawing lie. *)
From Verif Require Import Py PyFacts Dict DictFacts UtilModel BoardModel BoardSpec ImageModel ImageSpec ImageCss ImageTree ImageBoard AttrProofs ThemePath ThemeSound DrawnSpec DrawnTree DrawnProofs PlaceSpec.
Open Scope string_scope.
Open Scope list_scope.
Open Scope Z_scope.

Ltac sten H x E :=
  match type of H with
  | (let! _ := ?m in _) = Ok _ => destruct m as [x|] eqn:E; cbn [bind] in H; [|discriminate H]
  end.
Lemma forall2_in_l {X Y} (R : X -> Y -> Prop) l l' x : Forall2 R l l' -> In x l -> exists y, In y l' /\ R x y.
Proof. induction 1; intros I; [destruct I|]. destruct I as [<-|I]; [eexists; split; [left; reflexivity|assumption]|]. destruct (IHForall2 I) as (z & J & K). exists z. split; [right|]; assumption. Qed.
Section Path.
Variables (a : list elem) (e : elem).
Let p := a ++ [e].
Let up := map ehead (rev p).
Lemma pasted i at_ size fg : otruthy i = true -> opt_attr up "image" = Ok i -> paste up i size at_ = Ok fg -> exists u f, pictured p u /\ seen p "flip" f /\ fg = [PasteImage u size (Some f) at_].
Proof.
  intros T O H. destruct (image_some a e i O T) as (u & -> & P). unfold paste in H. sten H f F. injection H as <-. exists u, f. auto.
Qed.
Lemma point_is fg : draw_point up = Ok fg -> pointed p fg.
Proof.
  unfold draw_point. intros H. sten H at_ E1. sten H size E2. destruct at_ as [x y]. destruct size as [w h]. sten H i E3. sten H c E4. sten H v E5.
  assert (B : box p (x, y) (w, h)) by (apply two_boxes; assumption).
  destruct (otruthy i) eqn:T.
  - destruct (pasted i _ _ _ T E3 H) as (u & f & P & F & ->). eapply PointPicture; eassumption.
  - destruct (truthy c) eqn:Tc; [|discriminate]. sten H f F. assert (D : 2 * (w / 2) <= w <= 2 * (w / 2) + 1) by (pose proof (Z.div_mod w 2); pose proof (Z.mod_pos_bound w 2); lia).
    destruct (truthy f) eqn:Tf; injection H as <-; (eapply PointShape with (f := f); [eapply image_none; eassumption|apply attr_or_coloured, E4|apply attr_or_coloured, E5|exact F|exact B|]); rewrite Tf; exists (w / 2); (split; [exact D|reflexivity]).
Qed.
Lemma corners at_ size b fill c : triangle at_ size b fill c -> fills at_ size c.
Proof.
  destruct at_ as [x y], size as [w h]. intros (k & D & ->). cbn [fst snd] in *. cbn [fills]. destruct b; repeat (apply Forall_cons); try apply Forall_nil; unfold corner_in; cbn [fst snd]; split; lia.
Qed.
Lemma text_fills fg : draw_text_elem up e = Ok fg -> Forall (fun c => exists at_ size, box p at_ size /\ fills at_ size c) fg.
Proof.
  unfold draw_text_elem. intros H. sten H size E1. sten H at_ E2. sten H i E3. sten H f E4. pose proof (two_boxes a e _ _ E1 E2) as B. destruct (otruthy i) eqn:T.
  - destruct (pasted i _ _ _ T E3 H) as (u & v & _ & _ & ->). repeat constructor. exists at_, size. split; [exact B|]. split; reflexivity.
  - destruct (otruthy f); [|injection H as <-; constructor]. sten H s E5. sten H g E6. sten H c E7. injection H as <-. repeat constructor. exists at_, size. split; [exact B|]. split; reflexivity.
Qed.
Lemma crawford_fills fg : draw_crawford up e = Ok fg -> Forall (fun c => exists at_ size, box p at_ size /\ fills at_ size c) fg.
Proof.
  unfold draw_crawford. intros H. sten H size E1. sten H at_ E2. sten H i E3. sten H f E4. pose proof (two_boxes a e _ _ E1 E2) as B. destruct (otruthy i) eqn:T.
  - destruct (pasted i _ _ _ T E3 H) as (u & v & _ & _ & ->). repeat constructor. exists at_, size. split; [exact B|]. split; reflexivity.
  - destruct (otruthy f); [|injection H as <-; constructor]. sten H s E5. destruct (str_eqb s _); [|injection H as <-; constructor]. sten H g E6. sten H c E7. injection H as <-. repeat constructor. exists at_, size. split; [exact B|]. split; reflexivity.
Qed.
Lemma field_fills fg : draw_field up = Ok fg -> Forall (fun c => exists at_ size, box p at_ size /\ fills at_ size c) fg.
Proof.
  unfold draw_field. intros H. sten H size E1. sten H at_ E2. sten H i E3. sten H c E4. sten H f E5. sten H t E6. sten H l E7. pose proof (two_boxes a e _ _ E1 E2) as B. destruct (otruthy i) eqn:T.
  - injection H as <-. repeat constructor. exists at_, size. split; [exact B|]. split; reflexivity.
  - destruct (_ && _); [|injection H as <-; constructor]. sten H g E8. injection H as <-. repeat constructor. exists at_, size. split; [exact B|]. split; reflexivity.
Qed.
Lemma cube_fills fg : draw_cube up e = Ok fg -> Forall (fun c => exists at_ size, box p at_ size /\ fills at_ size c) fg.
Proof.
  unfold draw_cube. intros H. sten H size E1. sten H at_ E2. sten H i E3. sten H c E4. sten H f E5. pose proof (two_boxes a e _ _ E1 E2) as B. destruct (otruthy i) eqn:T.
  - destruct (pasted i _ _ _ T E3 H) as (u & v & _ & _ & ->). repeat constructor. exists at_, size. split; [exact B|]. split; reflexivity.
  - destruct (otruthy f); [|discriminate]. sten H s E6. sten H n E7. sten H v E8. sten H g E9. destruct (_ && _).
    + sten H j E10. injection H as <-. repeat constructor. exists at_, size. split; [exact B|]. split; reflexivity.
    + injection H as <-. repeat constructor. exists at_, size. split; [exact B|]. split; reflexivity.
Qed.
Lemma base_fills fg : draw_base up = Ok fg -> Forall (fun c => exists at_ size, box p at_ size /\ fills at_ size c) fg.
Proof.
  unfold draw_base. intros H. sten H size E1. sten H at_ E2. pose proof (two_boxes a e _ _ E1 E2) as B. destruct (has_attr up "image"); [|injection H as <-; constructor].
  sten H i E3. unfold paste in H. sten H f E4. injection H as <-. repeat constructor. exists at_, size. split; [exact B|]. split; reflexivity.
Qed.
Lemma point_fills fg : draw_point up = Ok fg -> Forall (fun c => exists at_ size, box p at_ size /\ fills at_ size c) fg.
Proof.
  intros H. apply point_is in H. destruct H as [u f at_ size _ _ B|col v f at_ size c _ _ _ _ B T]; repeat constructor; exists at_, size; (split; [exact B|]); [split; reflexivity|eapply corners, T].
Qed.
Lemma die_fills fg : draw_die up e = Ok fg -> Forall (fun c => (exists at_ size, box p at_ size /\ fills at_ size c) \/ exists q d col, c = DrawEllipse q d col) fg.
Proof.
  unfold draw_die. intros H. sten H size E1. sten H at_ E2. sten H i E3. sten H c E4. sten H f E5. sten H st E6. pose proof (two_boxes a e _ _ E1 E2) as B. destruct (otruthy i) eqn:T.
  - destruct (pasted i _ _ _ T E3 H) as (u & v & _ & _ & ->). repeat constructor. exists at_, size. split; [exact B|]. split; reflexivity.
  - destruct (_ && _).
    + sten H s E7. sten H g E8. injection H as <-. repeat constructor. exists at_, size. split; [exact B|]. split; reflexivity.
    + destruct (value_eqb _ _); [|discriminate]. sten H d E7. cbv zeta in H. sten H s E8.
      repeat match type of H with (if ?b then _ else _) = _ => destruct b; [injection H as <-; cbn [map]; repeat (apply Forall_cons; [right; eauto|]); constructor|] end. discriminate.
Qed.
Lemma resign_fills fg : unpictured p -> draw_resign up e = Ok fg -> Forall (fun c => exists at_ size, box p at_ size /\ fills at_ size c) fg.
Proof.
  unfold draw_resign. intros U H. sten H size E1. sten H at_ E2. sten H i E3. sten H c E4. sten H f E5. sten H o E6. pose proof (two_boxes a e _ _ E1 E2) as B. rewrite (no_image a e i E3 U) in H.
  destruct (otruthy f); [|discriminate]. sten H s E7. sten H n E8. sten H t E9. sten H g E10. injection H as <-. repeat constructor. exists at_, size. split; [exact B|]. split; reflexivity.
Qed.
End Path.
Lemma ground_fills p cs fg (P : cmd -> Prop) : on_ground p cs fg -> Forall P fg -> (forall at_ size v, box p at_ size -> P (DrawRect at_ size v)) -> Forall P cs.
Proof. intros [(_ & ->)|(v & at_ & size & _ & B & ->)] F R; [exact F|]. constructor; [apply R, B|exact F]. Qed.
Lemma visible_dec a e : visible (a ++ [e]) \/ ~ visible (a ++ [e]).
Proof.
  destruct (has_attr (map ehead (rev (a ++ [e]))) "image" || has_attr (map ehead (rev (a ++ [e]))) "color") eqn:X.
  - left. apply orb_true_iff in X as [X|X]; apply (has_seen a e) in X as (v & V); exists v; auto.
  - right. intros (v & [V|V]); apply orb_false_iff in X as (X1 & X2); [assert (Y : exists v, seen (a ++ [e]) "image" v) by eauto|assert (Y : exists v, seen (a ++ [e]) "color" v) by eauto]; apply (has_seen a e) in Y; congruence.
Qed.
Definition shape (c : cmd) : bool := match c with DrawPolygon _ _ => true | _ => false end.
Lemma triangles_app a b : triangles (a ++ b) = triangles a + triangles b.
Proof. unfold triangles, zlen. rewrite filter_app, app_length. lia. Qed.
Lemma shapeless cs : Forall (fun c => shape c = false) cs -> triangles cs = 0.
Proof. induction 1 as [|c cs H F IH]; [reflexivity|]. change (c :: cs) with ([c] ++ cs). rewrite triangles_app, IH. destruct c; try reflexivity. discriminate H. Qed.
Lemma in_place_end a e cs : ends EChequer (a ++ [e]) = false -> (ends EResign (a ++ [e]) = true -> unpictured (a ++ [e])) -> draw_element (a ++ [e]) = Ok cs ->
  Forall (fun c => (exists at_ s, box (a ++ [e]) at_ s /\ fills at_ s c) \/ ends EDie (a ++ [e]) = true /\ exists q d col, c = DrawEllipse q d col) cs.
Proof.
  intros NC NR H.
  pose proof (visible_dec a e) as W.
  assert (BG : forall at_ s v, box (a ++ [e]) at_ s -> (exists at_0 s0, box (a ++ [e]) at_0 s0 /\ fills at_0 s0 (DrawRect at_ s v)) \/ ends EDie (a ++ [e]) = true /\ exists q d col, DrawRect at_ s v = DrawEllipse q d col).
  { intros at_ s v B. left. exists at_, s. split; [exact B|]. split; reflexivity. }
  destruct W as [V|V].
  - destruct (element_ground a e cs H V) as (fg & M & G). eapply ground_fills; [exact G| |exact BG].
    rewrite !ends_snoc in *. unfold of_kind in *. unfold draw_method in M. assert (LF : forall l, Forall (fun c => exists at_ s, box (a ++ [e]) at_ s /\ fills at_ s c) l -> Forall (fun c => (exists at_ s, box (a ++ [e]) at_ s /\ fills at_ s c) \/ str_eqb (ename (kind (ehead e))) (ename EDie) = true /\ exists q d col, c = DrawEllipse q d col) l) by (intros l F; eapply Forall_impl; [|exact F]; auto).
    destruct (kind (ehead e)) eqn:K; try discriminate NC;
      first [apply LF, base_fills, M|apply LF, text_fills, M|apply LF, crawford_fills, M|apply LF, field_fills, M|apply LF, cube_fills, M|apply LF, point_fills, M|apply LF, resign_fills; [apply NR; reflexivity|exact M]|eapply Forall_impl; [|apply die_fills, M]; intros c [X|X]; auto].
  - pose proof (element_hidden a e cs H V) as G. eapply ground_fills; [exact G|constructor|exact BG].
Qed.
Lemma in_place : forall t p cs, In p (paths [] t) -> ends EChequer p = false -> (ends EResign p = true -> unpictured p) -> draw_element p = Ok cs ->
  Forall (fun c => (exists at_ s, box p at_ s /\ fills at_ s c) \/ ends EDie p = true /\ exists q d col, c = DrawEllipse q d col) cs.
Proof.
  intros t p cs I NC NR H. pose proof (paths_ends t) as PE. destruct (forall2_in_l _ _ _ _ PE I) as (e & J & (a & ->)). apply in_place_end; assumption.
Qed.
Lemma points_drawn : forall t p cs, In p (paths [] t) -> ends EPoint p = true -> draw_element p = Ok cs ->
  (visible p -> exists fg, on_ground p cs fg /\ pointed p fg) /\ (~ visible p -> on_ground p cs []).
Proof.
  intros t p cs I E H. destruct (path_end t p _ I E) as (a & e & -> & J & K & _). split; [|apply element_hidden, H].
  intros V. destruct (element_ground a e cs H V) as (fg & M & G). unfold draw_method in M. rewrite K in M. exists fg. split; [exact G|]. apply point_is, M.
Qed.

Lemma row_shapeless p size q cs r : row p size q cs r -> Forall (fun c => shape c = false) cs.
Proof. induction 1 as [|q c q' cs r D N R IH]; constructor; [destruct D; reflexivity|exact IH]. Qed.
Lemma stack_shapeless p n m cs : stack p n m cs -> Forall (fun c => shape c = false) cs.
Proof.
  intros (at_ & size & row_ & last_ & label & _ & -> & R & Len & N & C). apply Forall_app. split; [eapply row_shapeless, R|].
  assert (D : counted p n m \/ ~ counted p n m -> Forall (fun c => shape c = false) label).
  { intros [X|X]; [destruct (C X) as (f & c & _ & _ & ->)|rewrite (N X)]; repeat constructor. }
  destruct label as [|k label]; [constructor|]. apply D. left.
  destruct (Z_gt_dec n m) as [G|G]; [|exfalso]. 2: { assert (X : ~ counted p n m) by (intros (Y & _); lia). discriminate (N X). }
  split; [exact G|]. unfold seen. destruct (get_attr (map ehead (rev p)) (L "font")) as [f|] eqn:F.
  - split; [eauto|]. intros v V. destruct (truthy v) eqn:T; [|reflexivity]. exfalso.
    assert (X : ~ counted p n m) by (intros (_ & _ & Y); rewrite (Y v V) in T; discriminate). discriminate (N X).
  - exfalso. assert (X : ~ counted p n m) by (intros (_ & (g & Y) & _); unfold seen in Y; congruence). discriminate (N X).
Qed.
Lemma paste_row_shapeless image size off n : forall at_, Forall (fun c => shape c = false) (paste_row n image size at_ off).
Proof. induction n as [|n IH]; intros at_; cbn [paste_row]; constructor; [reflexivity|apply IH]. Qed.
Ltac shapes H :=
  match type of H with
  | Ok _ = Ok _ => injection H as <-; cbn [map]; repeat (apply Forall_cons; [reflexivity|]); constructor
  | Exc _ = Ok _ => discriminate H
  | bind ?m _ = Ok _ => let E := fresh "E" in let x := fresh "x" in destruct m as [x|] eqn:E; cbn [bind] in H; [shapes H|discriminate H]
  | (if ?b then _ else _) = Ok _ => destruct b; shapes H
  | (match ?m with Some _ => _ | None => _ end) = Ok _ => destruct m; shapes H
  end.
Lemma shapeless_method up e fg : kind (ehead e) <> EPoint -> kind (ehead e) <> EChequer -> draw_method up e = Ok fg -> Forall (fun c => shape c = false) fg.
Proof.
  unfold draw_method. destruct (kind (ehead e)); intros N1 N2 H; try congruence;
  try (unfold draw_base, draw_text_elem, draw_crawford, draw_field, draw_cube, paste in H; cbv zeta in H; shapes H).
  - unfold draw_die, paste in H. cbv zeta in H. shapes H.
  - unfold draw_resign in H. do 6 (match type of H with bind ?m _ = _ => destruct m; cbn [bind] in H; [|discriminate H] end).
    match type of H with (if ?b then _ else _) = _ => destruct b end; [|shapes H].
    do 2 (match type of H with bind ?m _ = _ => destruct m; cbn [bind] in H; [|discriminate H] end). injection H as <-. apply paste_row_shapeless.
Qed.
Lemma ground_shapeless p cs fg : on_ground p cs fg -> triangles cs = triangles fg.
Proof. intros [(_ & ->)|(v & at_ & size & _ & _ & ->)]; reflexivity. Qed.
Lemma only_points : forall t p cs, In p (paths [] t) -> ends EPoint p = false -> draw_element p = Ok cs -> triangles cs = 0.
Proof.
  intros t p cs I E H. destruct (forall2_in_l _ _ _ _ (paths_ends t) I) as (e & J & (a & ->)). rewrite ends_snoc in E. destruct (visible_dec a e) as [V|V].
  - destruct (element_ground a e cs H V) as (fg & M & G). rewrite (ground_shapeless _ _ _ G). apply shapeless. destruct (kind (ehead e)) eqn:K; try (eapply shapeless_method; [| |exact M]; rewrite K; discriminate).
    all: try (unfold of_kind in E; rewrite K in E; discriminate E).
    unfold draw_method in M. rewrite K in M. destruct (chequer_stack a e fg M) as (s & r & n & m & T & N & X & Y). eapply stack_shapeless, Y.
  - rewrite (ground_shapeless _ _ _ (element_hidden a e cs H V)). reflexivity.
Qed.
Lemma find_points b x : ok_extras x -> filter (of_kind EPoint) (elements (trunk b x)) = map (point b) (zrange 1 25).
Proof.
  intros (O1 & O2 & O3 & O4 & O5). pose proof (only_kind EPoint) as F.
  destruct x as [[pl|] xs xa xb xc xd xe]; cbn [f_you f_him c_mid c_you c_him] in *; rewrite elements_trunk; unfold action_elem; cbn [x_player x_says f_you f_him c_mid c_you c_him]; rewrite !filter_app;
  repeat (sift1; rewrite ?filter_app; rewrite ?(below_chequer _ EPoint) by (exact F || discriminate); rewrite ?(below_extra _ EPoint) by (assumption || exact F || (intros [E|[E|E]]; discriminate)));
  cbn [app filter]; rewrite ?app_nil_r; rewrite filter_flat_map;
  rewrite (flat_map_ext _ (fun j => [point b j])) by (intros j; cbn [filter]; rewrite (below_on_point _ EPoint) by (exact F || discriminate); change (of_kind EPoint (point b j)) with true; reflexivity);
  induction (zrange 1 25) as [|j l IH]; cbn [flat_map map app]; congruence.
Qed.
Lemma points_written b t : sides_ok b -> board_tree b = Ok t -> written_on EPoint t = map py_str_int (zrange 1 25).
Proof.
  intros S B. destruct (tree_action b t S B) as (p & s & f & g & x & _ & -> & O & _). unfold written_on. rewrite find_points by exact O.
  induction (zrange 1 25) as [|j l IH]; [reflexivity|]. cbn [map flat_map]. rewrite texts_point, IH. reflexivity.
Qed.
Lemma concat_triangles ps : (forall p d, In (p, d) ps -> exists s, writing p = [s] /\ triangles d = 1) ->
  triangles (List.concat (map snd ps)) = zlen (List.concat (map writing (map fst ps))).
Proof.
  induction ps as [|[p d] ps IH]; intros H; [reflexivity|]. cbn [map fst snd List.concat]. rewrite triangles_app.
  destruct (H p d (or_introl eq_refl)) as (s & -> & E). rewrite E, IH by (intros q c I; apply H; right; exact I). unfold zlen. cbn [app List.length]. lia.
Qed.
Lemma triangles_part t ds : pieces t ds -> triangles (List.concat ds) = triangles (part EPoint (paths [] t) ds).
Proof.
  intros F. assert (H : forall p d, In p (paths [] t) -> ends EPoint p = false -> draw_element p = Ok d -> triangles d = 0) by (intros p d; apply only_points).
  unfold pieces in F. revert ds F H. generalize (paths [] t) as l. induction l as [|p l IH]; intros ds F H; inversion F as [|x d y ds' D F' A B]; subst; [reflexivity|].
  cbn [List.concat part]. rewrite !triangles_app, (IH ds' F') by (intros q c Iq; apply H; right; exact Iq). destruct (ends EPoint p) eqn:E; [reflexivity|].
  rewrite (H p d (or_introl eq_refl) E D). reflexivity.
Qed.
Lemma twenty_four : forall css b size cs, sides_ok b -> draw css b size = Ok cs ->
  exists t ds, dressed css b size t /\ pieces t ds /\ cs = List.concat ds /\
    (plain_points t -> triangles cs = 24 /\ triangles (part EPoint (paths [] t) ds) = 24 /\ written_on EPoint t = map py_str_int (zrange 1 25)).
Proof.
  intros css b size cs S H. destruct (in_pieces _ _ _ _ H) as (t & ds & D & Pc & E). exists t, ds. split; [exact D|]. split; [exact Pc|]. split; [exact E|]. intros R.
  destruct (dressed_written css b size t EPoint D) as (t0 & B & W). rewrite (points_written b t0 S B) in W.
  assert (T : triangles (part EPoint (paths [] t) ds) = 24); [|split; [rewrite E, (triangles_part t ds Pc); exact T|split; [exact T|exact W]]].
  destruct (part_split EPoint t ds Pc (fun p d => exists s, writing p = [s] /\ triangles d = 1)) as (ps & Q1 & Q2 & Q3).
  { intros a e d I J K Dr. assert (En : ends EPoint (a ++ [e]) = true) by (rewrite ends_snoc; exact K). destruct (R _ I En) as (V & U).
    destruct (points_drawn t _ d I En Dr) as (C & _). destruct (C V) as (fg & G & Pt).
    assert (P : forall e, In e (elements t) -> (fun x => tag_of EPoint x = true -> exists s, snd x = [s]) (tag e)).
    { apply (dressed_all css b size t (fun x => tag_of EPoint x = true -> exists s, snd x = [s]) D). intros t1 B1 e0 I0 K0.
      destruct (tree_action b t1 S B1) as (p & s & f & g & x & _ & -> & O & _). assert (I1 : In e0 (filter (of_kind EPoint) (elements (trunk b x)))) by (apply filter_In; split; [exact I0|exact K0]).
      rewrite find_points in I1 by exact O. apply in_map_iff in I1 as (j & <- & _). exists (py_str_int j). apply texts_point. }
    destruct (P e J K) as (s & Ws). exists s. split; [rewrite writing_snoc; exact Ws|]. rewrite (ground_shapeless _ _ _ G).
    destruct Pt as [u f at_ sz X|col v f at_ sz c _ _ _ _ _ (k & _ & ->)]; [exfalso; eapply un_pictured; eassumption|]. destruct (truthy f); reflexivity. }
  rewrite Q2, concat_triangles, Q3, W; [reflexivity|]. apply pairs_in, Q1.
Qed.

(* ---- pictures of a resignation ---- *)
Lemma paste_row_eq u size off n : forall at_ cs, paste_row n u size at_ off = cs ->
  cs = map (fun k => PasteImage u size (Some (VBool false)) (fst at_ + k * fst off, snd at_ + k * snd off)) (map (fun k => 1 + Z.of_nat k) (seq 0 n)).
Proof.
  induction n as [|n IH]; intros at_ cs <-; [reflexivity|]. cbn [paste_row seq map]. rewrite (IH _ _ eq_refl), <- seq_shift, !map_map. cbn [fst snd]. f_equal; [f_equal; f_equal; lia|].
  apply map_ext. intros k. f_equal. f_equal; lia.
Qed.
Lemma flags_drawn : forall t p cs, In p (paths [] t) -> ends EResign p = true -> draw_element p = Ok cs -> forall u, pictured p u ->
  exists s r n at_ size ox oy fg, writing p = s :: r /\ py_int s = Ok n /\ box p at_ size /\ pixels p p "x_offset" ox /\ pixels p p "y_offset" oy /\ on_ground p cs fg /\
    fg = map (fun k => PasteImage u size (Some (VBool false)) (fst at_ + k * ox, snd at_ + k * oy)) (zrange 1 (n + 1)).
Proof.
  intros t p cs I E H u P. destruct (path_end t p _ I E) as (a & e & -> & J & K & _). assert (V : visible (a ++ [e])) by (exists u; left; apply P).
  destruct (element_ground a e cs H V) as (fg & M & G). unfold draw_method in M. rewrite K in M. unfold draw_resign in M. sten M size E1. sten M at_ E2. sten M i E3. sten M c E4. sten M f E5. sten M off E6.
  destruct (otruthy i) eqn:T; [|exfalso; eapply un_pictured; [exact P|eapply image_none; eassumption]]. destruct (image_some a e i E3 T) as (v & -> & Q).
  assert (v = u) by (eapply seen_eq; [apply Q|apply P]). subst v. sten M s E7. sten M n E8. injection M as <-. destruct (text_child e s E7) as (r & W).
  destruct (mag2_pixels a e _ _ _ E6) as (X & Y). exists s, r, n, at_, size, (fst off), (snd off). eexists. split; [rewrite writing_snoc; exact W|]. split; [exact E8|]. split; [apply two_boxes; assumption|].
  split; [exact X|]. split; [exact Y|]. split; [exact G|]. rewrite (paste_row_eq _ _ _ _ _ _ eq_refl). unfold zrange. replace (n + 1 - 1) with n by lia. reflexivity.
Qed.
(* ---- checking examples ---- *)
Lemma plain_check t : forallb (fun p => negb (ends EPoint p) || drawnb p && barb p) (paths [] t) = true -> plain_points t.
Proof.
  rewrite forallb_forall. intros H p I E. specialize (H p I). cbv beta in H. rewrite E in H. cbn [negb orb] in H. apply andb_prop in H as (V & U). split; [apply drawnb_ok, V|apply barb_ok, U].
Qed.
Lemma filtered_in {X} (f : X -> bool) l n d : (n <? List.length (filter f l))%nat = true -> In (nth n (filter f l) d) l.
Proof. intros H. apply Nat.ltb_lt in H. pose proof (nth_In (filter f l) d H) as I. apply filter_In in I. apply I. Qed.
