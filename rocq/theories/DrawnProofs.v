(* What the drawing of a board consists of. *)
From Verif Require Import Py PyFacts Dict DictFacts UtilModel BoardModel BoardSpec ImageModel ImageSpec ImageCss ImageTree ImageBoard ImageMag ThemePath ThemeTree ThemeSound AttrSpec AttrProofs DrawnSpec DrawnTree.
From Coq Require Import Permutation.
Open Scope string_scope.
Open Scope list_scope.
Open Scope Z_scope.

(* ---- a drawing in pieces ---- *)
Lemma run_pieces l : forall dc cs, run_all add_drawing l dc = Ok cs -> exists ds, Forall2 (fun p d => draw_element p = Ok d) l ds /\ cs = dc ++ List.concat ds.
Proof.
  induction l as [|p l IH]; intros dc cs H; cbn [run_all] in H.
  - injection H as <-. exists []. split; [constructor|]. cbn. rewrite app_nil_r. reflexivity.
  - unfold add_drawing at 1 in H. destruct (draw_element p) as [d|] eqn:D; cbn [bind] in H; [|discriminate]. apply IH in H as (ds & F & ->).
    exists (d :: ds). split; [constructor; assumption|]. cbn. rewrite <- app_assoc. reflexivity.
Qed.
Lemma in_pieces : forall css b size cs, draw css b size = Ok cs -> exists t ds, dressed css b size t /\ pieces t ds /\ cs = List.concat ds.
Proof.
  intros css b size cs H. unfold draw in H. destruct (board_tree b) as [t1|] eqn:B; cbn [bind] in H; [|discriminate]. destruct (style css t1) as [t2|] eqn:St; cbn [bind] in H; [|discriminate].
  destruct (set_mag t2 size) as [t|] eqn:M; cbn [bind] in H; [|discriminate]. destruct (draw_tree t) as [dc|] eqn:D; cbn [bind] in H; [|discriminate].
  unfold passert in H. destruct (nonempty dc); cbn [bind] in H; [|discriminate]. injection H as <-. rewrite draw_tree_paths in D. apply run_pieces in D as (ds & F & E).
  exists t, ds. split; [exists t1, t2; auto|]. split; [exact F|exact E].
Qed.

(* ---- reading attributes ---- *)
Section Path.
Variables (a : list elem) (e : elem).
Let p := a ++ [e].
Let up := map ehead (rev p).
Lemma opt_some n v : opt_attr up n = Ok (Some v) -> seen p n v.
Proof. unfold opt_attr, seen. fold up. destruct (get_attr up (L n)) as [w|x]; [congruence|destruct x; discriminate]. Qed.
Lemma opt_none n : opt_attr up n = Ok None -> unset p n.
Proof. unfold opt_attr, unset. fold up. destruct (get_attr up (L n)) as [w|x]; [discriminate|destruct x; try discriminate; auto]. Qed.
Lemma attr_or_coloured n d v : attr_or up n d = Ok v -> seen p n v \/ unset p n /\ v = d.
Proof.
  unfold attr_or. destruct (opt_attr up n) as [[w|]|] eqn:E; cbn [bind]; try discriminate; intros [= <-]; [left; apply opt_some, E|right; split; [apply opt_none, E|reflexivity]].
Qed.
Lemma int_seen q n i : get_int (map ehead (rev q)) n = Ok i -> seen q n (VInt i) \/ exists b : bool, seen q n (VBool b) /\ i = if b then 1 else 0.
Proof.
  unfold get_int, seen. destruct (get_attr (map ehead (rev q)) (L n)) as [v|]; cbn [bind]; [|discriminate]. destruct v; try discriminate; intros [= <-]; eauto.
Qed.
Lemma int_pixels q n i z : get_int (map ehead (rev q)) n = Ok i -> apply_mag up i = Ok z -> pixels p q n z.
Proof. intros G M. exists i. split; [apply int_seen, G|exact M]. Qed.
Lemma mag2_pixels n m xy : mag2 up n m = Ok xy -> pixels p p n (fst xy) /\ pixels p p m (snd xy).
Proof.
  unfold mag2. destruct (get_int up n) as [x|] eqn:E1; cbn [bind]; [|discriminate]. destruct (get_int up m) as [y|] eqn:E2; cbn [bind]; [|discriminate].
  destruct (apply_mag up x) as [x'|] eqn:M1; cbn [bind]; [|discriminate]. destruct (apply_mag up y) as [y'|] eqn:M2; cbn [bind]; [|discriminate].
  intros [= <-]. split; eapply int_pixels; eassumption.
Qed.
Lemma image_none i : opt_attr up "image" = Ok i -> otruthy i = false -> unpictured p.
Proof. destruct i as [v|]; intros H T; [right; exists v; split; [apply opt_some, H|exact T]|left; apply opt_none, H]. Qed.
Lemma image_some i : opt_attr up "image" = Ok i -> otruthy i = true -> exists v, i = Some v /\ pictured p v.
Proof. destruct i as [v|]; intros H T; [exists v; split; [reflexivity|split; [apply opt_some, H|exact T]]|discriminate]. Qed.
Lemma tl_up : tl up = map ehead (rev (removelast p)).
Proof. unfold up, p. rewrite rev_unit, removelast_last. reflexivity. Qed.
Lemma has_seen n : has_attr up n = true <-> exists v, seen p n v.
Proof. unfold has_attr, seen. fold up. destruct (get_attr up (L n)) as [v|]; split; intros H; eauto; [discriminate|]. destruct H as (v & H). discriminate. Qed.
Lemma get_exc : forall hs n x, get_attr hs n = Exc x -> x = AttributeError.
Proof.
  induction hs as [|h hs IH]; intros n x H; cbn [get_attr] in H; [congruence|]. destruct (class_of (kind h) n) as [c|]; [|congruence].
  destruct (dget str_eqb (attrs h) n); [discriminate|]. destruct (is_inherit c && _); [eapply IH, H|]. destruct (default c); congruence.
Qed.
Lemma has_unset n : has_attr up n = false -> unset p n.
Proof. unfold has_attr, unset. fold up. destruct (get_attr up (L n)) as [v|x] eqn:E; [discriminate|]. intros _. f_equal. eapply get_exc, E. Qed.
Lemma seen_eq q n v w : seen q n v -> seen q n w -> v = w.
Proof. unfold seen. congruence. Qed.
Lemma seen_unset q n v : seen q n v -> unset q n -> False.
Proof. unfold seen, unset. congruence. Qed.

Ltac step H :=
  match type of H with
  | (let! _ := ?m in _) = Ok _ => let E := fresh "E" in destruct m as [?|] eqn:E; cbn [bind] in H; [|discriminate H]
  end.

Ltac sten H x E :=
  match type of H with
  | (let! _ := ?m in _) = Ok _ => destruct m as [x|] eqn:E; cbn [bind] in H; [|discriminate H]
  end.

Lemma element_ground cs : draw_element p = Ok cs -> visible p -> exists fg, draw_method up e = Ok fg /\ on_ground p cs fg.
Proof.
  unfold draw_element. fold up. unfold p at 1. rewrite last_snoc. cbn [bind]. intros H (v & V).
  step H. assert (X : has_attr up "image" || has_attr up "color" = true).
  { apply orb_true_iff. destruct V as [V|V]; [left|right]; apply has_seen; eauto. }
  rewrite X in H. step H. injection H as <-. eexists. split; [reflexivity|]. destruct (has_attr up "background") eqn:Hb.
  - unfold bg_draw in E. step E. step E. step E. injection E as <-. right. apply mag2_pixels in E2 as (? & ?), E3 as (? & ?).
    eexists _, _, _. split; [exact E1|]. split; [|reflexivity]. split; [eassumption|]. split; [eassumption|]. split; assumption.
  - left. injection E as <-. split; [apply has_unset, Hb|reflexivity].
Qed.
Lemma element_hidden cs : draw_element p = Ok cs -> ~ visible p -> on_ground p cs [].
Proof.
  unfold draw_element. fold up. unfold p at 1. rewrite last_snoc. cbn [bind]. intros H V.
  step H. assert (X : has_attr up "image" || has_attr up "color" = false).
  { apply orb_false_iff. split; apply not_true_iff_false; intros X; apply has_seen in X as (v & X); apply V; exists v; auto. }
  rewrite X in H. cbn [bind] in H. injection H as <-. rewrite app_nil_r. destruct (has_attr up "background") eqn:Hb.
  - unfold bg_draw in E. step E. step E. step E. injection E as <-. right. apply mag2_pixels in E1 as (? & ?), E2 as (? & ?).
    eexists _, _, _. split; [exact E0|]. split; [|reflexivity]. split; [eassumption|]. split; [eassumption|]. split; assumption.
  - left. injection E as <-. split; [apply has_unset, Hb|reflexivity].
Qed.

(* ---- chequers ---- *)
Lemma loop_row image color fill size xoff yoff :
  opt_attr up "image" = Ok image -> attr_or up "color" (VStr (L "white")) = Ok color -> attr_or up "fill" (VBool true) = Ok fill ->
  pixels p p "x_offset" xoff -> pixels p p "y_offset" yoff ->
  forall n q cs r, chequer_loop n up image color fill size q (xoff, yoff) = Ok (cs, r) -> row p size q cs r /\ List.length cs = n.
Proof.
  intros Ei Ec Ef Ox Oy. induction n as [|n IH]; intros q cs r H; cbn [chequer_loop] in H; [injection H as <- <-; split; [constructor|reflexivity]|].
  sten H l E. cbv zeta in H. cbn [fst snd] in H. rewrite tl_up in H. sten H z E0. sten H z0 E1. sten H z1 E2. sten H z2 E3.
  assert (D : exists c, l = [c] /\ disc p size q c).
  { destruct (otruthy image) eqn:T.
    - destruct (image_some _ Ei T) as (v & -> & Pv). unfold paste in E. step E. injection E as <-. eexists. split; [reflexivity|]. apply DiscPicture; assumption.
    - injection E as <-. eexists. split; [reflexivity|]. apply DiscPlain; [exact (image_none _ Ei T)|apply attr_or_coloured, Ec|apply attr_or_coloured, Ef]. }
  destruct D as (c & -> & D). sten H over E4. sten H q' E5. sten H r' E6. injection H as <- <-. destruct r' as [cs' r']. cbn [fst snd] in *.
  apply IH in E6 as (R & Len). cbn [app List.length]. split; [|f_equal; exact Len].
  pose proof (int_pixels (removelast p) _ _ _ E0 E1) as Px. pose proof (int_pixels (removelast p) _ _ _ E2 E3) as Pw.
  apply RowCons with (q' := q'); [exact D| |exact R].
  destruct (fst q + xoff + fst size >? z0 + z2) eqn:G.
  - injection E4 as <-. cbv iota in E5. do 4 step E5. injection E5 as <-. eapply NextRight; eauto using int_pixels. lia.
  - sten E4 z3 F1. sten E4 z4 F2. sten E4 z5 F3. sten E4 z6 F4. injection E4 as <-. destruct (snd q + yoff + snd size >? z4 + z6) eqn:K.
    + do 4 step E5. injection E5 as <-. eapply NextBelow; eauto using int_pixels. lia.
    + injection E5 as <-. eapply NextPlain; eauto using int_pixels; lia.
Qed.
Lemma text_child s : child0 e = Ok s -> exists r, texts e = s :: r.
Proof.
  unfold child0, texts. destruct (children e) as [|[c|x] l]; cbn; [discriminate|discriminate|]. intros [= <-]. eexists. reflexivity.
Qed.
Lemma chequer_stack fg : draw_chequer up e = Ok fg ->
  exists s r n m, texts e = s :: r /\ py_int s = Ok n /\ get_int up "max_count" = Ok m /\ stack p n m fg.
Proof.
  unfold draw_chequer. intros H. sten H s Es. sten H n En. sten H h E1. sten H h' E2. sten H w E3. sten H w' E4. cbv zeta in H. sten H at_ Ea. sten H xo E5. sten H xo' E6. sten H yo E7. sten H yo' E8.
  sten H image Ei. sten H color Ec. sten H font Ef. sten H hide Eh. sten H fill El. sten H m Em. sten H r Er. destruct r as [cs r]. cbn [fst snd] in H.
  destruct (text_child s Es) as (rest & Tx). exists s, rest, n, m. split; [exact Tx|]. split; [exact En|]. split; [reflexivity|].
  apply loop_row in Er as (R & Len); [|assumption|assumption|assumption|eapply int_pixels; eassumption|eapply int_pixels; eassumption].
  apply mag2_pixels in Ea as (Px & Py).
  assert (B : box p at_ (w', h')) by (split; [exact Px|split; [exact Py|split; eapply int_pixels; eassumption]]).
  assert (Ln : zlen cs = Z.max 0 (Z.min n m)) by (unfold zlen; rewrite Len; lia).
  assert (C : match font with Some _ => true | None => false end && negb (otruthy hide) && (n >? m) = true <-> counted p n m).
  { rewrite !andb_true_iff, negb_true_iff. split.
    - intros ((X & Y) & K). split; [lia|]. split; [destruct font as [f|]; [exists f; apply opt_some, Ef|discriminate]|].
      intros v S. destruct hide as [v'|]; [apply opt_some in Eh; rewrite (seen_eq _ _ _ _ S Eh); exact Y|]. apply opt_none in Eh. destruct (seen_unset _ _ _ S Eh).
    - intros (X & (f & Y) & K). split; [split|lia].
      + destruct font; [reflexivity|]. apply opt_none in Ef. destruct (seen_unset _ _ _ Y Ef).
      + destruct hide as [v|]; [|reflexivity]. apply K. apply opt_some, Eh. }
  destruct (match font with Some _ => true | None => false end && negb (otruthy hide) && (n >? m)).
  - sten H f F. injection H as <-. exists at_, (w', h'), cs, r, [DrawText r (w', h') (py_str_int n) f color].
    split; [exact B|]. split; [reflexivity|]. split; [exact R|]. split; [exact Ln|]. split; [intros X; destruct (X (proj1 C eq_refl))|].
    intros _. exists f, color. split; [exact F|]. split; [apply attr_or_coloured, Ec|reflexivity].
  - injection H as <-. exists at_, (w', h'), cs, r, []. rewrite app_nil_r.
    split; [exact B|]. split; [reflexivity|]. split; [exact R|]. split; [exact Ln|]. split; [reflexivity|]. intros X. apply C in X. discriminate.
Qed.

(* ---- dice ---- *)
Lemma child_only s x : texts e = [s] -> child0 e = Ok x -> x = s.
Proof. intros T X. destruct (text_child x X) as (r & Y). congruence. Qed.
Lemma value_eqb_str v s : value_eqb v (VStr s) = true -> v = VStr s.
Proof. destruct v; cbn; try discriminate. intros H. apply sq in H as ->. reflexivity. Qed.
Lemma font_some o : opt_attr up "font" = Ok o -> otruthy o = true -> exists f, o = Some f /\ lettered p f.
Proof. destruct o as [f|]; intros H T; [exists f; split; [reflexivity|split; [apply opt_some, H|exact T]]|discriminate]. Qed.
Lemma two_boxes at_ size : mag2 up "width" "height" = Ok size -> mag2 up "x" "y" = Ok at_ -> box p at_ size.
Proof. intros S A. apply mag2_pixels in S as (? & ?), A as (? & ?). split; [assumption|]. split; [assumption|]. split; assumption. Qed.
Lemma placed_quarter start room d k : placed start room d k (start + room * k / 4 - d / 2).
Proof.
  unfold placed. pose proof (Z.div_mod (room * k) 4 ltac:(lia)) as A. pose proof (Z.mod_pos_bound (room * k) 4 ltac:(lia)) as B.
  pose proof (Z.div_mod d 2 ltac:(lia)) as C. pose proof (Z.mod_pos_bound d 2 ltac:(lia)) as D.
  remember (room * k / 4) as q. remember (d / 2) as h. remember ((room * k) mod 4) as r. remember (d mod 2) as g. nia.
Qed.
Lemma placed_half start room d : placed start room d 2 (start + room / 2 - d / 2).
Proof.
  unfold placed. pose proof (Z.div_mod room 2 ltac:(lia)) as A. pose proof (Z.mod_pos_bound room 2 ltac:(lia)) as B.
  pose proof (Z.div_mod d 2 ltac:(lia)) as C. pose proof (Z.mod_pos_bound d 2 ltac:(lia)) as D. lia.
Qed.
Lemma inside_quarter start room d k : 1 <= k <= 3 -> 0 <= d -> 2 * d <= room -> start <= start + room * k / 4 - d / 2 /\ start + room * k / 4 - d / 2 + d <= start + room.
Proof.
  intros K D R. pose proof (Z.div_mod (room * k) 4 ltac:(lia)) as A. pose proof (Z.mod_pos_bound (room * k) 4 ltac:(lia)) as B.
  pose proof (Z.div_mod d 2 ltac:(lia)) as C. pose proof (Z.mod_pos_bound d 2 ltac:(lia)) as E.
  assert (K' : k = 1 \/ k = 2 \/ k = 3) by lia. destruct K' as [->|[->| ->]]; lia.
Qed.
Lemma inside_half start room d : 0 <= d -> 2 * d <= room -> start <= start + room / 2 - d / 2 /\ start + room / 2 - d / 2 + d <= start + room.
Proof.
  intros D R. pose proof (Z.div_mod room 2 ltac:(lia)) as A. pose proof (Z.mod_pos_bound room 2 ltac:(lia)) as B.
  pose proof (Z.div_mod d 2 ltac:(lia)) as C. pose proof (Z.mod_pos_bound d 2 ltac:(lia)) as E. lia.
Qed.
Lemma die_is s fg : texts e = [s] -> draw_die up e = Ok fg -> die p s fg.
Proof.
  intros Tx H. unfold draw_die in H. sten H size E1. sten H at_ E2. sten H image Ei. sten H col Ec. sten H font Ef. sten H sty Es.
  pose proof (two_boxes _ _ E1 E2) as B.
  destruct (otruthy image) eqn:T.
  { destruct (image_some _ Ei T) as (v & -> & Pv). unfold paste in H. step H. injection H as <-. eapply DiePicture; eassumption. }
  pose proof (image_none _ Ei T) as NI. apply attr_or_coloured in Ec.
  destruct (value_eqb sty (VStr (L "numeric")) && otruthy font) eqn:Q.
  { apply andb_prop in Q as (Q1 & Q2). apply value_eqb_str in Q1 as ->. destruct (font_some _ Ef Q2) as (f & -> & Lf). sten H x Ex. apply (child_only s _ Tx) in Ex as ->. sten H f' F. injection H as <-.
    assert (f' = f) by (destruct Lf as (X & _); unfold seen in X; fold up in X; congruence). subst f'. eapply DieNumber; eassumption. }
  destruct (value_eqb sty (VStr (L "dot"))) eqn:Q'; [|discriminate]. apply value_eqb_str in Q' as ->. sten H d Ed. cbv zeta in H. sten H x Ex. apply (child_only s _ Tx) in Ex as ->.
  assert (Dd : snd d = fst d /\ pixels p p "eyesize" (fst d)).
  { split; [|apply (mag2_pixels _ _ _ Ed)]. unfold mag2 in Ed. sten Ed i I1. sten Ed k K1. injection Ed as <-. reflexivity. }
  destruct Dd as (Dq & Dp). destruct d as [d d']. cbn [fst snd] in *. subst d'.
  assert (A : forall u v, eye at_ size (d, d) col (u, v) (DrawEllipse (fst at_ + fst size * u / 4 - d / 2, snd at_ + snd size * v / 4 - d / 2) (d, d) col)).
  { intros u v. eexists. split; [reflexivity|]. cbn [fst snd]. split; apply placed_quarter. }
  assert (C : eye at_ size (d, d) col (2, 2) (DrawEllipse (fst at_ + fst size / 2 - d / 2, snd at_ + snd size / 2 - d / 2) (d, d) col)).
  { eexists. split; [reflexivity|]. cbn [fst snd]. split; apply placed_half. }
  assert (W : 0 <= d -> 2 * d <= fst size -> 2 * d <= snd size -> forall u v, 1 <= u <= 3 -> 1 <= v <= 3 ->
     within at_ size (DrawEllipse (fst at_ + fst size * u / 4 - d / 2, snd at_ + snd size * v / 4 - d / 2) (d, d) col)).
  { intros D0 D1 D2 u v U V. cbn [within fst snd]. destruct (inside_quarter (fst at_) (fst size) d u U D0 D1), (inside_quarter (snd at_) (snd size) d v V D0 D2). auto. }
  assert (W2 : 0 <= d -> 2 * d <= fst size -> 2 * d <= snd size -> within at_ size (DrawEllipse (fst at_ + fst size / 2 - d / 2, snd at_ + snd size / 2 - d / 2) (d, d) col)).
  { intros D0 D1 D2. cbn [within fst snd]. destruct (inside_half (fst at_) (fst size) d D0 D1), (inside_half (snd at_) (snd size) d D0 D2). auto. }
  assert (Y : forall n gs cs, s = py_str_int n -> 1 <= n <= 6 -> Permutation gs (face n) -> Forall2 (eye at_ size (d, d) col) gs cs ->
    (0 <= d -> 2 * d <= fst size -> 2 * d <= snd size -> Forall (within at_ size) cs) -> die p s cs).
  { intros n gs cs -> N Pm F2 Wi. eapply DieEyes; [exact NI|exact Es|apply py_int_str|exact N|]. exists at_, size, d, col, gs. auto 8. }
  Ltac spots A C W W2 :=
    match goal with
    | |- Forall2 _ _ _ => repeat (apply Forall2_cons; [first [apply A|exact C]|]); apply Forall2_nil
    | |- _ -> _ => let D0 := fresh in let D1 := fresh in let D2 := fresh in intros D0 D1 D2; repeat (apply Forall_cons; [first [exact (W2 D0 D1 D2)|apply (W D0 D1 D2); lia]|]); apply Forall_nil
    end.
  destruct (str_eqb s (L "1")) eqn:S1; [apply sq in S1; injection H as <-; eapply (Y 1 [(2, 2)]); [exact S1|lia|reflexivity|spots A C W W2|spots A C W W2]|].
  destruct (str_eqb s (L "2")) eqn:S2; [apply sq in S2; injection H as <-; eapply (Y 2 [(3, 1); (1, 3)]); [exact S2|lia|reflexivity|spots A C W W2|spots A C W W2]|].
  destruct (str_eqb s (L "3")) eqn:S3; [apply sq in S3; injection H as <-; eapply (Y 3 [(3, 1); (2, 2); (1, 3)]); [exact S3|lia|reflexivity|spots A C W W2|spots A C W W2]|].
  assert (P4 : Permutation [(3, 1); (3, 3); (1, 1); (1, 3)] [(1, 1); (3, 1); (1, 3); (3, 3)]).
  { apply perm_trans with [(3, 1); (1, 1); (3, 3); (1, 3)]; [apply perm_skip, perm_swap|].
    apply perm_trans with [(1, 1); (3, 1); (3, 3); (1, 3)]; [apply perm_swap|]. apply perm_skip, perm_skip, perm_swap. }
  destruct (str_eqb s (L "4")) eqn:S4; [apply sq in S4; injection H as <-; eapply (Y 4 [(3, 1); (3, 3); (1, 1); (1, 3)]); [exact S4|lia|exact P4|spots A C W W2|spots A C W W2]|].
  destruct (str_eqb s (L "5")) eqn:S5; [apply sq in S5; injection H as <-; eapply (Y 5 [(3, 1); (3, 3); (1, 1); (1, 3); (2, 2)]); [exact S5|lia| |spots A C W W2|spots A C W W2]|].
  { change [(3, 1); (3, 3); (1, 1); (1, 3); (2, 2)] with ([(3, 1); (3, 3); (1, 1); (1, 3)] ++ [(2, 2)]).
    change (face 5) with ([(1, 1); (3, 1)] ++ (2, 2) :: [(1, 3); (3, 3)]). etransitivity; [apply Permutation_app_tail, P4|]. etransitivity; [symmetry; apply Permutation_cons_append|].
    apply (Permutation_middle [(1, 1); (3, 1)]). }
  destruct (str_eqb s (L "6")) eqn:S6; [apply sq in S6; injection H as <-; eapply (Y 6 [(3, 1); (3, 2); (3, 3); (1, 1); (1, 2); (1, 3)]); [exact S6|lia| |spots A C W W2|spots A C W W2]|discriminate].
  apply (Permutation_app_comm [(3, 1); (3, 2); (3, 3)] [(1, 1); (1, 2); (1, 3)]).
Qed.

(* ---- texts ---- *)
Lemma no_image i : opt_attr up "image" = Ok i -> unpictured p -> otruthy i = false.
Proof.
  intros H [U|(v & S & T)]; (destruct i as [w|]; [|reflexivity]); apply opt_some in H.
  - destruct (seen_unset _ _ _ H U).
  - rewrite (seen_eq _ _ _ _ H S). exact T.
Qed.
Lemma some_font o f : opt_attr up "font" = Ok o -> lettered p f -> otruthy o = true.
Proof.
  intros H (S & T). destruct o as [w|]; [apply opt_some in H; rewrite (seen_eq _ _ _ _ H S); exact T|]. apply opt_none in H. destruct (seen_unset _ _ _ S H).
Qed.
Lemma text_words s f fg : texts e = [s] -> unpictured p -> lettered p f -> draw_text_elem up e = Ok fg -> words fg = [s].
Proof.
  intros Tx U F H. unfold draw_text_elem in H. sten H size E1. sten H at_ E2. sten H image Ei. sten H font Ef. rewrite (no_image _ Ei U), (some_font _ _ Ef F) in H.
  sten H x Ex. apply (child_only s _ Tx) in Ex as ->. sten H g G. sten H c C. injection H as <-. reflexivity.
Qed.
Lemma crawford_words s f fg : texts e = [s] -> unpictured p -> lettered p f -> draw_crawford up e = Ok fg -> words fg = if str_eqb s (L "True") then [L "*"] else [].
Proof.
  intros Tx U F H. unfold draw_crawford in H. sten H size E1. sten H at_ E2. sten H image Ei. sten H font Ef. rewrite (no_image _ Ei U), (some_font _ _ Ef F) in H.
  sten H x Ex. apply (child_only s _ Tx) in Ex as ->. destruct (str_eqb s (L "True")); [|injection H as <-; reflexivity]. sten H g G. sten H c C. injection H as <-. reflexivity.
Qed.
Lemma cube_words s f fg : texts e = [s] -> unpictured p -> lettered p f -> draw_cube up e = Ok fg ->
  exists n w, py_int s = Ok n /\ words fg = [w] /\ 0 <= n /\
    (0 < n -> w = py_str_int (2 ^ n)) /\ (n = 0 -> unset p "initialCube" /\ w = L "1" \/ exists i, seen p "initialCube" i /\ (forall x, i = VStr x -> w = x)).
Proof.
  intros Tx U F H. unfold draw_cube in H. sten H size E1. sten H at_ E2. sten H image Ei. sten H col Ec. sten H font Ef. rewrite (no_image _ Ei U), (some_font _ _ Ef F) in H.
  sten H x Ex. apply (child_only s _ Tx) in Ex as ->. sten H n En. sten H v Ev. sten H g G. unfold pypow2 in Ev. destruct (n <? 0) eqn:Neg; [discriminate|]. injection Ev as <-.
  exists n. assert (One : 0 < n -> (2 ^ n =? 1) = false). { intros X. apply Z.eqb_neq. pose proof (Z.pow_gt_1 2 n ltac:(lia)) as (Q & _). specialize (Q X). lia. }
  destruct ((2 ^ n =? 1) && has_attr up "initialCube") eqn:Q.
  - apply andb_prop in Q as (Q1 & Q2). sten H i EI. injection H as <-. eexists. split; [reflexivity|]. split; [reflexivity|]. split; [lia|]. split.
    + intros X. rewrite (One X) in Q1. discriminate.
    + intros _. right. exists i. split; [exact EI|]. intros x ->. reflexivity.
  - injection H as <-. eexists. split; [reflexivity|]. split; [reflexivity|]. split; [lia|]. split; [reflexivity|]. intros ->. left. change (2 ^ 0) with 1 in Q. cbn in Q.
    split; [apply has_unset, Q|reflexivity].
Qed.
Lemma resign_words s f fg : texts e = [s] -> unpictured p -> lettered p f -> draw_resign up e = Ok fg ->
  exists n w, py_int s = Ok n /\ pyget RESIGN_STRINGS n = Ok w /\ words fg = [w].
Proof.
  intros Tx U F H. unfold draw_resign in H. sten H size E1. sten H at_ E2. sten H image Ei. sten H col Ec. sten H font Ef. sten H off Eo. rewrite (no_image _ Ei U), (some_font _ _ Ef F) in H.
  sten H x Ex. apply (child_only s _ Tx) in Ex as ->. sten H n En. sten H w Ew. sten H g G. injection H as <-. exists n, w. auto.
Qed.
End Path.

Lemma words_app a b : words (a ++ b) = words a ++ words b.
Proof. unfold words. apply flat_map_app. Qed.
Lemma discs_app a b : discs (a ++ b) = discs a + discs b.
Proof. unfold discs, zlen. rewrite filter_app, app_length. lia. Qed.
Lemma ground_words p cs fg : on_ground p cs fg -> words cs = words fg.
Proof. intros [(_ & ->)|(v & at_ & size & _ & _ & ->)]; reflexivity. Qed.
Lemma ground_discs p cs fg : on_ground p cs fg -> discs cs = discs fg.
Proof. intros [(_ & ->)|(v & at_ & size & _ & _ & ->)]; reflexivity. Qed.
Lemma row_discs p size q cs r : row p size q cs r -> discs cs = zlen cs.
Proof.
  induction 1 as [|q c q' cs r D N R IH]; [reflexivity|]. change (c :: cs) with ([c] ++ cs). rewrite discs_app, IH. assert (E : discs [c] = 1) by (destruct D; reflexivity).
  rewrite E. unfold zlen. rewrite app_length. cbn [List.length]. lia.
Qed.
Lemma stack_discs p n m cs : stack p n m cs -> discs cs = Z.max 0 (Z.min n m).
Proof.
  intros (at_ & size & row_ & last_ & label & _ & -> & R & Len & N & C). rewrite discs_app, (row_discs _ _ _ _ _ R), Len.
  assert (D : counted p n m \/ ~ counted p n m -> discs label = 0).
  { intros [X|X]; [destruct (C X) as (f & c & _ & _ & ->)|rewrite (N X)]; reflexivity. }
  destruct label as [|k label]; [change (discs []) with 0; lia|]. cut (discs (k :: label) = 0); [lia|]. apply D. left.
  destruct (Z_gt_dec n m) as [G|G]; [|exfalso]. 2: { assert (X : ~ counted p n m) by (intros (Y & _); lia). discriminate (N X). }
  split; [exact G|]. unfold seen. destruct (get_attr (map ehead (rev p)) (L "font")) as [f|] eqn:F.
  - split; [eauto|]. intros v V. destruct (truthy v) eqn:T; [|reflexivity]. exfalso.
    assert (X : ~ counted p n m) by (intros (_ & _ & Y); rewrite (Y v V) in T; discriminate). discriminate (N X).
  - exfalso. assert (X : ~ counted p n m) by (intros (_ & (g & Y) & _); unfold seen in Y; congruence). discriminate (N X).
Qed.
Lemma eyes_discs p n cs : eyes p n cs -> discs cs = zlen (face n).
Proof.
  intros (at_ & size & d & col & gs & _ & _ & _ & Pm & F & _). unfold zlen. rewrite <- (Permutation_length Pm). clear Pm.
  induction F as [|g c gs cs (q & -> & _) F IH]; [reflexivity|]. unfold discs in *. cbn [filter is_disc]. unfold zlen in *. cbn [List.length]. lia.
Qed.

(* ---- sums over the elements of a kind ---- *)
Lemma part_split k t ds : pieces t ds -> forall (Q : list elem -> list cmd -> Prop),
  (forall a e d, In (a ++ [e]) (paths [] t) -> In e (elements t) -> of_kind k e = true -> draw_element (a ++ [e]) = Ok d -> Q (a ++ [e]) d) ->
  exists ps, Forall2 (fun p d => Q p d) (map fst ps) (map snd ps) /\ part k (paths [] t) ds = List.concat (map snd ps) /\
    List.concat (map writing (map fst ps)) = written_on k t.
Proof.
  intros F Q H. unfold pieces in F. unfold written_on. pose proof (paths_ends t) as G.
  assert (H' : forall a e d, In (a ++ [e]) (paths [] t) -> In e (elements t) -> of_kind k e = true -> draw_element (a ++ [e]) = Ok d -> Q (a ++ [e]) d) by exact H. clear H.
  revert ds F H'. induction G as [|p e l l' (a & ->) G IH]; intros ds F H.
  - exists []. inversion F; subst. split; [constructor|]. split; reflexivity.
  - inversion F as [|x d y ds' D F' A B]; subst. destruct (IH ds' F') as (ps & Q1 & Q2 & Q3).
    { intros a' e' d' I J. apply H; right; assumption. }
    cbn [part filter]. rewrite ends_snoc. destruct (of_kind k e) eqn:K.
    + exists ((a ++ [e], d) :: ps). cbn [map fst snd List.concat flat_map]. rewrite Q2, Q3, writing_snoc. split; [|split; reflexivity].
      constructor; [|exact Q1]. apply H; [left; reflexivity|left; reflexivity|exact K|exact D].
    + exists ps. cbn [app]. auto.
Qed.
Lemma concat_words ps : forall (g : str -> list str), (forall p d, In (p, d) ps -> exists s, writing p = [s] /\ words d = g s) ->
  words (List.concat (map snd ps)) = flat_map g (List.concat (map writing (map fst ps))).
Proof.
  induction ps as [|[p d] ps IH]; intros g H; [reflexivity|]. cbn [map fst snd List.concat]. rewrite words_app, flat_map_app.
  destruct (H p d (or_introl eq_refl)) as (s & -> & E). cbn [flat_map]. rewrite app_nil_r, E. f_equal. apply IH. intros q c I. apply H. right. exact I.
Qed.
Lemma concat_discs ps : (forall p d, In (p, d) ps -> exists s, writing p = [s] /\ discs d = read s) ->
  discs (List.concat (map snd ps)) = amount (List.concat (map writing (map fst ps))).
Proof.
  induction ps as [|[p d] ps IH]; intros H; [reflexivity|]. cbn [map fst snd List.concat]. rewrite discs_app. unfold amount in *. rewrite map_app, zsum_app.
  destruct (H p d (or_introl eq_refl)) as (s & -> & E). rewrite IH by (intros q c I; apply H; right; exact I). cbn [map]. unfold zsum at 2. cbn [fold_right]. lia.
Qed.
Lemma pairs_in {X Y} (Q : X -> Y -> Prop) (ps : list (X * Y)) : Forall2 Q (map fst ps) (map snd ps) -> forall x y, In (x, y) ps -> Q x y.
Proof.
  induction ps as [|[x y] ps IH]; intros F u v I; [destruct I|]. cbn in F. inversion F; subst. destruct I as [E|I]; [injection E as <- <-; assumption|]. apply IH; assumption.
Qed.

Lemma kind_eq k e : of_kind k e = true -> kind (ehead e) = k.
Proof. unfold of_kind. destruct (kind (ehead e)), k; intros H; first [reflexivity|discriminate H]. Qed.
Lemma dressed_typed css b size t : sides_ok b -> dressed css b size t -> typed_tree t.
Proof. intros S (t1 & t2 & B & St & M). eapply mag_typed; [|exact M]. eapply style_typed; [|exact St]. eapply tree_typed; eassumption. Qed.
Lemma max_int css b size t p m : sides_ok b -> dressed css b size t -> In p (paths [] t) -> get_int (map ehead (rev p)) "max_count" = Ok m -> seen p "max_count" (VInt m).
Proof.
  intros S D I G. apply int_seen in G as [G|(x & G & _)]; [exact G|]. pose proof (path_right t p _ _ (dressed_typed _ _ _ _ S D) I G) as R. exfalso.
  destruct R as [(_ & z & X)|[(_ & z & X)|[(X & _)|[(l & z & _ & _ & X)|(X & _)]]]]; try discriminate. cbn in X. destruct X as [X|[X|[X|[]]]]; discriminate.
Qed.
Lemma cube_string css b size t p i : sides_ok b -> dressed css b size t -> In p (paths [] t) -> seen p "initialCube" i -> exists w, i = VStr w.
Proof.
  intros S D I G. pose proof (path_right t p _ _ (dressed_typed _ _ _ _ S D) I G) as R.
  destruct R as [(X & _)|[(_ & z & X)|[(X & _)|[(l & z & X & _)|(X & _)]]]]; try discriminate; [|eauto| |].
  - cbn in X. repeat (destruct X as [X|X]; [discriminate|]). destruct X.
  - cbn in X. repeat (destruct X as [X|X]; [discriminate|]). destruct X.
  - cbn in X. repeat (destruct X as [X|X]; [discriminate|]). destruct X.
Qed.
Lemma one_text css b size t a e : sides_ok b -> dressed css b size t -> In e (elements t) -> speaks (kind (ehead e)) = true -> exists s, texts e = [s] /\ writing (a ++ [e]) = [s].
Proof.
  intros S D I K. assert (X : forall e, In e (elements t) -> (fun x => speaks (fst x) = true -> exists s, snd x = [s]) (tag e)).
  { apply (dressed_all css b size t (fun x => speaks (fst x) = true -> exists s, snd x = [s]) D). intros t0 B e0 J. apply (tree_sound b t0 S B e0 J). }
  destruct (X e I K) as (s & E). exists s. rewrite writing_snoc. auto.
Qed.
Lemma path_end t p k : In p (paths [] t) -> ends k p = true -> exists a e, p = a ++ [e] /\ In e (elements t) /\ kind (ehead e) = k /\ of_kind k e = true.
Proof.
  intros I E. assert (G : exists e a, In e (elements t) /\ p = a ++ [e]).
  { pose proof (paths_ends t) as F. revert I. clear E. induction F as [|q e l l' (a & ->) F IH]; intros I; [destruct I|].
    destruct I as [<-|I]; [exists e, a; split; [left|]; reflexivity|]. destruct (IH I) as (e' & a' & J & K). exists e', a'. split; [right; exact J|exact K]. }
  destruct G as (e & a & J & ->). rewrite ends_snoc in E. exists a, e.
  split; [reflexivity|]. split; [exact J|]. split; [apply kind_eq, E|exact E].
Qed.

(* ---- what there is to do ---- *)
Lemma action_says b p s f g : the_action b = Ok (p, s, f, g) -> L s = sentence b /\ player_no (decider b) /\
  p = (if not_rolled b && doubled b && (on_action b =? YOU) && (on_inner_action b =? HIM) then you else name_of (decider b)).
Proof.
  unfold the_action, sentence, decider. cbv zeta. intros H.
  destruct (Z.eqb_spec (on_action b) YOU) as [A|A]; [|destruct (Z.eqb_spec (on_action b) HIM) as [A'|A']]; try rewrite A in H; change (YOU =? HIM) with false in H; destruct (not_rolled b), (doubled b); cbn [andb negb] in H |- *; try discriminate H;
  (destruct (Z.eqb_spec (on_inner_action b) YOU) as [I|I]; [|destruct (Z.eqb_spec (on_inner_action b) HIM) as [I'|I']]); try rewrite I in H; change (YOU =? HIM) with false in H; cbn [andb negb] in H |- *;
  try (match type of H with context[zmem ?x ?l] => destruct (zmem x l) end; cbn [andb negb] in H); try discriminate H; inversion H; subst p s f g; rewrite ?A, ?A', ?I, ?I';
  (split; [reflexivity|]); (split; [unfold player_no; auto|reflexivity]).
Qed.
Lemma tree_action b t : sides_ok b -> board_tree b = Ok t -> exists p s f g x, the_action b = Ok (p, s, f, g) /\ t = trunk b x /\ ok_extras x /\ x_player x = Some p /\ x_says x = [L s].
Proof.
  intros S H. rewrite board_tree_ok in H by exact S. destruct (the_cubes b) as [[[m y] h]|e] eqn:EC; [|discriminate]. destruct (the_action b) as [[[[p s] f] g]|e] eqn:EA; [|discriminate].
  cbn in H. injection H as <-. apply cubes_of in EC. pose proof EA as EA'. apply action_stage in EA'. pose proof (stages_ok b m y h p s f g EC EA') as O. exists p, s, f, g, (mkextras (Some p) [L s] f g m y h). split; [reflexivity|]. split; [reflexivity|]. split; [exact O|]. split; reflexivity.
Qed.
Lemma action_written b t : sides_ok b -> board_tree b = Ok t -> written_on EAction t = [sentence b].
Proof.
  intros S H. destruct (tree_action b t S H) as (p & s & f & g & x & A & -> & O & P & Q). unfold written_on. rewrite find_action by exact O.
  unfold action_elem. rewrite P, Q. cbn. destruct (action_says b p s f g A) as (<- & _). reflexivity.
Qed.
Lemma action_player b t : sides_ok b -> board_tree b = Ok t -> player_no (decider b) /\
  action_names t (if not_rolled b && doubled b && (on_action b =? YOU) && (on_inner_action b =? HIM) then YOU else decider b).
Proof.
  intros S H. destruct (tree_action b t S H) as (p & s & f & g & x & A & -> & O & P & Q). destruct (action_says b p s f g A) as (_ & N & E). split; [exact N|].
  exists (action_elem x). rewrite find_action by exact O. split; [reflexivity|]. unfold action_elem. rewrite P, E. destruct (not_rolled b && _ && _ && _); reflexivity.
Qed.
Lemma action_partial : forall b t, sides_ok b -> board_tree b = Ok t ->
  written_on EAction t = [sentence b] /\ player_no (decider b) /\
  (~ (offered b /\ rolled b = (0, 0) /\ on_action b = YOU) -> action_names t (decider b)).
Proof.
  intros b t S H. split; [apply action_written; assumption|]. destruct (action_player b t S H) as (N & A). split; [exact N|]. intros X.
  destruct (not_rolled b && doubled b && (on_action b =? YOU) && (on_inner_action b =? HIM)) eqn:E; [|exact A]. exfalso. apply X.
  apply andb_prop in E as (E & E4). apply andb_prop in E as (E & E3). apply andb_prop in E as (E1 & E2). apply Z.eqb_eq in E3, E4.
  split; [split; [exact E2|rewrite E3, E4; discriminate]|]. split; [apply not_rolled_eq, E1|exact E3].
Qed.
Definition asking : board := set_doubled true (set_on_inner_action HIM (set_on_action YOU ongoing)).
Lemma action_refuted : exists b t, in_play b /\ board_tree b = Ok t /\ sentence b = L "you doubled. him to take or drop." /\ decider b = HIM /\ ~ action_names t (decider b) /\ action_names t YOU.
Proof.
  exists asking. destruct (board_tree asking) as [t|] eqn:E; [|vm_compute in E; discriminate]. exists t.
  assert (S : sides_ok asking) by (split; reflexivity). destruct (action_player asking t S E) as (_ & A). change (action_names t YOU) in A.
  split. { split; [exact S|]. split; [right; right; reflexivity|]. split; [left; reflexivity|]. split; [right; reflexivity|]. right. left. reflexivity. }
  split; [reflexivity|]. split; [reflexivity|]. split; [reflexivity|]. split; [|exact A].
  intros (e & F & X). destruct A as (e' & F' & X'). rewrite F in F'. injection F' as <-. rewrite X in X'. discriminate.
Qed.

(* ---- the theorems ---- *)
Lemma chequers_drawn : forall css b size t p cs, sides_ok b -> dressed css b size t -> In p (paths [] t) -> ends EChequer p = true -> draw_element p = Ok cs ->
  (visible p -> exists s n m fg, writing p = [s] /\ py_int s = Ok n /\ seen p "max_count" (VInt m) /\ on_ground p cs fg /\ stack p n m fg) /\
  (~ visible p -> on_ground p cs []).
Proof.
  intros css b size t p cs S D I E H. destruct (path_end t p _ I E) as (a & e & -> & J & K & _). split; [|apply element_hidden, H].
  intros V. destruct (element_ground a e cs H V) as (fg & M & G). unfold draw_method in M. rewrite K in M.
  destruct (chequer_stack a e fg M) as (s & r & n & m & T & N & X & Y). destruct (one_text css b size t a e S D J) as (s' & T' & W); [rewrite K; reflexivity|].
  exists s, n, m, fg. split; [congruence|]. split; [exact N|]. split; [eapply max_int; eassumption|]. auto.
Qed.
Lemma thirty_discs : forall css b size cs, fair b -> draw css b size = Ok cs ->
  exists t ds, dressed css b size t /\ pieces t ds /\ cs = List.concat ds /\ (all_roomy t -> discs (part EChequer (paths [] t) ds) = 30).
Proof.
  intros css b size cs F H. pose proof (fair_sides b F) as S. destruct (in_pieces _ _ _ _ H) as (t & ds & D & Pc & E). exists t, ds. split; [exact D|]. split; [exact Pc|]. split; [exact E|]. intros R.
  destruct (part_split EChequer t ds Pc (fun p d => exists s, writing p = [s] /\ discs d = read s)) as (ps & Q1 & Q2 & Q3).
  { intros a e d I J K Dr. assert (En : ends EChequer (a ++ [e]) = true) by (rewrite ends_snoc; exact K). destruct (R _ I En) as (V & Rm).
    destruct (chequers_drawn css b size t _ d S D I En Dr) as (C & _). destruct (C V) as (s & n & m & fg & W & N & M & G & St). exists s. split; [exact W|].
    rewrite (ground_discs _ _ _ G), (stack_discs _ _ _ _ St). unfold read. rewrite N. specialize (Rm s n m W N M).
    assert (P : forall e, In e (elements t) -> (fun x => tag_of EChequer x = true -> exists n, 0 <= n /\ snd x = [py_str_int n]) (tag e)).
    { apply (dressed_all css b size t (fun x => tag_of EChequer x = true -> exists n, 0 <= n /\ snd x = [py_str_int n]) D). intros t0 B e0 I0. apply (tree_counts b t0 F B e0 I0). }
    destruct (P e J K) as (k & K0 & K1). rewrite writing_snoc in W. cbn [snd tag] in K1. rewrite W in K1. injection K1 as ->. rewrite py_int_str in N. injection N as ->. lia. }
  rewrite Q2, concat_discs, Q3; [|apply pairs_in, Q1]. destruct (dressed_written css b size t EChequer D) as (t0 & B & ->). eapply all_thirty; eassumption.
Qed.
Lemma dice_drawn : forall css b size t p cs, sides_ok b -> dressed css b size t -> In p (paths [] t) -> ends EDie p = true -> draw_element p = Ok cs ->
  (visible p -> exists s fg, writing p = [s] /\ on_ground p cs fg /\ die p s fg) /\ (~ visible p -> on_ground p cs []).
Proof.
  intros css b size t p cs S D I E H. destruct (path_end t p _ I E) as (a & e & -> & J & K & _). split; [|apply element_hidden, H].
  intros V. destruct (element_ground a e cs H V) as (fg & M & G). unfold draw_method in M. rewrite K in M.
  destruct (one_text css b size t a e S D J) as (s & T & W); [rewrite K; reflexivity|]. exists s, fg. split; [exact W|]. split; [exact G|]. eapply die_is; eassumption.
Qed.
Lemma face_count n : 1 <= n <= 6 -> zlen (face n) = n.
Proof. intros H. assert (C : n = 1 \/ n = 2 \/ n = 3 \/ n = 4 \/ n = 5 \/ n = 6) by lia. destruct C as [->|[->|[->|[->|[->| ->]]]]]; reflexivity. Qed.
Lemma numeric_dot (x : list elem) : seen x "diestyle" (VStr (L "dot")) -> seen x "diestyle" (VStr (L "numeric")) -> False.
Proof. unfold seen. intros H G. rewrite H in G. discriminate. Qed.
Lemma un_pictured p v : pictured p v -> unpictured p -> False.
Proof. unfold pictured, unpictured, seen, unset. intros (S & T) [U|(w & W & X)]; congruence. Qed.
Lemma dice_eyes : forall css b size cs, sides_ok b -> draw css b size = Ok cs ->
  exists t ds, dressed css b size t /\ pieces t ds /\ cs = List.concat ds /\
    (rolled b = (0, 0) -> part EDie (paths [] t) ds = []) /\
    (rolled b <> (0, 0) -> all_styled "dot" t -> discs (part EDie (paths [] t) ds) = fst (rolled b) + snd (rolled b)) /\
    (rolled b <> (0, 0) -> all_styled "numeric" t -> words (part EDie (paths [] t) ds) = [py_str_int (fst (rolled b)); py_str_int (snd (rolled b))]).
Proof.
  intros css b size cs S H. destruct (in_pieces _ _ _ _ H) as (t & ds & D & Pc & E). exists t, ds. split; [exact D|]. split; [exact Pc|]. split; [exact E|].
  destruct (dressed_written css b size t EDie D) as (t0 & B & Wr). destruct (board_shown b t0 S B) as (_ & _ & (N & R) & _).
  split; [|split].
  - intros Z. specialize (N Z). destruct (part_split EDie t ds Pc (fun p d => exists s, writing p = [s])) as (ps & Q1 & Q2 & Q3).
    { intros a e d I J K Dr. destruct (one_text css b size t a e S D J) as (s & _ & W); [rewrite (kind_eq _ _ K); reflexivity|eauto]. }
    rewrite Q2. rewrite Wr, N in Q3. destruct ps as [|[p d] ps]; [reflexivity|]. destruct (pairs_in _ _ Q1 p d (or_introl eq_refl)) as (s & W). cbn in Q3. rewrite W in Q3. discriminate.
  - intros Z St. destruct (part_split EDie t ds Pc (fun p d => exists s, writing p = [s] /\ discs d = read s)) as (ps & Q1 & Q2 & Q3).
    { intros a e d I J K Dr. assert (En : ends EDie (a ++ [e]) = true) by (rewrite ends_snoc; exact K). destruct (St _ I En) as (V & U & Sty).
      destruct (dice_drawn css b size t _ d S D I En Dr) as (C & _). destruct (C V) as (s & fg & W & G & Di). exists s. split; [exact W|]. rewrite (ground_discs _ _ _ G).
      destruct Di as [u f at_ sz P|f col at_ sz _ Nu|n fg _ _ Ni Bo Ey]; [destruct (un_pictured _ _ P U)|destruct (numeric_dot _ Sty Nu)|].
      rewrite (eyes_discs _ _ _ Ey), (face_count n Bo). unfold read. rewrite Ni. reflexivity. }
    rewrite Q2, concat_discs, Q3; [|apply pairs_in, Q1]. rewrite Wr. destruct (R Z) as (-> & _). unfold amount, zsum, read. cbn [map fold_right]. rewrite !py_int_str. lia.
  - intros Z St. destruct (part_split EDie t ds Pc (fun p d => exists s, writing p = [s] /\ words d = [s])) as (ps & Q1 & Q2 & Q3).
    { intros a e d I J K Dr. assert (En : ends EDie (a ++ [e]) = true) by (rewrite ends_snoc; exact K). destruct (St _ I En) as (V & U & Sty).
      destruct (dice_drawn css b size t _ d S D I En Dr) as (C & _). destruct (C V) as (s & fg & W & G & Di). exists s. split; [exact W|]. rewrite (ground_words _ _ _ G).
      destruct Di as [u f at_ sz P|f col at_ sz _ Nu|n fg _ Dt]; [destruct (un_pictured _ _ P U)|reflexivity|destruct (numeric_dot _ Dt Sty)]. }
    rewrite Q2, (concat_words ps (fun s => [s])), Q3; [|apply pairs_in, Q1]. rewrite Wr. destruct (R Z) as (-> & _). reflexivity.
Qed.

Lemma kind_words css b size t ds k g : sides_ok b -> dressed css b size t -> pieces t ds -> speaks k = true -> all_lettered k t ->
  (forall a e s f fg, In (a ++ [e]) (paths [] t) -> kind (ehead e) = k -> texts e = [s] -> unpictured (a ++ [e]) -> lettered (a ++ [e]) f -> draw_method (map ehead (rev (a ++ [e]))) e = Ok fg -> words fg = g s) ->
  words (part k (paths [] t) ds) = flat_map g (written_on k t).
Proof.
  intros S D Pc Sp Al Mt. destruct (part_split k t ds Pc (fun p d => exists s, writing p = [s] /\ words d = g s)) as (ps & Q1 & Q2 & Q3).
  { intros a e d I J K Dr. assert (En : ends k (a ++ [e]) = true) by (rewrite ends_snoc; exact K). destruct (Al _ I En) as (V & U & f & Lf). apply kind_eq in K.
    destruct (one_text css b size t a e S D J) as (s & T & W); [rewrite K; exact Sp|]. destruct (element_ground a e d Dr V) as (fg & M & G).
    exists s. split; [exact W|]. rewrite (ground_words _ _ _ G). eapply Mt; eassumption. }
  rewrite Q2, (concat_words ps g), Q3; [reflexivity|apply pairs_in, Q1].
Qed.
Lemma flat_one (l : list str) : flat_map (fun s => [s]) l = l.
Proof. induction l as [|x l IH]; cbn; [reflexivity|rewrite IH; reflexivity]. Qed.
Lemma match_words : forall css b size cs, sides_ok b -> draw css b size = Ok cs ->
  exists t ds, dressed css b size t /\ pieces t ds /\ cs = List.concat ds /\
    (all_lettered EScore t -> words (part EScore (paths [] t) ds) = [py_str_int (fst (score b)); py_str_int (snd (score b))]) /\
    (all_lettered ELength t -> words (part ELength (paths [] t) ds) = [py_str_int (match_length b)]) /\
    (all_lettered ECrawford t -> words (part ECrawford (paths [] t) ds) = if crawford b then [L "*"] else []) /\
    (all_lettered EAction t -> words (part EAction (paths [] t) ds) = [sentence b]).
Proof.
  intros css b size cs S H. destruct (in_pieces _ _ _ _ H) as (t & ds & D & Pc & E). exists t, ds. split; [exact D|]. split; [exact Pc|]. split; [exact E|].
  destruct (dressed_written css b size t EScore D) as (t0 & B & W1). destruct (dressed_written css b size t ELength D) as (t1 & B1 & W2). destruct (dressed_written css b size t ECrawford D) as (t2 & B2 & W3).
  rewrite B in B1, B2. injection B1 as <-. injection B2 as <-. destruct (board_shown b t0 S B) as (_ & _ & _ & _ & (M1 & M2 & M3)).
  assert (T : forall k, (k = EScore \/ k = ELength \/ k = EAction) -> all_lettered k t -> words (part k (paths [] t) ds) = written_on k t).
  { intros k K Al. rewrite (kind_words css b size t ds k (fun s => [s]) S D Pc); [apply flat_one|destruct K as [->|[->| ->]]; reflexivity|exact Al|].
    intros a e s f fg I Ke Tx U Lf M. unfold draw_method in M. rewrite Ke in M. destruct K as [->|[->| ->]]; eapply text_words; eassumption. }
  split; [intros Al; rewrite T by auto; congruence|]. split; [intros Al; rewrite T by auto; congruence|]. split; [|intros Al; rewrite T by auto; destruct (dressed_written css b size t EAction D) as (t3 & B3 & ->); apply action_written; assumption].
  intros Al. rewrite (kind_words css b size t ds ECrawford (fun s => if str_eqb s (L "True") then [L "*"] else []) S D Pc eq_refl Al).
  - rewrite W3, M3. destruct (crawford b); reflexivity.
  - intros a e s f fg I Ke Tx U Lf M. unfold draw_method in M. rewrite Ke in M. eapply crawford_words; eassumption.
Qed.
Lemma cube_shown css b size t ds c : sides_ok b -> dressed css b size t -> pieces t ds -> all_lettered ECube t -> written_on ECube t = [py_str_int c] ->
  exists w, words (part ECube (paths [] t) ds) = [w] /\ cube_says t c w.
Proof.
  intros S D Pc Al W. destruct (part_split ECube t ds Pc (fun p d => exists s n w, writing p = [s] /\ py_int s = Ok n /\ words d = [w] /\ cube_says t n w)) as (ps & Q1 & Q2 & Q3).
  { intros a e d I J K Dr. assert (En : ends ECube (a ++ [e]) = true) by (rewrite ends_snoc; exact K). destruct (Al _ I En) as (V & U & f & Lf). apply kind_eq in K.
    destruct (one_text css b size t a e S D J) as (s & T & Wt); [rewrite K; reflexivity|]. destruct (element_ground a e d Dr V) as (fg & M & G). unfold draw_method in M. rewrite K in M.
    destruct (cube_words a e s f fg T U Lf M) as (n & w & N & Wd & Nn & C1 & C2). exists s, n, w. split; [exact Wt|]. split; [exact N|]. split; [rewrite (ground_words _ _ _ G); exact Wd|].
    assert (C : 0 < n \/ n = 0) by lia. destruct C as [C|C]; [rewrite (C1 C); apply CubeValue, C|].
    destruct (C2 C) as [(Un & ->)|(i & Si & X)]; [eapply CubeOne; eassumption|]. destruct (cube_string css b size t _ i S D I Si) as (w' & ->). rewrite (X w' eq_refl). eapply CubeFirst; eassumption. }
  rewrite Q2. rewrite W in Q3. destruct ps as [|[p d] ps]; [discriminate|]. destruct (pairs_in _ _ Q1 p d (or_introl eq_refl)) as (s & n & w & Ws & N & Wd & C).
  cbn [map fst snd List.concat] in Q3 |- *. rewrite Ws in Q3. cbn [app] in Q3. injection Q3 as -> Q3. rewrite py_int_str in N. injection N as ->. exists w. split; [|exact C].
  destruct ps as [|[p' d'] ps]; [cbn; rewrite app_nil_r; exact Wd|]. destruct (pairs_in _ _ Q1 p' d' (or_intror (or_introl eq_refl))) as (s' & _ & _ & Ws' & _). cbn in Q3. rewrite Ws' in Q3. discriminate.
Qed.
Lemma stake_words : forall css b size cs, sides_ok b -> draw css b size = Ok cs ->
  exists t ds, dressed css b size t /\ pieces t ds /\ cs = List.concat ds /\
    (~ offered b -> all_lettered ECube t -> exists w, words (part ECube (paths [] t) ds) = [w] /\ cube_says t (cube_in_logarithm b) w) /\
    (offered b -> rolled b = (0, 0) -> all_lettered ECube t -> exists w, words (part ECube (paths [] t) ds) = [w] /\ cube_says t (cube_in_logarithm b + 1) w) /\
    (rolled b = (0, 0) -> doubled b = false -> on_inner_action b <> on_action b -> all_lettered EResign t ->
       words (part EResign (paths [] t) ds) = [resign_word (resign_offer b)]).
Proof.
  intros css b size cs S H. destruct (in_pieces _ _ _ _ H) as (t & ds & D & Pc & E). exists t, ds. split; [exact D|]. split; [exact Pc|]. split; [exact E|].
  destruct (dressed_written css b size t ECube D) as (t0 & B & W1). destruct (dressed_written css b size t EResign D) as (t1 & B1 & W2).
  rewrite B in B1. injection B1 as <-. destruct (board_shown b t0 S B) as (_ & (C1 & C2 & _) & _ & (R1 & _) & _).
  split; [intros O Al; eapply cube_shown; try eassumption; rewrite W1; apply C1, O|]. split; [intros O Ro Al; eapply cube_shown; try eassumption; rewrite W1; apply C2; assumption|].
  intros Ro Do Ac Al. destruct (R1 Ro Do Ac) as (Bo & Wr & _).
  destruct (part_split EResign t ds Pc (fun p d => exists s n w, writing p = [s] /\ py_int s = Ok n /\ pyget RESIGN_STRINGS n = Ok w /\ words d = [w])) as (ps & Q1 & Q2 & Q3).
  { intros a e d I J K Dr. assert (En : ends EResign (a ++ [e]) = true) by (rewrite ends_snoc; exact K). destruct (Al _ I En) as (V & U & f & Lf). apply kind_eq in K.
    destruct (one_text css b size t a e S D J) as (s & T & Wt); [rewrite K; reflexivity|]. destruct (element_ground a e d Dr V) as (fg & M & G). unfold draw_method in M. rewrite K in M.
    destruct (resign_words a e s f fg T U Lf M) as (n & w & N & Gt & Wd). exists s, n, w. split; [exact Wt|]. split; [exact N|]. split; [exact Gt|]. rewrite (ground_words _ _ _ G). exact Wd. }
  rewrite Q2. rewrite W2, Wr in Q3. destruct ps as [|[p d] ps]; [discriminate|]. destruct (pairs_in _ _ Q1 p d (or_introl eq_refl)) as (s & n & w & Ws & N & Gt & Wd).
  cbn [map fst snd List.concat] in Q3 |- *. rewrite Ws in Q3. cbn [app] in Q3. injection Q3 as -> Q3. rewrite py_int_str in N. injection N as <-.
  assert (Wn : w = resign_word (resign_offer b)).
  { assert (C : resign_offer b = 1 \/ resign_offer b = 2 \/ resign_offer b = 3) by lia. destruct C as [C|[C|C]]; rewrite C in Gt |- *; cbn in Gt; injection Gt as <-; reflexivity. }
  subst w. destruct ps as [|[p' d'] ps]; [cbn; rewrite app_nil_r; exact Wd|]. destruct (pairs_in _ _ Q1 p' d' (or_intror (or_introl eq_refl))) as (s' & n' & w' & Ws' & _). cbn in Q3. rewrite Ws' in Q3. discriminate.
Qed.

(* ---- checking the conditions for given trees ---- *)
Definition sees (p : list elem) (n : string) : option value := match get_attr (map ehead (rev p)) (L n) with Ok v => Some v | Exc _ => None end.
Definition drawnb (p : list elem) : bool := match sees p "color" with Some _ => true | None => false end.
Definition barb (p : list elem) : bool := match get_attr (map ehead (rev p)) (L "image") with Exc AttributeError => true | _ => false end.
Definition roomyb (p : list elem) : bool :=
  negb (ends EChequer p) || drawnb p && match writing p, sees p "max_count" with
                                        | [s], Some (VInt m) => match py_int s with Ok n => n <=? m | Exc _ => true end
                                        | _, _ => false
                                        end.
Definition letteredb (k : ekind) (p : list elem) : bool :=
  negb (ends k p) || drawnb p && barb p && otruthy (sees p "font").
Definition styledb (style_ : string) (p : list elem) : bool :=
  negb (ends EDie p) || drawnb p && barb p && match sees p "diestyle" with Some (VStr s) => str_eqb s (L style_) | _ => false end.
Lemma sees_seen p n v : sees p n = Some v -> seen p n v.
Proof. unfold sees, seen. destruct (get_attr _ _); congruence. Qed.
Lemma drawnb_ok p : drawnb p = true -> visible p.
Proof. unfold drawnb. destruct (sees p "color") as [v|] eqn:E; [|discriminate]. intros _. exists v. right. apply sees_seen, E. Qed.
Lemma barb_ok p : barb p = true -> unpictured p.
Proof. unfold barb, unpictured, unset. destruct (get_attr _ _) as [|[]]; try discriminate. auto. Qed.
Lemma roomy_check t : forallb roomyb (paths [] t) = true -> all_roomy t.
Proof.
  rewrite forallb_forall. intros H p I E. specialize (H p I). unfold roomyb in H. rewrite E in H. cbn in H. apply andb_prop in H as (V & H). split; [apply drawnb_ok, V|].
  intros s n m W N M. rewrite W in H. unfold sees in H. unfold seen in M. rewrite M in H. rewrite N in H. lia.
Qed.
Lemma lettered_check k t : forallb (letteredb k) (paths [] t) = true -> all_lettered k t.
Proof.
  rewrite forallb_forall. intros H p I E. specialize (H p I). unfold letteredb in H. rewrite E in H. cbn in H. apply andb_prop in H as (H & F). apply andb_prop in H as (V & U).
  split; [apply drawnb_ok, V|]. split; [apply barb_ok, U|]. destruct (sees p "font") as [f|] eqn:S; [|discriminate]. exists f. split; [apply sees_seen, S|exact F].
Qed.
Lemma styled_check st t : forallb (styledb st) (paths [] t) = true -> all_styled st t.
Proof.
  rewrite forallb_forall. intros H p I E. specialize (H p I). unfold styledb in H. rewrite E in H. cbn in H. apply andb_prop in H as (H & F). apply andb_prop in H as (V & U).
  split; [apply drawnb_ok, V|]. split; [apply barb_ok, U|]. destruct (sees p "diestyle") as [[]|] eqn:S; try discriminate. apply sq in F as <-. apply sees_seen, S.
Qed.
Definition plain_tree (css : list rule) (b : board) (size : xy) : res elem :=
  let! t := board_tree b in let! t := style css t in set_mag t size.
Lemma plain_dressed css b size t : plain_tree css b size = Ok t -> dressed css b size t.
Proof.
  unfold plain_tree. destruct (board_tree b) as [t1|] eqn:B; cbn [bind]; [|discriminate]. destruct (style css t1) as [t2|] eqn:S; cbn [bind]; [|discriminate].
  intros M. exists t1, t2. auto.
Qed.
