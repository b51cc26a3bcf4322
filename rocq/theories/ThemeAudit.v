(* Checking a style sheet once and for all boards. *)
From Verif Require Import Py PyFacts Dict DictFacts UtilModel BoardModel ImageModel ImageSpec ImageCss ImageTree ImageBoard ImageMag ThemeModel ThemePath ThemeDraw ThemeScale ThemeTree ThemeSpec.
Open Scope string_scope.
Open Scope list_scope.
Open Scope Z_scope.

Lemma proper_tree b : proper b -> exists x, board_tree b = Ok (trunk b x) /\ extras_ok b x.
Proof.
  intros (S & R & C & D). assert (SO : sides_ok b) by (split; apply S; auto).
  destruct (proj2 (proj1 (board_tree_iff b SO)) D) as (t & T). rewrite board_tree_ok in * by exact SO.
  destruct (the_cubes b) as [[[m y] h]|] eqn:Ec; [|discriminate]. cbn [bind] in *. destruct (the_action b) as [[[[p s] f] g]|] eqn:Ea; [|discriminate]. cbn [bind] in *.
  eexists. split; [reflexivity|].
  assert (Cube : forall z k hs, 0 <= z -> In (bare_head ECube) hs -> leafy b k hs (cube_elem z)).
  { intros z k hs Z I. exists (bare_head ECube), (py_str_int z), 0. split; [reflexivity|]. split; [exact I|]. cbn. split; [reflexivity|]. eauto. }
  assert (Res : 1 <= resign_offer b <= 3 -> leafy b EField field_heads (resign_elem (resign_offer b))).
  { intros Z. exists (bare_head EResign), (py_str_int (resign_offer b)), 0. split; [reflexivity|]. split; [do 2 right; left; reflexivity|]. cbn. split; [reflexivity|].
    exists (resign_offer b). split; [lia|reflexivity]. }
  assert (Dice : not_rolled b = false -> Forall (leafy b EField field_heads) (dice_elems b)).
  { intros N. destruct R as [R|(R1 & R2)]; [unfold not_rolled in N; rewrite R in N; discriminate|]. repeat constructor.
    - exists (die_head "right"), (py_str_int (fst (rolled b))), 0. split; [reflexivity|]. split; [left; reflexivity|]. cbn. split; [reflexivity|]. eauto.
    - exists (die_head "left"), (py_str_int (snd (rolled b))), 0. split; [reflexivity|]. split; [right; left; reflexivity|]. cbn. split; [reflexivity|]. eauto. }
  assert (Z3 : zmem (resign_offer b) RESIGN_TYPES = true -> 1 <= resign_offer b <= 3).
  { rewrite zmem_In. unfold RESIGN_TYPES, RESIGN_SINGLE, RESIGN_GAMMON, RESIGN_BACKGAMMON. cbn [In]. lia. }
  unfold extras_ok. cbn [x_player x_says f_you f_him c_mid c_you c_him].
  assert (A : (p = you \/ p = him) /\ Forall (leafy b EField field_heads) f /\ Forall (leafy b EField field_heads) g).
  { unfold the_action in Ea. cbv zeta in Ea.
    repeat match type of Ea with (if ?c then _ else _) = _ => destruct c eqn:?Q end; try discriminate; injection Ea as <- <- <- <-;
    (split; [auto|]);
    (split; first [apply Dice; repeat match goal with H : _ && _ = true |- _ => apply andb_prop in H as (? & ?) end; destruct (not_rolled b); [discriminate|reflexivity] | repeat constructor]);
    try (apply Cube; [lia|do 3 right; left; reflexivity]).
    all: apply Res, Z3; repeat match goal with H : _ && _ = true |- _ => apply andb_prop in H as (? & ?) end; assumption. }
  destruct A as (A1 & A2 & A3). split; [exists p, (L s); auto|]. split; [exact A2|]. split; [exact A3|].
  unfold the_cubes in Ec. repeat match type of Ec with (if ?c then _ else _) = _ => destruct c eqn:?Q end; try discriminate; injection Ec as <- <- <-; repeat split; repeat constructor; apply Cube; try exact C; left; reflexivity.
Qed.

(* ---- texts no selector asks for ---- *)
Definition datas (rs : list rule) (k : ekind) : list str :=
  flat_map (fun r => match rev (pattern r) with
                     | s :: _ => if str_eqb (ename k) (s_element s) then match s_data s with Some d => [d] | None => [] end else []
                     | [] => [] end) rs.
Lemma sel_fresh s h a b : (forall d, s_data s = Some d -> str_eqb (ename (kind h)) (s_element s) = true -> d <> a /\ d <> b) ->
  sel_match s (Elem h [inr a]) = sel_match s (Elem h [inr b]).
Proof.
  intros F. unfold sel_match. cbn [ehead]. change (texts (Elem h [inr a])) with [a]. change (texts (Elem h [inr b])) with [b].
  destruct (s_data s) as [d|] eqn:D; [|reflexivity].
  destruct (str_eqb (ename (kind h)) (s_element s)) eqn:N.
  - destruct (F d eq_refl eq_refl) as (A & B). assert (Q : str_mem d [a] = str_mem d [b]).
    { destruct (str_mem d [a]) eqn:X; [apply str_mem_in in X as [->|[]]; contradiction|]. destruct (str_mem d [b]) eqn:Y; [apply str_mem_in in Y as [->|[]]; contradiction|reflexivity]. }
    rewrite Q. reflexivity.
  - replace (match s_name s with Some _ => false | None => false end) with false by (destruct (s_name s); reflexivity). destruct (s_value s); reflexivity.
Qed.
Lemma kind_one path h n v h' : apply_one path h n v = Ok h' -> kind h' = kind h.
Proof.
  unfold apply_one, set_attr. destruct (class_of (kind h) n) as [c|]; [|congruence]. cbv zeta.
  match goal with |- context [mkattr c (Some path) (VStr [])] => idtac end.
  destruct (parse _ _ v) as [u|]; cbn [bind]; [|discriminate]. destruct (is_acceptable _ u); [|discriminate]. intros H. injection H as <-. reflexivity.
Qed.
Lemma kind_block path items : forall h h', apply_block path h items = Ok h' -> kind h' = kind h.
Proof.
  induction items as [|[n v] items IH]; intros h h' H; cbn [apply_block] in H; [injection H as <-; reflexivity|].
  destruct (apply_one path h n v) as [h1|] eqn:E; [|discriminate]. cbn [bind] in H. apply IH in H. apply kind_one in E. congruence.
Qed.
Lemma kind_rule r anc e h' : rule_apply r (anc ++ [e]) = Ok h' -> kind h' = kind (ehead e).
Proof.
  unfold rule_apply. destruct (rule_match r (anc ++ [e])) as [m|]; [|discriminate]. cbn [bind]. rewrite last_head_snoc. cbn [bind]. destruct m; [|intros H; injection H as <-; reflexivity].
  destruct (apply_block _ _ _) as [h1|] eqn:E; [|discriminate]. cbn [bind]. intros H. injection H as <-. cbn [kind]. eapply kind_block, E.
Qed.
Lemma kind_rules rs : forall anc e h', apply_rules rs (anc ++ [e]) = Ok h' -> kind h' = kind (ehead e).
Proof.
  induction rs as [|r rs IH]; intros anc e h' H; cbn [apply_rules] in H; [rewrite last_head_snoc in H; injection H as <-; reflexivity|].
  destruct (rule_apply r (anc ++ [e])) as [h1|] eqn:E; [|discriminate]. cbn [bind] in H. rewrite set_last_snoc in H. apply IH in H. apply kind_rule in E. rewrite H. exact E.
Qed.
Lemma rules_fresh rs anc a b : forall h, ~ In a (datas rs (kind h)) -> ~ In b (datas rs (kind h)) ->
  apply_rules rs (anc ++ [Elem h [inr a]]) = apply_rules rs (anc ++ [Elem h [inr b]]).
Proof.
  induction rs as [|r rs IH]; intros h A B; cbn [apply_rules]; [rewrite !last_head_snoc; reflexivity|].
  unfold datas in A, B. cbn [flat_map] in A, B. rewrite in_app_iff in A, B.
  assert (Q : rule_apply r (anc ++ [Elem h [inr a]]) = rule_apply r (anc ++ [Elem h [inr b]])).
  { unfold rule_apply. assert (M : rule_match r (anc ++ [Elem h [inr a]]) = rule_match r (anc ++ [Elem h [inr b]])).
    { unfold rule_match. replace (match anc ++ [Elem h [inr a]] with [] => false | _ => true end) with true by (destruct anc; reflexivity).
      replace (match anc ++ [Elem h [inr b]] with [] => false | _ => true end) with true by (destruct anc; reflexivity).
      rewrite !rev_app_distr. cbn [rev app match_up]. destruct (rev (pattern r)) as [|s pat]; [reflexivity|].
      rewrite (sel_fresh s h a b); [reflexivity|]. intros d D N. rewrite N, D in A, B. cbn [In] in A, B. split; intros ->; [apply A|apply B]; auto. }
    rewrite M, !last_head_snoc. reflexivity. }
  rewrite Q. destruct (rule_apply r (anc ++ [Elem h [inr b]])) as [h1|] eqn:E; cbn [bind]; [|reflexivity]. rewrite !set_last_snoc.
  assert (K : kind h1 = kind h) by (apply kind_rule in E; exact E). unfold set_head. cbn [children]. apply IH; rewrite K; intros I; [apply A|apply B]; right; exact I.
Qed.

(* rules for elements of other kinds do nothing *)
Definition concerns (k : ekind) (r : rule) : bool := match rev (pattern r) with s :: _ => str_eqb (ename k) (s_element s) | [] => true end.
Lemma sel_other s e : str_eqb (ename (kind (ehead e))) (s_element s) = false -> sel_match s e = Ok false.
Proof.
  intros N. unfold sel_match. rewrite N. replace (match s_name s with Some _ => false | None => false end) with false by (destruct (s_name s); reflexivity).
  destruct (s_value s); cbn [bind]; destruct (s_data s); reflexivity.
Qed.
Lemma rules_concern rs anc : forall e, apply_rules rs (anc ++ [e]) = apply_rules (filter (concerns (kind (ehead e))) rs) (anc ++ [e]).
Proof.
  induction rs as [|r rs IH]; intros e; [reflexivity|]. cbn [filter apply_rules]. destruct (concerns (kind (ehead e)) r) eqn:C.
  - cbn [apply_rules]. destruct (rule_apply r (anc ++ [e])) as [h|] eqn:E; cbn [bind]; [|reflexivity]. rewrite set_last_snoc. apply kind_rule in E.
    replace (kind (ehead e)) with (kind (ehead (set_head e h))) by exact E. apply IH.
  - assert (Q : rule_apply r (anc ++ [e]) = Ok (ehead e)).
    { unfold concerns in C. unfold rule_apply, rule_match. replace (match anc ++ [e] with [] => false | _ => true end) with true by (destruct anc; reflexivity).
      destruct (rev (pattern r)) as [|s pat] eqn:R; [discriminate|]. destruct (pattern r) as [|s0 p0]; [discriminate|]. cbn [passert bind].
      rewrite rev_app_distr. cbn [rev app match_up]. rewrite sel_other by exact C. cbn [bind]. rewrite last_head_snoc. reflexivity. }
    rewrite Q. cbn [bind]. rewrite set_last_snoc. replace (set_head e (ehead e)) with e by (destruct e; reflexivity). apply IH.
Qed.

(* ---- the audit ---- *)
Definition fresh : str := L "?".
Definition counts (k : ekind) (t : str) : list Z :=
  match k with
  | EChequer => if str_eqb t fresh then zrange 1 16 else filter (fun n => str_eqb (py_str_int n) t) (zrange 1 16)
  | _ => [0]
  end.
(* the magnification is looked up at the root *)
Definition unscaled (h : head) : bool :=
  match class_of (kind h) (L "mag") with
  | Some c => is_inherit c && match dget str_eqb (attrs h) (L "mag") with None => true | Some _ => false end
  | None => false
  end.
Definition pass (w : Z) (allowed : ekind -> Z -> value -> bool) (up : list head) (k : ekind) (zone : ekind) (n : Z) : bool :=
  match sketch w up k n with Some fs => forallb (allowed zone n) fs | None => false end.
Definition pass_all (w : Z) (allowed : ekind -> Z -> value -> bool) (up : list head) (k : ekind) (zone : ekind) (ns : list Z) : bool := forallb (pass w allowed up k zone) ns.
Section Audit.
(* what is asked of every element: its heads from the element up, its kind, where it lies and the numbers of chequers it may have *)
Variables (rs : list rule) (ok : list head -> ekind -> ekind -> list Z -> bool).
Definition audit_leaf (zone : ekind) (up : list elem) (h : head) : bool :=
  let k := kind h in
  let rk := filter (concerns k) rs in
  let ds := datas rk k in
  negb (str_mem fresh ds) &&
  forallb (fun t => match apply_rules rk (up ++ [Elem h [inr t]]) with
                    | Ok h' => unscaled h' && ok (h' :: rev (map ehead up)) k zone (counts k t)
                    | Exc _ => false
                    end) (fresh :: nodup (list_eq_dec ascii_dec) ds).
Definition audit_elem (up : list elem) (e : elem) (next : list elem -> bool) : bool :=
  match apply_rules rs (up ++ [e]) with
  | Ok h => (match up with [] => true | _ => unscaled h end) && ok (h :: rev (map ehead up)) (kind h) (kind h) [0] && next (up ++ [Elem h (children e)])
  | Exc _ => false
  end.
Definition inked (up : list head) : bool := has_attr up "background" || has_attr up "image".
Definition plain_kind (k : ekind) : bool := match k with EMatch | EPosition | EBoard | ETop | EBottom | ECubeholder | EField | EHome | EBar | EPoint => true | _ => false end.
Definition survey (wd ht : Z) : bool :=
  (0 <? wd) && (0 <? ht) &&
  audit_elem [] root (fun up =>
    match up with
    | r :: _ =>
        match get_int [ehead r] "width", get_int [ehead r] "height" with Ok a, Ok c => (a =? wd) && (c =? ht) | _, _ => false end &&
        unscaled (ehead r)
    | [] => false
    end &&
    audit_elem up mt (fun up => forallb (audit_leaf EMatch up) match_heads) &&
    audit_elem up ps (fun up =>
      inked (rev (map ehead up)) &&
      forallb (fun z => audit_elem up (fst z) (fun up => forallb (audit_leaf (kind (ehead (fst z))) up) (snd z))) zones)).
End Audit.
Definition audit (rs : list rule) (w : Z) (allowed : ekind -> Z -> value -> bool) (wd ht : Z) : bool := (w =? Z.max wd ht) && survey rs (pass_all w allowed) wd ht.
