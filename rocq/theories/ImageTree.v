(* The element tree of a board. *)
From Verif Require Import Py PyFacts Dict DictFacts UtilModel BoardModel ImageModel ImageSpec ImageCss.
Open Scope string_scope.
Open Scope list_scope.
Open Scope Z_scope.

(* ---- the tree, written out ---- *)
Definition kid : Type := (elem + str)%type.
Definition bare (k : ekind) (kids : list kid) : elem := Elem (mkhead k [] []) kids.
Definition owned (k : ekind) (p : str) (kids : list kid) : elem := Elem (mkhead k [(L "player", mkattr Player None (VStr p))] []) kids.
Definition chequer (p : str) (n : Z) : list kid := if n =? 0 then [] else [inl (owned EChequer p [inr (py_str_int n)])].
Definition parity (i : Z) : str := if i mod 2 =? 0 then L "even" else L "odd".
Definition point_head (i : Z) : head := mkhead EPoint [(L "parity", mkattr Parity None (VStr (parity i)))] [].
Definition on_point (b : board) (i : Z) : list kid :=
  let y := chequer you (nth (Z.to_nat (i - 1)) (fst (position b)) 0) in
  let h := chequer him (nth (Z.to_nat (24 - i)) (snd (position b)) 0) in
  if i <=? 12 then y ++ h else h ++ y.
Definition point (b : board) (i : Z) : elem := Elem (point_head i) (inr (py_str_int i) :: on_point b i).
Definition total_of (l : list Z) : Z := zsum l.
Record extras := mkextras { x_player : option str; x_says : list str; f_you : list kid; f_him : list kid; c_mid : list kid; c_you : list kid; c_him : list kid }.
Definition action_elem (x : extras) : elem :=
  match x_player x with None => bare EAction (map inr (x_says x)) | Some p => owned EAction p (map inr (x_says x)) end.
Definition trunk (b : board) (x : extras) : elem :=
  bare EBoard
    [inl (bare EMatch [inl (action_elem x); inl (bare ELength [inr (py_str_int (match_length b))]); inl (bare ECrawford [inr (py_str_bool (crawford b))]);
                       inl (owned EScore you [inr (py_str_int (fst (score b)))]); inl (owned EScore him [inr (py_str_int (snd (score b)))])]);
     inl (bare EPosition
       ([inl (bare ETop []); inl (bare EBottom []); inl (bare ECubeholder (c_mid x)); inl (owned EField you (f_you x));
         inl (owned EHome you (chequer you (15 - total_of (fst (position b))) ++ c_you x));
         inl (owned EBar him (chequer him (nth 24 (snd (position b)) 0)))]
        ++ map (fun i => inl (point b i)) (zrange 1 25) ++
        [inl (owned EBar you (chequer you (nth 24 (fst (position b)) 0)));
         inl (owned EHome him (chequer him (15 - total_of (snd (position b))) ++ c_him x));
         inl (owned EField him (f_him x))]))].

(* ---- steps ---- *)
Lemma append_elem_ok e c : str_mem (ename (kind (ehead c))) (dtd_element (kind (ehead e))) = true -> append_elem e c = Ok (Elem (ehead e) (children e ++ [inl c])).
Proof. intros H. unfold append_elem. rewrite H. reflexivity. Qed.
Lemma add_chequers_ok e p n : str_mem (L "chequer") (dtd_element (kind (ehead e))) = true -> add_chequers e p n = Ok (Elem (ehead e) (children e ++ chequer p n)).
Proof.
  intros H. unfold add_chequers, chequer. destruct (n =? 0); [rewrite app_nil_r; destruct e; reflexivity|].
  change (leaf EChequer (player_kw p) (py_str_int n)) with (Ok (owned EChequer p [inr (py_str_int n)])). cbn [bind]. apply append_elem_ok. exact H.
Qed.
Definition bits (pos : list Z * list Z) (j : Z) (i : Z) : list kid :=
  (if i - 1 =? j then chequer you (nth (Z.to_nat (i - 1)) (fst pos) 0) else []) ++
  (if 24 - i =? j then chequer him (nth (Z.to_nat (i - 1)) (snd pos) 0) else []).
Definition points_ok (pts : list elem) : Prop := List.length pts = 24%nat /\ forall e, In e pts -> kind (ehead e) = EPoint.
Lemma upd_point_ok pts i p n : points_ok pts -> 0 <= i < 24 -> exists pts', upd_point pts i p n = Ok pts' /\ points_ok pts' /\
  forall j, nth_error pts' j = option_map (fun e => Elem (ehead e) (children e ++ if Z.of_nat j =? i then chequer p n else [])) (nth_error pts j).
Proof.
  intros (Len & K) B. unfold upd_point. assert (Bz : 0 <= i < zlen pts) by (unfold zlen; lia).
  rewrite (pyget_in pts i (bare EPoint [])) by exact Bz. cbn [bind]. set (e := nth (Z.to_nat i) pts (bare EPoint [])).
  assert (I : In e pts) by (apply nth_In; lia). rewrite add_chequers_ok by (rewrite (K e I); reflexivity). cbn [bind].
  rewrite (pyset_in pts i) by exact Bz. eexists. split; [reflexivity|]. split.
  - split; [rewrite list_set_length; exact Len|]. intros x J. apply In_nth_error in J as (k & J).
    rewrite nth_error_list_set in J by lia. destruct (Nat.eqb_spec k (Z.to_nat i)); [injection J as <-; cbn; apply K, I|]. apply K. eapply nth_error_In, J.
  - intros j. rewrite nth_error_list_set by lia. destruct (Nat.eqb_spec j (Z.to_nat i)) as [->|N].
    + rewrite (proj2 (Z.eqb_eq _ _)) by lia. assert (E : nth_error pts (Z.to_nat i) = Some e) by (apply nth_error_nth'; lia). rewrite E. reflexivity.
    + rewrite (proj2 (Z.eqb_neq _ _)) by lia. destruct (nth_error pts j) as [x|]; [|reflexivity]. cbn. rewrite app_nil_r. destruct x; reflexivity.
Qed.
Lemma set_points_ok l pos pts : List.length (fst pos) = 25%nat -> List.length (snd pos) = 25%nat -> points_ok pts -> (forall i, In i l -> 1 <= i <= 24) ->
  exists pts', set_points l pos pts = Ok pts' /\ points_ok pts' /\
  forall j, nth_error pts' j = option_map (fun e => Elem (ehead e) (children e ++ flat_map (bits pos (Z.of_nat j)) l)) (nth_error pts j).
Proof.
  intros L1 L2. revert pts. induction l as [|i l IH]; intros pts P B.
  - exists pts. split; [reflexivity|]. split; [exact P|]. intros j. cbn. destruct (nth_error pts j) as [x|]; [|reflexivity]. cbn. rewrite app_nil_r. destruct x; reflexivity.
  - assert (Bi : 1 <= i <= 24) by (apply B; left; reflexivity). cbn [set_points].
    rewrite (pyget_in (fst pos) (i - 1) 0) by (unfold zlen; lia). cbn [bind].
    destruct (upd_point_ok pts (i - 1) you (nth (Z.to_nat (i - 1)) (fst pos) 0) P) as (p1 & E1 & P1 & G1); [lia|]. rewrite E1. cbn [bind].
    rewrite (pyget_in (snd pos) (i - 1) 0) by (unfold zlen; lia). cbn [bind].
    destruct (upd_point_ok p1 (25 - i - 1) him (nth (Z.to_nat (i - 1)) (snd pos) 0) P1) as (p2 & E2 & P2 & G2); [lia|]. rewrite E2. cbn [bind].
    destruct (IH p2 P2) as (p3 & E3 & P3 & G3); [intros k J; apply B; right; exact J|]. exists p3. split; [exact E3|]. split; [exact P3|].
    intros j. rewrite G3, G2, G1. destruct (nth_error pts j) as [x|]; [|reflexivity]. cbn [option_map ehead children flat_map]. f_equal. f_equal.
    unfold bits at 2. rewrite <- !app_assoc. f_equal. rewrite (Z.eqb_sym (i - 1)). replace (25 - i - 1) with (24 - i) by lia. rewrite (Z.eqb_sym (24 - i)). reflexivity.
Qed.
Definition blank_point (i : Z) : elem := Elem (point_head i) [inr (py_str_int i)].
Definition blank : etree :=
  mketree (owned EScore you [], owned EScore him []) (bare ELength []) (bare ECrawford []) (bare EAction []) (map blank_point (zrange 1 25))
    (owned EHome you [], owned EHome him []) (owned EBar you [], owned EBar him []) (owned EField you [], owned EField him []) (bare ECubeholder []).
Lemma create_tree_ok : create_tree = Ok blank.
Proof. vm_compute. reflexivity. Qed.
Lemma nth_error_ext {X} (l m : list X) : (forall j, nth_error l j = nth_error m j) -> l = m.
Proof.
  revert m. induction l as [|x l IH]; intros [|y m] H; [reflexivity|discriminate (H 0%nat)|discriminate (H 0%nat)|].
  pose proof (H 0%nat) as H0. cbn in H0. injection H0 as ->. f_equal. apply IH. intros j. exact (H (S j)).
Qed.
Lemma set_points_board b : sides_ok b -> set_points (zrange 1 25) (position b) (map blank_point (zrange 1 25)) = Ok (map (point b) (zrange 1 25)).
Proof.
  intros (L1 & L2). destruct (set_points_ok (zrange 1 25) (position b) (map blank_point (zrange 1 25)) L1 L2) as (p & E & (Len & _) & G).
  - split; [reflexivity|]. intros e I. apply in_map_iff in I as (i & <- & _). reflexivity.
  - intros i I. apply In_zrange in I. lia.
  - rewrite E. f_equal. clear E. apply nth_error_ext.
    intros j. rewrite G. clear G.
    assert (J : (j < 24)%nat \/ (24 <= j)%nat) by lia. destruct J as [J|J].
    + do 24 (destruct j as [|j];
        [match goal with |- context[flat_map ?f ?l] => let v := eval cbv -[chequer nth app fst snd position] in (flat_map f l) in change (flat_map f l) with v end;
         cbn [app]; rewrite ?app_nil_r; reflexivity|]). lia.
    + rewrite (proj2 (nth_error_None _ j)) by exact J. rewrite (proj2 (nth_error_None _ j)) by exact J. reflexivity.
Qed.

Lemma reduce_add_ok l : l <> [] -> reduce_add l = Ok (zsum l).
Proof.
  destruct l as [|x l]; [intros N; contradiction|]. intros _. cbn [reduce_add]. f_equal. cbn [zsum fold_right].
  revert x. induction l as [|y l IH]; intros x; cbn; [lia|]. rewrite IH. cbn. lia.
Qed.
Definition set0 (b : board) (x : extras) : etree :=
  mketree (owned EScore you [inr (py_str_int (fst (score b)))], owned EScore him [inr (py_str_int (snd (score b)))])
    (bare ELength [inr (py_str_int (match_length b))]) (bare ECrawford [inr (py_str_bool (crawford b))]) (action_elem x) (map (point b) (zrange 1 25))
    (owned EHome you (chequer you (15 - total_of (fst (position b))) ++ c_you x), owned EHome him (chequer him (15 - total_of (snd (position b))) ++ c_him x))
    (owned EBar you (chequer you (nth 24 (fst (position b)) 0)), owned EBar him (chequer him (nth 24 (snd (position b)) 0)))
    (owned EField you (f_you x), owned EField him (f_him x)) (bare ECubeholder (c_mid x)).
Definition no_extras : extras := mkextras None [] [] [] [] [] [].
Lemma set_counts_ok b : sides_ok b -> set_counts blank b = Ok (set0 b no_extras).
Proof.
  intros S. pose proof S as (L1 & L2). unfold set_counts.
  cbn [t_score t_length t_crawford t_points t_bar t_home t_action t_field t_cubeholder blank fst snd].
  change (append_text (owned EScore you []) (py_str_int (fst (score b)))) with (Ok (owned EScore you [inr (py_str_int (fst (score b)))])).
  change (append_text (owned EScore him []) (py_str_int (snd (score b)))) with (Ok (owned EScore him [inr (py_str_int (snd (score b)))])).
  change (append_text (bare ELength []) (py_str_int (match_length b))) with (Ok (bare ELength [inr (py_str_int (match_length b))])).
  change (append_text (bare ECrawford []) (py_str_bool (crawford b))) with (Ok (bare ECrawford [inr (py_str_bool (crawford b))])).
  cbn [bind]. rewrite set_points_board by exact S. cbn [bind].
  rewrite (pyget_in (fst (position b)) 24 0) by (unfold zlen; lia). cbn [bind]. rewrite add_chequers_ok by reflexivity. cbn [bind].
  rewrite (pyget_in (snd (position b)) 24 0) by (unfold zlen; lia). cbn [bind]. rewrite add_chequers_ok by reflexivity. cbn [bind].
  rewrite reduce_add_ok by (intros N; rewrite N in L1; discriminate). cbn [bind]. rewrite add_chequers_ok by reflexivity. cbn [bind].
  rewrite reduce_add_ok by (intros N; rewrite N in L2; discriminate). cbn [bind]. rewrite add_chequers_ok by reflexivity. cbn [bind].
  unfold set0. cbn [c_you c_him c_mid f_you f_him no_extras]. rewrite !app_nil_r. reflexivity.
Qed.
Definition cube_elem (n : Z) : kid := inl (bare ECube [inr (py_str_int n)]).
Definition resign_elem (n : Z) : kid := inl (bare EResign [inr (py_str_int n)]).
Definition die_elem (w : string) (n : Z) : kid := inl (Elem (mkhead EDie [(L "id", mkattr IdAttr None (VStr (L w)))] []) [inr (py_str_int n)]).
Definition dice_elems (b : board) : list kid := [die_elem "right" (fst (rolled b)); die_elem "left" (snd (rolled b))].
Definition the_cubes (b : board) : res (list kid * list kid * list kid) :=
  if negb (doubled b) || (on_inner_action b =? on_action b) then
    if cube_owner b =? YOU then Ok ([], [cube_elem (cube_in_logarithm b)], [])
    else if cube_owner b =? HIM then Ok ([], [], [cube_elem (cube_in_logarithm b)])
    else if cube_owner b =? CENTER then Ok ([cube_elem (cube_in_logarithm b)], [], [])
    else Exc AssertionError
  else Ok ([], [], []).
Definition the_action (b : board) : res (str * string * list kid * list kid) :=
  let resigning := zmem (resign_offer b) RESIGN_TYPES in
  let inner := on_inner_action b in
  if (on_action b =? YOU) && not_rolled b && negb (doubled b) && (inner =? YOU) then Ok (you, "you to roll or double.", [], [])
  else if (on_action b =? YOU) && not_rolled b && negb (doubled b) && (inner =? HIM) && resigning then
    Ok (him, "him to accept your resignation or not.", [], [resign_elem (resign_offer b)])
  else if (on_action b =? YOU) && not_rolled b && doubled b && (inner =? HIM) then
    Ok (you, "you doubled. him to take or drop.", [], [cube_elem (cube_in_logarithm b + 1)])
  else if (on_action b =? YOU) && not_rolled b && doubled b && (inner =? YOU) then Ok (you, "you doubled. he took. you to roll.", [], [])
  else if (on_action b =? YOU) && negb (not_rolled b) then Ok (you, "you to move.", dice_elems b, [])
  else if (on_action b =? HIM) && not_rolled b && negb (doubled b) && (inner =? HIM) then Ok (him, "him to roll or double.", [], [])
  else if (on_action b =? HIM) && not_rolled b && negb (doubled b) && (inner =? YOU) && resigning then
    Ok (you, "you to accept his resignation or not.", [resign_elem (resign_offer b)], [])
  else if (on_action b =? HIM) && not_rolled b && doubled b && (inner =? YOU) then
    Ok (you, "he doubled. you to take or drop.", [cube_elem (cube_in_logarithm b + 1)], [])
  else if (on_action b =? HIM) && not_rolled b && doubled b && (inner =? HIM) then Ok (him, "he doubled. you took. him to roll.", [], [])
  else if (on_action b =? HIM) && negb (not_rolled b) then Ok (him, "him to move.", [], dice_elems b)
  else Exc AssertionError.
Lemma set_cube_ok b : set_cube (set0 b no_extras) b = let! c := the_cubes b in let '(m, y, h) := c in Ok (set0 b (mkextras None [] [] [] m y h)).
Proof.
  unfold set_cube, the_cubes. destruct (negb (doubled b) || (on_inner_action b =? on_action b)); [|reflexivity].
  change (the_cube (cube_in_logarithm b)) with (Ok (bare ECube [inr (py_str_int (cube_in_logarithm b))])). cbn [bind].
  destruct (cube_owner b =? YOU); [|destruct (cube_owner b =? HIM); [|destruct (cube_owner b =? CENTER); [|reflexivity]]]; cbn [bind].
  - unfold home_add0. rewrite append_elem_ok by reflexivity. cbn [bind]. unfold set0, put_home. cbn. rewrite !app_nil_r. reflexivity.
  - unfold home_add1. rewrite append_elem_ok by reflexivity. cbn [bind]. unfold set0, put_home. cbn. rewrite !app_nil_r. reflexivity.
  - reflexivity.
Qed.
Lemma say_ok b p s f g m y h : In p PLAYER_STRING -> say (set0 b (mkextras None [] f g m y h)) p s = Ok (set0 b (mkextras (Some p) [L s] f g m y h)).
Proof. intros [<-|[<-|[]]]; reflexivity. Qed.
Lemma set_action_ok b m y h : set_action (set0 b (mkextras None [] [] [] m y h)) b =
  let! a := the_action b in let '(p, s, f, g) := a in Ok (set0 b (mkextras (Some p) [L s] f g m y h)).
Proof.
  unfold set_action, the_action. cbv zeta. assert (Y : In you PLAYER_STRING) by (left; reflexivity). assert (H : In him PLAYER_STRING) by (right; left; reflexivity).
  repeat match goal with |- (if ?c then _ else _) = _ => destruct c end; cbn [bind]; try reflexivity; rewrite ?say_ok by assumption; cbn [bind]; try reflexivity.
Qed.
Lemma tree_of_ok b x : tree_of (set0 b x) = Ok (trunk b x).
Proof.
  unfold tree_of. change (new_elem EMatch []) with (Ok (bare EMatch [])). change (new_elem ETop []) with (Ok (bare ETop [])). change (new_elem EBottom []) with (Ok (bare EBottom [])).
  change (new_elem EPosition []) with (Ok (bare EPosition [])). change (new_elem EBoard []) with (Ok (bare EBoard [])). cbn [bind].
  assert (A : forall l e, forallb (fun c => str_mem (ename (kind (ehead c))) (dtd_element (kind (ehead e)))) l = true -> append_all e l = Ok (Elem (ehead e) (children e ++ map inl l))).
  { induction l as [|c l IH]; intros e F; [cbn; rewrite app_nil_r; destruct e; reflexivity|]. cbn in F. apply andb_prop in F as (F1 & F2). cbn [append_all].
    rewrite append_elem_ok by exact F1. cbn [bind]. rewrite IH by exact F2. cbn [ehead children map]. rewrite <- app_assoc. reflexivity. }
  rewrite A by (unfold set0, action_elem; cbn [t_action t_length t_crawford t_score fst snd]; destruct (x_player x); reflexivity). cbn [bind].
  rewrite A; [|reflexivity]. cbn [bind]. rewrite A by reflexivity. reflexivity.
Qed.
Lemma board_tree_ok b : sides_ok b -> board_tree b =
  let! c := the_cubes b in let! a := the_action b in
  let '(m, y, h) := c in let '(p, s, f, g) := a in Ok (trunk b (mkextras (Some p) [L s] f g m y h)).
Proof.
  intros S. unfold board_tree. rewrite create_tree_ok. cbn [bind]. unfold set_board. rewrite set_counts_ok by exact S. cbn [bind]. rewrite set_cube_ok.
  destruct (the_cubes b) as [[[m y] h]|e]; cbn [bind]; [|reflexivity]. rewrite set_action_ok.
  destruct (the_action b) as [[[[p s] f] g]|e]; cbn [bind]; [|reflexivity]. apply tree_of_ok.
Qed.

(* ---- looking at the tree ---- *)
Definition below (ks : list kid) : list elem := flat_map (fun c => match c with inl c => elements c | inr _ => [] end) ks.
Lemma elements_eq h ks : elements (Elem h ks) = Elem h ks :: below ks.
Proof.
  cbn [elements]. f_equal. unfold below. induction ks as [|[c|s] ks IH]; cbn; [reflexivity|rewrite IH; reflexivity|exact IH].
Qed.
Lemma below_app a b : below (a ++ b) = below a ++ below b.
Proof. unfold below. apply flat_map_app. Qed.
Lemma below_cons c ks : below (inl c :: ks) = elements c ++ below ks.
Proof. reflexivity. Qed.
Lemma filter_flat_map {X Y} (f : Y -> bool) (g : X -> list Y) l : filter f (flat_map g l) = flat_map (fun x => filter f (g x)) l.
Proof. induction l as [|x l IH]; cbn; [reflexivity|]. rewrite filter_app, IH. reflexivity. Qed.
Lemma below_points b l : below (map (fun i => inl (point b i)) l) = flat_map (fun i => point b i :: below (on_point b i)) l.
Proof. induction l as [|i l IH]; [reflexivity|]. cbn [map]. rewrite below_cons, IH. cbn [flat_map]. unfold point at 1. rewrite elements_eq. reflexivity. Qed.
Lemma elements_trunk b x : elements (trunk b x) =
  [trunk b x; match children (trunk b x) with inl m :: _ => m | _ => trunk b x end; action_elem x; bare ELength [inr (py_str_int (match_length b))]; bare ECrawford [inr (py_str_bool (crawford b))];
   owned EScore you [inr (py_str_int (fst (score b)))]; owned EScore him [inr (py_str_int (snd (score b)))];
   match children (trunk b x) with [_; inl p] => p | _ => trunk b x end; bare ETop []; bare EBottom []]
  ++ (bare ECubeholder (c_mid x) :: below (c_mid x)) ++ (owned EField you (f_you x) :: below (f_you x))
  ++ (owned EHome you (chequer you (15 - total_of (fst (position b))) ++ c_you x) :: below (chequer you (15 - total_of (fst (position b)))) ++ below (c_you x))
  ++ (owned EBar him (chequer him (nth 24 (snd (position b)) 0)) :: below (chequer him (nth 24 (snd (position b)) 0)))
  ++ flat_map (fun i => point b i :: below (on_point b i)) (zrange 1 25)
  ++ (owned EBar you (chequer you (nth 24 (fst (position b)) 0)) :: below (chequer you (nth 24 (fst (position b)) 0)))
  ++ (owned EHome him (chequer him (15 - total_of (snd (position b))) ++ c_him x) :: below (chequer him (15 - total_of (snd (position b)))) ++ below (c_him x))
  ++ (owned EField him (f_him x) :: below (f_him x)).
Proof.
  assert (Z0 : forall h ks, below (map inr ks) = [] /\ elements (Elem h (map inr ks)) = [Elem h (map inr ks)]).
  { intros h ks. assert (E : below (map inr ks) = []) by (induction ks as [|s ks IH]; [reflexivity|exact IH]). split; [exact E|]. rewrite elements_eq, E. reflexivity. }
  set (T := trunk b x). unfold T at 1, trunk, bare. rewrite elements_eq. rewrite !below_cons. rewrite !elements_eq. rewrite !below_cons.
  assert (A : elements (action_elem x) = [action_elem x]) by (unfold action_elem; destruct (x_player x); apply Z0). rewrite A.
  rewrite !below_app. rewrite !below_cons. unfold owned. rewrite !elements_eq. rewrite below_points. rewrite !below_app.
  change (below []) with (@nil elem). cbn [below flat_map app]. rewrite ?app_nil_r. cbn [app]. repeat (rewrite <- app_assoc; cbn [app]). reflexivity.
Qed.

Definition extra_kind (k : ekind) : Prop := k = ECube \/ k = EDie \/ k = EResign.
Definition ok_extra (l : list kid) : Prop := forall c, In c l -> exists k a s, extra_kind k /\ c = inl (Elem (mkhead k a []) [inr s]).
Definition ok_extras (x : extras) : Prop := ok_extra (f_you x) /\ ok_extra (f_him x) /\ ok_extra (c_mid x) /\ ok_extra (c_you x) /\ ok_extra (c_him x).
(* predicates that look at the kind first *)
Definition only (f : elem -> bool) (k : ekind) : Prop := forall h ks, f (Elem h ks) = true -> kind h = k.
Lemma of_kind_eq k h ks : of_kind k (Elem h ks) = true <-> kind h = k.
Proof. unfold of_kind. cbn [ehead]. split; [|intros ->; apply sq; reflexivity]. intros H. apply sq in H. destruct (kind h), k; (reflexivity || discriminate H). Qed.
Lemma only_kind k : only (of_kind k) k.
Proof. intros h ks H. apply of_kind_eq in H. exact H. Qed.
Lemma only_and k g : only (fun e => of_kind k e && g e) k.
Proof. intros h ks H. apply andb_prop in H as (H & _). apply of_kind_eq in H. exact H. Qed.
Lemma filter_none {X} (f : X -> bool) l : (forall x, In x l -> f x = false) -> filter f l = [].
Proof. induction l as [|x l IH]; intros H; [reflexivity|]. cbn. rewrite (H x) by (left; reflexivity). apply IH. intros y I. apply H. right. exact I. Qed.
Lemma below_extra f k l : ok_extra l -> only f k -> ~ extra_kind k -> filter f (below l) = [].
Proof.
  intros O F N. apply filter_none. intros e I. unfold below in I. apply in_flat_map in I as (c & I & J). destruct (O c I) as (k' & a & s & E & ->).
  cbn in J. destruct J as [<-|[]]. destruct (f _) eqn:Q; [|reflexivity]. apply F in Q. cbn in Q. congruence.
Qed.
Lemma below_chequer f k p n : only f k -> k <> EChequer -> filter f (below (chequer p n)) = [].
Proof.
  intros F N. unfold chequer. destruct (n =? 0); [reflexivity|]. cbn. destruct (f _) eqn:Q; [|reflexivity]. apply F in Q. cbn in Q. congruence.
Qed.
Lemma below_on_point f k b i : only f k -> k <> EChequer -> filter f (below (on_point b i)) = [].
Proof.
  intros F N. unfold on_point. destruct (i <=? 12); rewrite below_app, filter_app, !(below_chequer f k) by assumption; reflexivity.
Qed.
Lemma points_none f k b : only f k -> k <> EChequer -> k <> EPoint -> filter f (flat_map (fun i => point b i :: below (on_point b i)) (zrange 1 25)) = [].
Proof.
  intros F N M. apply filter_none. intros e I. apply in_flat_map in I as (i & _ & [<-|I]).
  - destruct (f (point b i)) eqn:Q; [|reflexivity]. apply F in Q. cbn in Q. congruence.
  - destruct (f e) eqn:Q; [|reflexivity]. assert (J : In e (filter f (below (on_point b i)))) by (apply filter_In; split; assumption).
    rewrite (below_on_point f k) in J by assumption. destruct J.
Qed.
(* one container *)
Ltac sift1 := match goal with |- context[filter ?f (?a :: ?l)] =>
  let v := eval cbv in (f a) in
  match v with true => change (filter f (a :: l)) with (a :: filter f l) | false => change (filter f (a :: l)) with (filter f l) end end.
Ltac container F K :=
  rewrite elements_trunk; unfold action_elem; cbn [x_player x_says f_you f_him c_mid c_you c_him]; rewrite !filter_app;
  rewrite (points_none _ K) by (exact F || discriminate);
  repeat (sift1; rewrite ?filter_app; rewrite ?(below_chequer _ K) by (exact F || discriminate); rewrite ?(below_extra _ K) by (assumption || exact F || (intros [E|[E|E]]; discriminate)));
  reflexivity.
Ltac places K :=
  intros (O1 & O2 & O3 & O4 & O5);
  match goal with x : extras |- _ => destruct x as [[pl|] ? ? ? ? ? ?] end; cbn [f_you f_him c_mid c_you c_him] in *;
  (intros [->| ->]; match goal with b : board |- _ => change (half b YOU) with (fst (position b)) || change (half b HIM) with (snd (position b)) || idtac end; [change (name_of YOU) with you|change (name_of HIM) with him]);
  match goal with |- filter ?f _ = _ => let F := fresh "F" in assert (F : only f K) by apply only_and; container F K end.
Lemma find_bar b x p : ok_extras x -> player_no p -> filter (is_bar (name_of p)) (elements (trunk b x)) =
  [owned EBar (name_of p) (chequer (name_of p) (nth 24 (half b p) 0))].
Proof. places EBar. Qed.
Lemma find_home b x p : ok_extras x -> player_no p -> filter (is_home (name_of p)) (elements (trunk b x)) =
  [owned EHome (name_of p) (chequer (name_of p) (15 - zsum (half b p)) ++ if p =? YOU then c_you x else c_him x)].
Proof. places EHome. Qed.
Lemma find_field b x p : ok_extras x -> player_no p -> filter (is_field (name_of p)) (elements (trunk b x)) =
  [owned EField (name_of p) (if p =? YOU then f_you x else f_him x)].
Proof. places EField. Qed.
Ltac kinds K :=
  intros (O1 & O2 & O3 & O4 & O5);
  match goal with x : extras |- _ => destruct x as [[pl|] ? ? ? ? ? ?] end; cbn [f_you f_him c_mid c_you c_him] in *;
  match goal with |- filter ?f _ = _ => let F := fresh "F" in assert (F : only f K) by apply only_kind; container F K end.
Lemma find_middle b x : ok_extras x -> filter (of_kind ECubeholder) (elements (trunk b x)) = [bare ECubeholder (c_mid x)].
Proof. kinds ECubeholder. Qed.
Lemma find_score b x : ok_extras x -> filter (of_kind EScore) (elements (trunk b x)) =
  [owned EScore you [inr (py_str_int (fst (score b)))]; owned EScore him [inr (py_str_int (snd (score b)))]].
Proof. kinds EScore. Qed.
Lemma find_length b x : ok_extras x -> filter (of_kind ELength) (elements (trunk b x)) = [bare ELength [inr (py_str_int (match_length b))]].
Proof. kinds ELength. Qed.
Lemma find_crawford b x : ok_extras x -> filter (of_kind ECrawford) (elements (trunk b x)) = [bare ECrawford [inr (py_str_bool (crawford b))]].
Proof. kinds ECrawford. Qed.
Lemma find_action b x : ok_extras x -> filter (of_kind EAction) (elements (trunk b x)) = [action_elem x].
Proof. kinds EAction. Qed.
Lemma find_extra b x k : extra_kind k -> filter (of_kind k) (elements (trunk b x)) =
  filter (of_kind k) (below (c_mid x)) ++ filter (of_kind k) (below (f_you x)) ++ filter (of_kind k) (below (c_you x)) ++ filter (of_kind k) (below (c_him x)) ++ filter (of_kind k) (below (f_him x)).
Proof.
  intros E. pose proof (only_kind k) as F. assert (N1 : k <> EChequer) by (intros ->; destruct E as [E|[E|E]]; discriminate).
  assert (N2 : k <> EPoint) by (intros ->; destruct E as [E|[E|E]]; discriminate).
  destruct x as [[pl|] ? ? ? ? ? ?]; rewrite elements_trunk; unfold action_elem; cbn [x_player x_says f_you f_him c_mid c_you c_him]; rewrite !filter_app;
  rewrite (points_none _ k) by assumption;
  destruct E as [->|[->| ->]]; repeat (sift1; rewrite ?filter_app; rewrite ?(below_chequer _ _) with (1 := F) by assumption); reflexivity.
Qed.
Lemma py_str_inj i j : py_str_int i = py_str_int j -> i = j.
Proof. intros H. apply (f_equal py_int) in H. rewrite !py_int_str in H. congruence. Qed.
Lemma texts_chequer p n : flat_map (fun c : kid => match c with inl _ => [] | inr s => [s] end) (chequer p n) = [].
Proof. unfold chequer. destruct (n =? 0); reflexivity. Qed.
