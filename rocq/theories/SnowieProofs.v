From Verif Require Import Py PyFacts Re ReFacts UtilModel UtilProofs SnowieModel SnowieSpec.

(* ---- the order of lines ---- *)
Definition upd (prev : option str) (x : str) : option str := match kind_of x with Results => prev | _ => Some x end.
Fixpoint okl (prev : option str) (l : list str) : Prop :=
  match l with [] => True | x :: l' => follows prev x /\ okl (upd prev x) l' end.
Lemma last_line_app b : forall a, last_line (a ++ b) = match last_line b with Some y => Some y | None => last_line a end.
Proof.
  induction a as [|x a IH]; cbn; [destruct (last_line b); auto|]. rewrite IH.
  destruct (last_line b); auto.
Qed.
Lemma last_line_snoc a x : last_line (a ++ [x]) = upd (last_line a) x.
Proof. rewrite last_line_app. cbn. unfold upd. destruct (kind_of x); auto. Qed.
Lemma okl_iff : forall l pre, okl (last_line pre) l <->
  (forall b x a, l = b ++ x :: a -> follows (last_line (pre ++ b)) x).
Proof.
  induction l as [|x l IH]; intros pre; cbn.
  - split; auto. intros _ b x a E. destruct b; discriminate.
  - rewrite <- last_line_snoc, IH. split.
    + intros [F R] b y a E. destruct b as [|z b]; cbn in E.
      * injection E as <- <-. rewrite app_nil_r. auto.
      * injection E as <- ->. specialize (R b y a eq_refl). rewrite <- app_assoc in R. auto.
    + intros H. split.
      * specialize (H [] x l eq_refl). rewrite app_nil_r in H. auto.
      * intros b y a ->. rewrite <- app_assoc. apply (H (x :: b) y a eq_refl).
Qed.
Lemma okl_well l : okl None l <-> well_ordered l.
Proof. change None with (last_line []). rewrite okl_iff. reflexivity. Qed.

Definition inv (prev : option str) (lv : linev) : Prop :=
  state lv = option_map kind_of prev /\
  match prev with
  | None => True
  | Some p => kind_of p <> Results /\ kind_of p <> Bad /\ (kind_of p = Moves -> nthmove p = Ok (count lv))
  end.
Lemma parse_step prev lv x : inv prev lv ->
  match parse lv x with
  | (lv', Ok _) => follows prev x /\ inv (upd prev x) lv'
  | (lv', Exc e) => e = ValueError /\ ~ follows prev x
  end.
Proof.
  intros [S I]. unfold parse, statevalidate, follows, upd, inv. rewrite S.
  destruct prev as [p|]; cbn in S |- *.
  - destruct I as (NR & NB & CM).
    destruct (kind_of x) eqn:KX; destruct (kind_of p) eqn:KP; try congruence; cbn;
      repeat match goal with |- _ /\ _ => split end; auto; try congruence; try discriminate;
      try (intros (q & E & H); injection E as <-; rewrite ?KP in H; intuition congruence);
      try (intros (q & E & H); injection E as <-; rewrite ?KP in H; destruct H as [[H _]|(? & H & _)]; congruence);
      try (intros E; discriminate);
      try (eexists; split; [reflexivity|rewrite ?KP; auto; fail]).
    { destruct (nthmove x) as [n|e] eqn:N; cbn [bind count].
      - change (match n with Z.pos q => (1 =? q)%positive | _ => false end) with (1 =? n). destruct (Z.eqb_spec 1 n).
        + subst n. split; [exists p; rewrite KP; auto|]. rewrite KX. repeat split; try congruence.
        + split; auto. intros (q & E & H). injection E as <-. rewrite KP in H. destruct H as [[_ H]|(? & H & _)]; congruence.
      - split; [exact (py_int_error _ _ N)|]. intros (q & E & H). injection E as <-. rewrite KP in H. destruct H as [[_ H]|(? & H & _)]; congruence. }
    specialize (CM eq_refl).
    destruct (nthmove x) as [n|e] eqn:N; cbn.
    + destruct (Z.eqb_spec (count lv + 1) n); [subst; split|split; auto].
      * eexists; split; [reflexivity|]. right. exists (count lv). auto.
      * repeat split; try congruence.
      * intros (q & E & H). injection E as <-. rewrite KP in H. destruct H as [[H _]|(m & _ & H1 & H2)]; congruence.
    + split; [exact (py_int_error _ _ N)|]. intros (q & E & H). injection E as <-. destruct H as [[_ H]|(m & _ & _ & H)]; congruence.
  - destruct (kind_of x) eqn:KX; cbn; repeat match goal with |- _ /\ _ => split end; auto; try congruence; try discriminate;
      intros (q & E & _); discriminate.
Qed.

(* ---- the validator ---- *)
Lemma validate_spec : forall f v prev, inv prev (line_v v) ->
  match snd (validate v f) with
  | Ok h => okl prev f /\ h = hashed v ++ List.concat f /\
            (maxsize v = 0 \/ f = [] \/ size v + zlen (List.concat f) < maxsize v)
  | Exc e => e = ValueError /\ ~ (okl prev f /\ (maxsize v = 0 \/ f = [] \/ size v + zlen (List.concat f) < maxsize v))
  end.
Proof.
  induction f as [|x f IH]; intros v prev I; cbn [validate].
  - cbn. rewrite app_nil_r. auto.
  - unfold feed. pose proof (parse_step _ _ x I) as P. destruct (parse (line_v v) x) as [lv [[]|e]]; cbn.
    + destruct P as [F I']. cbn [List.concat]. rewrite zlen_app.
      pose proof (zlen_nonneg (List.concat f)) as ZN.
      destruct (Z.eqb_spec (maxsize v) 0) as [M|M]; cbn.
      * specialize (IH (mkvalidator (hashed v ++ x) lv (size v + zlen x) (maxsize v)) _ I').
        cbn in IH. destruct (snd _) as [h|e].
        -- destruct IH as (A & B & C). rewrite B, <- app_assoc. auto.
        -- destruct IH as [E N]. split; auto. intros ((_ & A) & _). apply N. auto.
      * destruct (Z.leb_spec (maxsize v) (size v + zlen x)); cbn.
        -- split; auto. intros (_ & [B|[B|B]]); [lia|discriminate|lia].
        -- specialize (IH (mkvalidator (hashed v ++ x) lv (size v + zlen x) (maxsize v)) _ I').
           cbn in IH. destruct (snd _) as [h|e].
           ++ destruct IH as (A & B & C). rewrite B, <- app_assoc. repeat split; auto.
              right; right. destruct C as [C|[C|C]]; [lia| |lia]. subst f. cbn in *. unfold zlen in *. cbn in *. lia.
           ++ destruct IH as [E N]. split; auto. intros ((_ & A) & B). apply N. split; auto.
              right. right. destruct B as [B|[B|B]]; [lia|discriminate|lia].
    + destruct P as [-> N]. split; auto. intros ((A & _) & _). auto.
Qed.
Lemma inv0 : inv None new_linev.
Proof. split; cbn; auto. Qed.
Lemma limit_iff max lines :
  limit_ok max lines <->
  (maxsize (new_validator max) = 0 \/ lines = [] \/ size (new_validator max) + zlen (List.concat lines) < maxsize (new_validator max)).
Proof.
  unfold limit_ok. destruct max as [m|]; cbn [maxsize size new_validator]; [|tauto].
  destruct m; cbn [Z.add]; try tauto; split; try tauto; intros [H|H]; auto; discriminate.
Qed.
Lemma validates_iff max lines h :
  validates max lines = Ok h <-> h = List.concat lines /\ well_ordered lines /\ limit_ok max lines.
Proof.
  unfold validates. pose proof (validate_spec lines (new_validator max) None inv0) as H.
  rewrite limit_iff, <- okl_well. destruct (snd _) as [h'|e].
  - destruct H as (A & B & C). cbn in B. split; [intros E; injection E as <-; auto|intros (-> & _); subst; auto].
  - destruct H as [_ N]. split; [discriminate|]. intros (_ & H). tauto.
Qed.
Lemma validates_error max lines e : validates max lines = Exc e -> e = ValueError.
Proof.
  unfold validates. pose proof (validate_spec lines (new_validator max) None inv0) as H.
  destruct (snd _) as [h'|e']; [discriminate|]. intros E; injection E as <-. tauto.
Qed.
Lemma order_partial : forall lines,
  (validates None lines = Ok (List.concat lines) <-> well_ordered lines) /\
  (~ well_ordered lines -> validates None lines = Exc ValueError) /\
  (well_ordered lines -> forall x rest, lines = x :: rest -> kind_of x <> Results -> kind_of x <> Empty -> kind_of x = MatchLength).
Proof.
  intros lines. split; [|split].
  - rewrite validates_iff. cbn. tauto.
  - intros N. destruct (validates None lines) as [h|e] eqn:E; [|rewrite (validates_error _ _ _ E); auto].
    rewrite validates_iff in E. tauto.
  - intros W x rest -> NR NE. specialize (W [] x rest eq_refl). unfold follows in W. cbn in W.
    destruct (kind_of x); try congruence; try contradiction; destruct W as (p & E & _); discriminate.
Qed.
Definition headless : list str := [L "
"; L " Game 1
"].
Lemma order_refuted : exists lines, (exists h, validates None lines = Ok h) /\
  (exists g, In g lines /\ kind_of g = GameHeader) /\ (forall m, In m lines -> kind_of m <> MatchLength).
Proof.
  exists headless. split; [|split].
  - eexists. vm_compute. reflexivity.
  - exists (L " Game 1
"). split; [right; left; reflexivity|vm_compute; reflexivity].
  - intros m [<-|[<-|[]]]; vm_compute; discriminate.
Qed.

(* how much is read *)
Lemma consumed_spec : forall f v, exists k,
  hashed (fst (validate v f)) = hashed v ++ List.concat (firstn k f) /\
  (forall j, (0 < j < k)%nat -> maxsize v = 0 \/ size v + zlen (List.concat (firstn j f)) < maxsize v).
Proof.
  induction f as [|x f IH]; intros v; cbn [validate].
  - exists 0%nat. cbn. rewrite app_nil_r. split; auto. intros; lia.
  - unfold feed. destruct (parse (line_v v) x) as [lv [[]|e]]; cbn [maxsize size].
    + destruct (_ && _) eqn:B.
      * exists 1%nat. cbn. rewrite app_nil_r. split; auto. intros; lia.
      * destruct (IH (mkvalidator (hashed v ++ x) lv (size v + zlen x) (maxsize v))) as (k & H & N).
        exists (S k). rewrite H. cbn [hashed firstn List.concat maxsize size] in *. rewrite <- app_assoc. split; auto.
        intros j J. destruct j as [|[|j]]; [lia| |].
        -- cbn. rewrite app_nil_r. destruct (Z.eqb_spec (maxsize v) 0); auto. right.
           cbn in B. apply Z.leb_gt in B. lia.
        -- destruct (N (S j) ltac:(lia)) as [Z|Z]; auto. right. cbn [firstn List.concat] in *. rewrite !zlen_app in *. lia.
    + exists 1%nat. cbn. rewrite app_nil_r. split; auto. intros; lia.
Qed.
Lemma size_limit : forall max lines,
  (forall h, validates max lines = Ok h <-> h = List.concat lines /\ well_ordered lines /\ limit_ok max lines) /\
  (forall e, validates max lines = Exc e -> e = ValueError) /\
  (exists k, consumed max lines = List.concat (firstn k lines) /\
             forall j, (0 < j < k)%nat -> limit_ok max (firstn j lines)).
Proof.
  intros max lines. split; [|split].
  - intros h. apply validates_iff.
  - intros e. apply validates_error.
  - destruct (consumed_spec lines (new_validator max)) as (k & H & N). exists k. split; auto.
    intros j J. apply limit_iff. destruct (N j J); auto.
Qed.

(* ---- chop ---- *)
Lemma splitlines_concat : forall n s cur, (List.length s <= n)%nat -> List.concat (splitlines s cur) = cur ++ s.
Proof.
  induction n as [|n IH]; intros s cur L.
  - destruct s; [|cbn in L; lia]. cbn. destruct cur; cbn; rewrite ?app_nil_r; auto.
  - destruct s as [|c s]; [cbn; destruct cur; cbn; rewrite ?app_nil_r; auto|].
    cbn in L. cbn [splitlines]. destruct (Ascii.eqb c LF).
    + cbn [List.concat]. rewrite IH by lia. rewrite <- app_assoc. auto.
    + destruct (Ascii.eqb c CR).
      * destruct s as [|d s]; [cbn; rewrite app_nil_r; auto|]. cbn in L. destruct (Ascii.eqb d LF).
        -- cbn [List.concat]. rewrite IH by lia. rewrite <- app_assoc. auto.
        -- cbn [List.concat]. rewrite IH by (cbn; lia). rewrite <- app_assoc. auto.
      * rewrite IH by lia. rewrite <- app_assoc. auto.
Qed.
Lemma chop_sound : forall lines lv prev m xs f cs, inv prev lv -> chop_lines lines lv m xs f = Ok cs -> okl prev lines.
Proof.
  induction lines as [|x lines IH]; intros lv prev m xs f cs I H; cbn [chop_lines okl] in *; auto.
  pose proof (parse_step _ _ x I) as P. destruct (parse lv x) as [lv' [[]|e]]; cbn in H; [|discriminate].
  destruct P as [F I']. split; auto.
  destruct (is_kind MatchLength (state lv')); [eapply IH; eauto|].
  destruct (is_kind Empty (state lv')); [eapply IH; eauto|].
  destruct (is_kind GameHeader (state lv')); [|eapply IH; eauto].
  destruct f; [eapply IH; eauto|]. destruct (joined m xs); cbn in H; [|discriminate].
  destruct (chop_lines lines lv' m [x] false) eqn:E; cbn in H; [|discriminate]. eapply IH; eauto.
Qed.
Fixpoint rok (prev : option str) (l : list str) : Prop :=
  match l with
  | [] => True
  | x :: l' => (kind_of x = Results -> exists p, prev = Some p /\ kind_of p = Moves) /\ rok (upd prev x) l'
  end.
Lemma rok_iff : forall l pre, rok (last_line pre) l <->
  (forall b x a, l = b ++ x :: a -> kind_of x = Results -> exists p, last_line (pre ++ b) = Some p /\ kind_of p = Moves).
Proof.
  induction l as [|x l IH]; intros pre; cbn.
  - split; auto. intros _ b x a E. destruct b; discriminate.
  - rewrite <- last_line_snoc, IH. split.
    + intros [F R] b y a E. destruct b as [|z b]; cbn in E.
      * injection E as <- <-. rewrite app_nil_r. auto.
      * injection E as <- ->. specialize (R b y a eq_refl). rewrite <- app_assoc in R. auto.
    + intros H. split.
      * specialize (H [] x l eq_refl). rewrite app_nil_r in H. auto.
      * intros b y a ->. rewrite <- app_assoc. apply (H (x :: b) y a eq_refl).
Qed.
Definition chunk (ml : str) (g : list str) : str := ml ++ [LF] ++ List.concat g.

(* once the first game has begun: xs is the game being read *)
Lemma chop_games ml : forall lines lv prev xs, inv prev lv -> (exists p, prev = Some p) -> okl prev lines -> rok prev lines -> game xs ->
  exists games, chop_lines lines lv (Some ml) xs false = Ok (map (chunk ml) games) /\
    List.concat games = xs ++ filter not_empty lines /\ Forall game games.
Proof.
  induction lines as [|x lines IH]; intros lv prev xs I NP O R G; cbn [chop_lines okl rok filter] in *.
  - exists [xs]. cbn. rewrite !app_nil_r. auto.
  - pose proof (parse_step _ _ x I) as P. destruct (parse lv x) as [lv' [[]|e]]; [|tauto]. cbn [bind].
    destruct O as [F O], R as [R1 R]. destruct P as [_ I'].
    assert (ST : state lv' = option_map kind_of (upd prev x)) by (destruct I'; auto).
    assert (NP' : exists p, upd prev x = Some p) by (unfold upd; destruct (kind_of x); eauto).
    unfold not_empty. rewrite ST. unfold upd in *. destruct NP as (p0 & ->).
    destruct (kind_of x) eqn:KX; cbn [option_map is_kind kind_eqb]; rewrite ?KX; cbn [kind_eqb negb].
    + apply (IH lv' (Some x)); auto.
    + unfold follows in F. rewrite KX in F. discriminate.
    + destruct (IH lv' (Some x) [x] I' NP' O R) as (gs & H1 & H2 & H3).
      { exists x, []. auto. }
      rewrite H1. cbn. exists (xs :: gs). cbn. rewrite H2. auto.
    + destruct (IH lv' (Some x) (xs ++ [x]) I' NP' O R) as (gs & H1 & H2 & H3).
      { destruct G as (h & r & -> & K & FA). exists h, (r ++ [x]). repeat split; auto. rewrite Forall_app. split; auto. constructor; auto. congruence. }
      exists gs. rewrite H2, <- app_assoc. auto.
    + destruct (IH lv' (Some x) (xs ++ [x]) I' NP' O R) as (gs & H1 & H2 & H3).
      { destruct G as (h & r & -> & K & FA). exists h, (r ++ [x]). repeat split; auto. rewrite Forall_app. split; auto. constructor; auto. congruence. }
      exists gs. rewrite H2, <- app_assoc. auto.
    + destruct (R1 eq_refl) as (p & E & K). injection E as ->. rewrite K. cbn.
      destruct (IH lv' (Some p) (xs ++ [x]) I' NP' O R) as (gs & H1 & H2 & H3).
      { destruct G as (h & r & -> & K' & FA). exists h, (r ++ [x]). repeat split; auto. rewrite Forall_app. split; auto. constructor; auto. congruence. }
      exists gs. rewrite H2, <- app_assoc. auto.
    + unfold follows in F. rewrite KX in F. contradiction.
Qed.
(* between the match length and the first game *)
Lemma chop_first ml : forall lines lv p, inv (Some p) lv -> (kind_of p = MatchLength \/ kind_of p = Empty) ->
  okl (Some p) lines -> rok (Some p) lines ->
  match filter not_empty lines with
  | [] => chop_lines lines lv (Some ml) [] true = Ok [chunk ml []]
  | _ => exists games, chop_lines lines lv (Some ml) [] true = Ok (map (chunk ml) games) /\
           List.concat games = filter not_empty lines /\ Forall game games
  end.
Proof.
  induction lines as [|x lines IH]; intros lv p I K O R; cbn [chop_lines okl rok filter] in *.
  - reflexivity.
  - pose proof (parse_step _ _ x I) as P. destruct (parse lv x) as [lv' [[]|e]]; [|tauto]. cbn [bind].
    destruct O as [F O], R as [R1 R]. destruct P as [_ I'].
    assert (ST : state lv' = option_map kind_of (upd (Some p) x)) by (destruct I'; auto).
    unfold not_empty. rewrite ST. unfold upd in *.
    destruct (kind_of x) eqn:KX; cbn [option_map is_kind kind_eqb]; rewrite ?KX; cbn [kind_eqb negb].
    + apply (IH lv' x); auto.
    + unfold follows in F. rewrite KX in F. discriminate.
    + destruct (chop_games ml lines lv' (Some x) [x] I' ltac:(eauto) O R) as (gs & H1 & H2 & H3).
      { exists x, []. auto. }
      exists gs. auto.
    + unfold follows in F. rewrite KX in F. destruct F as (q & E & K'). injection E as <-. intuition congruence.
    + unfold follows in F. rewrite KX in F. destruct F as (q & E & K'). injection E as <-. destruct K' as [[K' _]|(n & K' & _)]; intuition congruence.
    + destruct (R1 eq_refl) as (q & E & K'). injection E as <-. intuition congruence.
    + unfold follows in F. rewrite KX in F. contradiction.
Qed.
Lemma chop_partial : forall txt,
  List.concat (splitlines txt []) = txt /\
  (forall cs, chop txt = Ok cs -> well_ordered (splitlines txt [])) /\
  (forall ml rest, splitlines txt [] = ml :: rest -> kind_of ml = MatchLength ->
     well_ordered (ml :: rest) -> results_after_moves (ml :: rest) ->
     exists games,
       chop txt = Ok (map (fun g => ml ++ [LF] ++ List.concat g) games) /\
       List.concat games = filter not_empty rest /\
       (games = [[]] \/ Forall game games)).
Proof.
  intros txt. split; [|split].
  - apply (splitlines_concat (List.length txt)). lia.
  - intros cs H. apply okl_well. eapply chop_sound; [apply inv0|exact H].
  - intros ml rest E K W R. unfold chop. rewrite E. cbn [chop_lines].
    apply okl_well in W. pose proof (proj2 (rok_iff (ml :: rest) []) R) as R'. cbn [okl rok last_line] in W, R'.
    destruct W as [F O], R' as [_ R']. pose proof (parse_step None new_linev ml inv0) as P.
    destruct (parse new_linev ml) as [lv' [[]|e]]; [|tauto]. cbn [bind]. destruct P as [_ I'].
    assert (ST : state lv' = option_map kind_of (upd None ml)) by (destruct I'; auto).
    unfold upd in *. rewrite K in *. rewrite ST. cbn [option_map]. rewrite K. cbn [is_kind kind_eqb].
    pose proof (chop_first ml rest lv' ml I' (or_introl K) O R') as H.
    destruct (filter not_empty rest) as [|y l].
    + exists [[]]. rewrite H. cbn. auto.
    + destruct H as (gs & H1 & H2 & H3). exists gs. rewrite H1. auto.
Qed.
Definition lossy : str := L " 5 point match

 Wins 1 point
 Game 1
".
Lemma chop_refuted : exists txt cs l,
  validates None (splitlines txt []) = Ok txt /\ chop txt = Ok cs /\
  In l (splitlines txt []) /\ kind_of l <> Empty /\ kind_of l <> MatchLength /\
  (forall c, In c cs -> ~ In l (splitlines c [])).
Proof.
  exists lossy, [L " 5 point match

 Game 1
"], (L " Wins 1 point
"). repeat split; try (vm_compute; reflexivity); try (vm_compute; discriminate).
  - vm_compute. tauto.
  - intros c [<-|[]] H. vm_compute in H. intuition discriminate.
Qed.
Lemma chop_raises : exists txt, validates None (splitlines txt []) = Ok txt /\ chop txt = Exc TypeError.
Proof. exists (List.concat headless). split; vm_compute; reflexivity. Qed.

(* ---- the layout ---- *)
Local Arguments Ascii.eqb _ _ : simpl nomatch.
Local Arguments Re.inset k c : simpl nomatch.
Local Arguments digit_set : simpl never.
Lemma digit_chr_ok c : digit_chr c -> inset digit_set c = true /\ Ascii.eqb " " c = false /\ space c = false /\ Ascii.eqb c " " = false.
Proof. unfold digit_chr. intros H. vm_compute in H. repeat destruct H as [<-|H]; [..|contradiction]; repeat split; reflexivity. Qed.
Lemma lang_plus r : forall l, l <> [] -> Forall (fun c => lang r [c]) l -> lang (plus r) l.
Proof.
  intros l N F. destruct l as [|c l]; [congruence|]. inversion F; subst. unfold plus. change (c :: l) with ([c] ++ l). constructor; auto.
  clear - H2. induction l as [|d l IH]; [constructor|]. inversion H2; subst. change (d :: l) with ([d] ++ l). constructor; auto.
Qed.
Lemma lang_star_chr p : forall l, Forall (fun c => inset p c = true) l -> lang (Star (Chr p)) l.
Proof.
  induction l as [|d l IH]; intros F; [constructor|]. inversion F; subst. change (d :: l) with ([d] ++ l). constructor; [constructor|]; auto.
Qed.
Lemma lang_digits ds : numeral ds -> lang digits ds.
Proof. intros [N F]. apply lang_plus; auto. eapply Forall_impl; [|exact F]. intros c H. constructor. apply digit_chr_ok; auto. Qed.
Lemma lang_blanks b : spaces b -> lang blanks b.
Proof. intros F. apply lang_star_chr. eapply Forall_impl; [|exact F]. cbn. intros c ->. reflexivity. Qed.
Lemma lang_lit s : lang (lit s) s.
Proof. induction s as [|c s IH]; cbn; [constructor|]. change (c :: s) with ([c] ++ s). constructor; auto. constructor. apply Ascii.eqb_refl. Qed.
Lemma lang_char c : lang (char c) [c].
Proof. constructor. apply Ascii.eqb_refl. Qed.
Lemma lang_cats_nil : lang (cats []) [].
Proof. constructor. Qed.
Lemma lang_cats r l a b : lang r a -> lang (cats l) b -> lang (cats (r :: l)) (a ++ b).
Proof. intros. cbn. constructor; auto. Qed.
Lemma lit_inv : forall s a, lang (lit s) a -> a = s.
Proof.
  induction s as [|c s IH]; intros a H; cbn in H; [inversion H; auto|].
  apply cat_inv in H as (x & y & -> & X & Y). apply IH in Y. subst. inversion X; subst.
  match goal with H : inset _ _ = true |- _ => change (inset (One ?a) ?b) with (Ascii.eqb a b) in H; apply Ascii.eqb_eq in H; subst end. auto.
Qed.
Lemma player_score s : lang re_player s -> has_score s.
Proof.
  unfold re_player. cbn [cats]. intros H.
  apply cat_inv in H as (a1 & b1 & -> & _ & H). apply cat_inv in H as (a2 & b2 & -> & _ & H).
  apply cat_inv in H as (a3 & b3 & -> & H3 & _).
  apply lit_inv in H3.
  subst. exists (a1 ++ a2), b3. rewrite <- !app_assoc. auto.
Qed.
Lemma header_score s : ~ has_score s -> starts re_playerheader s = false.
Proof.
  intros N. destruct (starts re_playerheader s) eqn:E; auto. exfalso. apply N. clear N.
  apply starts_ok in E as (a & b & -> & H). unfold re_playerheader in H. cbn [cats] in H.
  apply cat_inv in H as (a1 & b1 & -> & _ & H). apply cat_inv in H as (a2 & b2 & -> & H & _).
  apply player_score in H as (x & y & ->). exists (a1 ++ x), (y ++ b2 ++ b). rewrite <- !app_assoc. auto.
Qed.
Lemma starts_intro r a b : lang r a -> starts r (a ++ b) = true.
Proof. intros. apply starts_ok. eauto. Qed.
Lemma starts_skip r b c s : nullable r = false -> deriv " " r = r -> nullable (deriv c r) = false -> deriv c r = Emp -> spaces b -> starts r (b ++ c :: s) = false.
Proof.
  intros N D NC E F. induction b as [|x b IH]; cbn [app starts]; rewrite N; cbn [orb].
  - rewrite E. clear. induction s as [|x s IH]; cbn; auto.
  - inversion F; subst. rewrite D. auto.
Qed.
Lemma starts_emp s : starts Emp s = false.
Proof. induction s; cbn; auto. Qed.
Lemma matchlength_head c s : c <> " "%char -> starts re_matchlength (c :: s) = false.
Proof.
  intros N. cbn. destruct (Ascii.eqb_spec " " c); [congruence|]. apply starts_emp.
Qed.
Lemma matchlength_second c s : inset digit_set c = false -> starts re_matchlength (" "%char :: c :: s) = false.
Proof. intros N. cbn. rewrite N. apply starts_emp. Qed.
Lemma matchlength_game b c s : spaces b -> inset digit_set c = false -> c <> " "%char -> starts re_matchlength (b ++ c :: s) = false.
Proof.
  intros F D N. destruct F as [|x b -> F]; [apply matchlength_head; auto|].
  destruct F as [|y b -> F]; [apply matchlength_second; auto|]. apply matchlength_second. reflexivity.
Qed.
Lemma matchlength_bracket ds s : Forall digit_chr ds -> forall r, r = Cat (Star (Chr digit_set)) (cats [lit (L " point match")]) ->
  starts r (ds ++ ")"%char :: s) = false.
Proof.
  intros F. induction F as [|d ds D F IH]; intros r ->; cbn [app starts].
  - cbn. apply starts_emp.
  - destruct (digit_chr_ok d D) as (D1 & D2 & _). cbn. rewrite D1, D2. cbn. apply (IH _ eq_refl).
Qed.
Lemma matchlength_moves b ds s : spaces b -> numeral ds -> starts re_matchlength (b ++ ds ++ ")"%char :: s) = false.
Proof.
  intros F [N D]. destruct ds as [|d ds]; [congruence|]. inversion D; subst. destruct (digit_chr_ok d H1) as (D1 & D2 & D3 & D4).
  destruct F as [|x b -> F].
  - apply matchlength_head. intros ->. discriminate.
  - destruct F as [|y b -> F]; [|apply matchlength_second; reflexivity].
    cbn. rewrite D1. cbn. apply (matchlength_bracket _ _ H2 _ eq_refl).
Qed.
Lemma not_blank a c s : space c = false -> forallb space (a ++ c :: s) = false.
Proof. intros H. rewrite forallb_app. cbn. rewrite H. cbn. apply andb_false_r. Qed.
Lemma take_digits_app ds s : Forall digit_chr ds -> take_digits (ds ++ ")"%char :: s) = ds.
Proof. intros F. induction F as [|d ds D F IH]; cbn; auto. destruct (digit_chr_ok d D) as (DD & _). unfold Re.digit. rewrite DD. rewrite IH. auto. Qed.
Lemma skip_blanks_app b d s : spaces b -> Ascii.eqb d " " = false -> skip_blanks (b ++ d :: s) = d :: s.
Proof. intros F N. induction F as [|x b -> F IH]; cbn; [rewrite N|]; auto. Qed.

Lemma layout : forall b ds rest, spaces b -> numeral ds ->
  kind_of (L " " ++ ds ++ L " point match" ++ rest) = MatchLength /\
  kind_of (b ++ L "Game " ++ ds ++ rest) = GameHeader /\
  (~ has_score (b ++ ds ++ L ") " ++ rest) ->
     kind_of (b ++ ds ++ L ") " ++ rest) = Moves /\ nthmove (b ++ ds ++ L ") " ++ rest) = Ok (UtilSpec.horner ds)) /\
  (~ has_score (b ++ L "Wins " ++ ds ++ L " point" ++ rest) -> kind_of (b ++ L "Wins " ++ ds ++ L " point" ++ rest) = Results).
Proof.
  intros b ds rest B D. assert (ND := D). destruct ND as [NE FD].
  assert (exists d ds', ds = d :: ds') as (d & ds' & E) by (destruct ds; eauto; congruence).
  assert (Dd : digit_chr d) by (subst; inversion FD; auto). destruct (digit_chr_ok d Dd) as (D1 & D2 & D3 & D4).
  split; [|split; [|split]].
  - unfold kind_of. replace (forallb space _) with false by (subst; symmetry; apply not_blank; auto).
    assert (starts re_matchlength (L " " ++ ds ++ L " point match" ++ rest) = true) as ->; auto.
    rewrite !app_assoc. apply starts_intro. rewrite <- app_assoc. unfold re_matchlength.
    apply lang_cats; [apply lang_char|]. apply lang_cats; [apply lang_digits; auto|].
    rewrite <- (app_nil_r (L " point match")). apply lang_cats; [apply lang_lit|apply lang_cats_nil].
  - unfold kind_of. replace (forallb space _) with false by (symmetry; apply not_blank; reflexivity).
    replace (starts re_matchlength _) with false by (symmetry; apply (matchlength_game b "G"); [auto|reflexivity|discriminate]).
    assert (starts re_gameheader (b ++ L "Game " ++ ds ++ rest) = true) as ->; auto.
    rewrite !app_assoc. apply starts_intro. rewrite <- app_assoc. unfold re_gameheader.
    apply lang_cats; [apply lang_blanks; auto|]. apply lang_cats; [apply lang_lit|].
    rewrite <- (app_nil_r ds). apply lang_cats; [apply lang_digits; auto|apply lang_cats_nil].
  - intros NS. split.
    + unfold kind_of. replace (forallb space _) with false by (subst; symmetry; apply not_blank; auto).
      rewrite (header_score _ NS).
      replace (starts re_matchlength _) with false by (symmetry; apply (matchlength_moves b ds _ B D)).
      replace (starts re_gameheader _) with false.
      2:{ symmetry. subst ds. apply starts_skip; auto; cbn; rewrite ?D2; auto;
          (destruct (Ascii.eqb_spec "G" d); [subst; discriminate|reflexivity]). }
      assert (starts re_moves (b ++ ds ++ L ") " ++ rest) = true) as ->; auto.
      rewrite !app_assoc. apply starts_intro. rewrite <- app_assoc. unfold re_moves.
      apply lang_cats; [apply lang_blanks; auto|]. apply lang_cats; [apply lang_digits; auto|].
      change (L ") ") with (L ")" ++ L " " ++ []). apply lang_cats; [apply lang_char|]. apply lang_cats; [|apply lang_cats_nil].
      apply lang_plus; [discriminate|]. constructor; auto. apply lang_char.
    + unfold nthmove. subst ds. change (L ") " ++ rest) with (")"%char :: " "%char :: rest).
      change ((d :: ds') ++ ?x) with (d :: (ds' ++ x)). rewrite skip_blanks_app by auto.
      change (d :: (ds' ++ ?x)) with ((d :: ds') ++ x).
      rewrite take_digits_app by auto. apply py_int_denotes. exists [], (d :: ds'), []. cbn. rewrite app_nil_r. repeat split; auto; try discriminate.
      eapply Forall_impl; [|exact FD]. intros c H. unfold UtilSpec.dec_digit. clear - H. unfold digit_chr in H. vm_compute in H.
      repeat destruct H as [<-|H]; [..|contradiction]; vm_compute; split; discriminate.
  - intros NS. unfold kind_of. replace (forallb space _) with false by (symmetry; apply not_blank; reflexivity).
    rewrite (header_score _ NS). replace (starts re_matchlength _) with false by (symmetry; apply (matchlength_game b "W"); [auto|reflexivity|discriminate]).
    replace (starts re_gameheader _) with false by (symmetry; apply (starts_skip _ _ "W"); auto).
    replace (starts re_moves _) with false by (symmetry; apply (starts_skip _ _ "W"); auto).
    assert (starts re_results (b ++ L "Wins " ++ ds ++ L " point" ++ rest) = true) as ->; auto.
    rewrite !app_assoc. apply starts_intro. rewrite <- !app_assoc. unfold re_results.
    apply lang_cats; [apply lang_blanks; auto|]. apply lang_cats; [apply lang_lit|].
    apply lang_cats; [apply lang_digits; auto|].
    rewrite <- (app_nil_r (L " point")). apply lang_cats; [apply lang_lit|apply lang_cats_nil].
Qed.
