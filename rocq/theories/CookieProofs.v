From Verif Require Import Py PyFacts Re ReFacts ReInter Dict DictFacts CookieModel CookieSpec CookieTables.
From Coq Require Import Permutation.

(* ---- one message ---- *)
Section Machine.
Variable order : phase -> list string.
Hypothesis O : any_order order.
Lemma candidate_fits s n r m : In (n, r) (candidates order s) -> matches r m = true -> fits (cls s) n m.
Proof.
  intros I H. unfold candidates in I. apply in_flat_map in I as (n' & _ & I). apply in_map_iff in I as (r' & E & I).
  injection E as -> ->. exists r. auto.
Qed.
Lemma state_cookie_spec s m :
  right_cookie (cls s) m (snd (state_cookie order s m)) /\ cls (fst (state_cookie order s m)) = cls s /\
  (fits (cls s) (snd (state_cookie order s m)) m -> (cls s, m) <> (Run, []) ->
     exists l, last_match (fst (state_cookie order s m)) = snd (state_cookie order s m) :: l).
Proof.
  unfold state_cookie, right_cookie.
  assert (G : forall e, e = (match find (fun '(_, r) => matches r m) (candidates order s) with
      | Some (n, _) => (bring_to_top s n, n)
      | None => (s, default (cls s))
      end) ->
    (fits (cls s) (snd e) m \/ (forall n, ~ fits (cls s) n m) /\ snd e = default (cls s)) /\ cls (fst e) = cls s /\
    (fits (cls s) (snd e) m -> exists l, last_match (fst e) = snd e :: l)).
  { intros e ->. destruct (find _ _) as [[n r]|] eqn:F; cbn.
    - apply find_some in F as [I H]. split; [|split; eauto]. left. exact (candidate_fits s n r m I H).
    - assert (NF : forall n, ~ fits (cls s) n m).
      { intros n K. assert (In n (keys (table (cls s)))) as IK by exact (fits_key _ _ _ K).
        destruct K as (r & I & H). pose proof (find_none _ _ F (n, r)) as X. cbn in X. rewrite H in X. discriminate X.
        apply in_flat_map. exists n. split; [apply in_app_iff; right|apply in_map_iff; exists r; auto].
        refine (Permutation_in n (Permutation_sym (O (cls s))) IK). }
      split; [right; auto|]. split; auto. intros K. destruct (NF _ K). }
  destruct (cls s) eqn:C, m as [|c m]; cbn [snd fst];
    (destruct (G _ eq_refl) as (A & B & D); split; [exact A|]; split; [exact B|]; intros K _; exact (D K)) || idtac.
  split; [reflexivity|]. split; [exact C|]. intros _ X. destruct X. reflexivity.
Qed.
End Machine.

(* ---- the turning points ---- *)
Lemma right_unique p m n c : (p, m) <> (Run, []) -> fits p n m -> (forall n', fits p n' m -> n' = n) -> right_cookie p m c -> c = n.
Proof.
  intros NE F U R. unfold right_cookie in R.
  assert (R' : fits p c m \/ ((forall n, ~ fits p n m) /\ c = default p)) by (destruct p, m; auto; destruct NE; reflexivity).
  destruct R' as [K|[K _]]; [auto|destruct (K _ F)].
Qed.
Definition lonely (n : string) : bool := forallb (fun '(a, b) => negb (String.eqb a n || String.eqb b n)) overlaps.
Lemma lonely_unique p m n : lonely n = true -> fits p n m -> forall n', fits p n' m -> n' = n.
Proof.
  intros Ln F n' F'. destruct (String.eqb_spec n' n) as [E|E]; [exact E|]. exfalso.
  destruct (overlap_cases p m n' n F' F E) as [_ H]. unfold lonely in Ln. rewrite forallb_forall in Ln.
  destruct H as [H|H]; specialize (Ln _ H); cbn in Ln; apply negb_true_iff, orb_false_iff in Ln as [A B];
    rewrite String.eqb_refl in *; discriminate.
Qed.
Lemma one_pattern p n b e m : patterns p n = [mkpat b e] -> (fits p n m <-> matches (mkpat b e) m = true).
Proof. intros E. unfold fits. rewrite E. split; [intros (r & [<-|[]] & H); exact H|intros H; exists (mkpat b e); split; [left; reflexivity|exact H]]. Qed.
Lemma line_only d m : matches (mkpat (Cat (char d) Eps) true) m = true <->
  str_eqb m [d] || str_eqb m ([d] ++ [ascii_of_nat 10]) = true.
Proof.
  unfold matches. cbn [body at_end]. rewrite ends_ok, orb_true_iff, !str_eqb_eq.
  change (Cat (char d) Eps) with (lit [d]). setoid_rewrite lit_lang. split.
  - intros [H|(a & -> & ->)]; auto.
  - intros [H|H]; auto. right. exists [d]. auto.
Qed.
Lemma fits_begin m : fits Login "CLIP_MOTD_BEGIN" m <-> motd_begins m = true.
Proof. rewrite (one_pattern Login "CLIP_MOTD_BEGIN" (Cat (char "3") Eps) true) by (vm_compute; reflexivity). apply line_only. Qed.
Lemma fits_end m : fits Motd "CLIP_MOTD_END" m <-> motd_ends m = true.
Proof. rewrite (one_pattern Motd "CLIP_MOTD_END" (Cat (char "4") Eps) true) by (vm_compute; reflexivity). apply line_only. Qed.
Lemma fits_goodbye m : fits Run "FIBS_Goodbye" m <-> says_goodbye m = true.
Proof.
  rewrite (one_pattern Run "FIBS_Goodbye" (lit (L "           Goodbye.")) false) by (vm_compute; reflexivity).
  unfold matches, says_goodbye. cbn [body at_end]. rewrite starts_ok, str_eqb_eq. setoid_rewrite lit_lang. split.
  - intros (a & b & -> & ->). reflexivity.
  - intros H. exists (firstn 19 m), (skipn 19 m). split; [symmetry; apply firstn_skipn|exact H].
Qed.
Lemma turn (b : bool) p n m c : (p, m) <> (Run, []) -> lonely n = true -> n <> default p ->
  (fits p n m <-> b = true) -> right_cookie p m c -> String.eqb c n = b.
Proof.
  intros NE Ln ND I R. destruct b.
  - assert (F : fits p n m) by (apply I; reflexivity).
    rewrite (right_unique p m n c NE F (lonely_unique p m n Ln F) R). apply String.eqb_refl.
  - destruct (String.eqb_spec c n) as [->|]; [|reflexivity]. unfold right_cookie in R.
    assert (R' : fits p n m \/ ((forall n, ~ fits p n m) /\ n = default p)) by (destruct p, m; auto; destruct NE; reflexivity).
    destruct R' as [K|[_ K]]; [apply I in K; discriminate|contradiction].
Qed.
Lemma next_ok s m c : right_cookie (cls s) m c -> cls (next_state s c) = next_phase (cls s) m.
Proof.
  intros R. unfold next_state, next_phase. destruct (cls s) eqn:C.
  - rewrite (turn (motd_begins m) Login "CLIP_MOTD_BEGIN" m c); try discriminate; try reflexivity; auto; [|apply fits_begin].
    destruct (motd_begins m); auto.
  - rewrite (turn (motd_ends m) Motd "CLIP_MOTD_END" m c); try discriminate; try reflexivity; auto; [|apply fits_end].
    destruct (motd_ends m); auto.
  - destruct m as [|x m].
    + unfold right_cookie in R. subst c. cbn. exact C.
    + rewrite (turn (says_goodbye (x :: m)) Run "FIBS_Goodbye" (x :: m) c); try discriminate; try reflexivity; auto; [|apply fits_goodbye].
      destruct (says_goodbye (x :: m)); auto.
Qed.
Lemma make_cookie_spec order s m : any_order order ->
  right_cookie (cls s) m (snd (make_cookie order s m)) /\ cls (fst (make_cookie order s m)) = next_phase (cls s) m.
Proof.
  intros O. unfold make_cookie. destruct (state_cookie_spec order O s m) as (A & B & _).
  destruct (state_cookie order s m) as [s' c]. cbn [fst snd] in *. split; [exact A|]. rewrite <- B in *. exact (next_ok s' m c A).
Qed.
Lemma sessions : forall order, any_order order -> forall ms s,
  List.length (snd (make_cookies order s ms)) = List.length ms /\
  cls (fst (make_cookies order s ms)) = fold_left next_phase ms (cls s) /\
  forall i m, nth_error ms i = Some m ->
    exists c, nth_error (snd (make_cookies order s ms)) i = Some c /\ right_cookie (fold_left next_phase (firstn i ms) (cls s)) m c.
Proof.
  intros order O. induction ms as [|m ms IH]; intros s; cbn [make_cookies].
  - repeat split. intros [|i] m H; discriminate.
  - destruct (make_cookie_spec order s m O) as [R N]. destruct (make_cookie order s m) as [s1 c]. cbn [fst snd] in *.
    destruct (IH s1) as (A & B & D). destruct (make_cookies order s1 ms) as [s2 cs]. cbn [fst snd] in *.
    split; [cbn; rewrite A; reflexivity|]. split; [rewrite B, N; reflexivity|].
    intros [|i] x H; cbn in H |- *.
    + injection H as ->. exists c. auto.
    + rewrite <- N. exact (D i x H).
Qed.
Lemma protocol : forall order, any_order order -> forall ms,
  List.length (snd (session order ms)) = List.length ms /\
  cls (fst (session order ms)) = phase_after ms /\
  forall i m, nth_error ms i = Some m ->
    exists c, nth_error (snd (session order ms)) i = Some c /\ right_cookie (phase_after (firstn i ms)) m c.
Proof. intros order O ms. exact (sessions order O ms new_monster). Qed.

(* ---- history ---- *)
Lemma cookie_after_right order ms m : any_order order -> right_cookie (phase_after ms) m (cookie_after order ms m).
Proof.
  intros O. unfold cookie_after. destruct (protocol order O ms) as (_ & <- & _). apply make_cookie_spec. exact O.
Qed.
(* a message for each pair of [overlaps] *)
Definition shared : list str := map L [
  "board:a:b:1"; "a is watching you."; "You accept the double. The cube shows 2. x"; "a accepts the double. The cube shows 2. x";
  "a - b (unlimited point match"; "X: (1"; "X: wins"; "X: doubles"; "X: accepts"; "X: rejects"; "5 bytes - - 0";
  "13 bytes "; "12 bytes "; "14 bytes "; "15 bytes "; "16 bytes "; "17 bytes"; "18 bytes"; "19 bytes"; "7 bytes "; "8 bytes "; "9 bytes 1 ";
  "10 bytes"; "11 bytes"; "** User is refusing games."; "** User didn't invite you."; "** User is not playing."; "** User won't listen to you.";
  "** There is no one called x"]%string.
Lemma history_partial : 
  (forall order order' ms ms' m, any_order order -> any_order order' -> phase_after ms = phase_after ms' ->
     cookie_after order ms m = cookie_after order' ms' m \/
     (phase_after ms = Run /\
      (In (cookie_after order ms m, cookie_after order' ms' m) overlaps \/
       In (cookie_after order' ms' m, cookie_after order ms m) overlaps) /\
      fits Run (cookie_after order ms m) m /\ fits Run (cookie_after order' ms' m) m)) /\
  (forall n n', In (n, n') overlaps -> exists m, fits Run n m /\ fits Run n' m).
Proof.
  split.
  - intros order order' ms ms' m O O' E.
    pose proof (cookie_after_right order ms m O) as R. pose proof (cookie_after_right order' ms' m O') as R'. rewrite <- E in R'.
    generalize dependent (cookie_after order' ms' m). generalize dependent (cookie_after order ms m). intros c R c' R'.
    destruct (String.eqb_spec c c') as [Q|Q]; [left; exact Q|right].
    unfold right_cookie in R, R'. set (t := match phase_after ms, m with Run, [] => true | _, _ => false end) in *.
    destruct t; [congruence|].
    destruct R as [F|[N ->]], R' as [F'|[N' ->]]; try (destruct (N _ F'); fail); try (destruct (N' _ F); fail); [|congruence].
    destruct (overlap_cases _ _ _ _ F F' Q) as [P I]. rewrite P in *. auto.
  - assert (H : forallb (fun '((n, n'), m) => existsb (fun r => matches r m) (patterns Run n) && existsb (fun r => matches r m) (patterns Run n'))
      (combine overlaps shared) = true) by (vm_compute; reflexivity).
    intros n n' I. rewrite forallb_forall in H.
    assert (exists m, In ((n, n'), m) (combine overlaps shared)) as (m & J).
    { assert (Q : map fst (combine overlaps shared) = overlaps) by reflexivity. rewrite <- Q in I.
      apply in_map_iff in I as ([x m] & E & J). cbn in E. subst x. eauto. }
    specialize (H _ J). cbv beta iota in H. apply andb_true_iff in H as [A B]. apply existsb_exists in A, B. exists m. split; auto.
Qed.
Definition who (p : phase) (m : str) : list string := let t := table p in
  map fst (filter (fun x => existsb (fun r => matches r m) (snd x)) t).
Lemma fits_who p n m : fits p n m <-> In n (who p m).
Proof.
  unfold who. cbv zeta. split.
  - unfold fits, patterns. intros (r & I & H). destruct (dget String.eqb (table p) n) as [ps|] eqn:E; [|destruct I]. apply (dget_in _ seqb_ok) in E.
    apply in_map_iff. exists (n, ps). split; auto. apply filter_In. split; auto. apply existsb_exists. eauto.
  - intros I. apply in_map_iff in I as ([n' ps] & E & I). cbn in E. subst n'. apply filter_In in I as [I H]. cbn in H. apply existsb_exists in H.
    unfold fits, patterns. rewrite (dget_unique _ seqb_ok _ _ _ (table_nodup p) I). exact H.
Qed.
Lemma steer order s n m m0 : any_order order -> cls s = Run -> m <> [] -> m0 <> [] -> who Run m = [n] -> 
  n <> "FIBS_Goodbye"%string -> In n (who Run m0) ->
  snd (make_cookie order (fst (make_cookie order s m)) m0) = n.
Proof.
  intros O C NE NE0 W NG I0.
  assert (F : fits Run n m) by (apply fits_who; rewrite W; left; reflexivity).
  assert (U : forall n', fits Run n' m -> n' = n) by (intros n' K; apply fits_who in K; rewrite W in K; destruct K as [<-|[]]; reflexivity).
  unfold make_cookie at 2. destruct (state_cookie_spec order O s m) as (A & B & D). rewrite C in A, D.
  assert (E : snd (state_cookie order s m) = n).
  { apply (right_unique Run m n); auto. congruence. }
  destruct (state_cookie order s m) as [s' c]. cbn [fst snd] in *. subst c.
  destruct (D F) as (l & Q); [congruence|].
  assert (NS : next_state s' n = s').
  { unfold next_state. rewrite B, C. destruct (String.eqb_spec n "FIBS_Goodbye"); [contradiction|reflexivity]. }
  rewrite NS. unfold make_cookie. unfold state_cookie. rewrite B, C.
  assert (FD : exists r, find (fun '(_, r) => matches r m0) (candidates order s') = Some (n, r)).
  { unfold candidates. rewrite Q, B, C. cbn [app flat_map].
    apply fits_who in I0. destruct I0 as (r & IR & H).
    induction (patterns Run n) as [|r0 rs IH]; [destruct IR|]. cbn [map app find]. destruct (matches r0 m0) eqn:M; [eauto|].
    destruct IR as [->|IR]; [congruence|]. exact (IH IR). }
  destruct FD as (r & FD). rewrite FD. destruct m0; [congruence|]. reflexivity.
Qed.
Lemma history_refuted : forall order, any_order order -> exists ms ms' m,
  phase_after ms = Run /\ phase_after ms' = Run /\ cookie_after order ms m <> cookie_after order ms' m.
Proof.
  intros order O.
  exists [L "3"; L "4"; L "a - b (5 point match 2-2)"], [L "3"; L "4"; L "a - b (unlimited, 2-2)"], (L "a - b (unlimited point match)").
  split; [reflexivity|]. split; [reflexivity|].
  assert (R : forall x, fst (session order [L "3"; L "4"; x]) = fst (make_cookie order (fst (session order [L "3"; L "4"])) x)).
  { intros x. unfold session. cbn [make_cookies]. destruct (make_cookie order new_monster (L "3")) as [s1 c1].
    destruct (make_cookie order s1 (L "4")) as [s2 c2]. cbn [fst]. destruct (make_cookie order s2 x) as [s3 c3]. reflexivity. }
  unfold cookie_after. rewrite !R.
  assert (C : cls (fst (session order [L "3"; L "4"])) = Run) by (destruct (protocol order O [L "3"; L "4"]) as (_ & -> & _); reflexivity).
  assert (W1 : who Run (L "a - b (5 point match 2-2)") = ["FIBS_ReportLimitedMatch"%string]) by (vm_compute; reflexivity).
  assert (W2 : who Run (L "a - b (unlimited, 2-2)") = ["FIBS_ReportUnlimitedMatch"%string]) by (vm_compute; reflexivity).
  assert (W : who Run (L "a - b (unlimited point match)") = ["FIBS_ReportLimitedMatch"; "FIBS_ReportUnlimitedMatch"]%string) by (vm_compute; reflexivity).
  set (m0 := L "a - b (unlimited point match)") in *.
  assert (E1 : snd (make_cookie order (fst (make_cookie order (fst (session order [L "3"; L "4"])) (L "a - b (5 point match 2-2)"))) m0) = "FIBS_ReportLimitedMatch"%string).
  { apply (steer order _ _ _ _ O C); [discriminate|discriminate|exact W1|discriminate|rewrite W; left; reflexivity]. }
  assert (E2 : snd (make_cookie order (fst (make_cookie order (fst (session order [L "3"; L "4"])) (L "a - b (unlimited, 2-2)"))) m0) = "FIBS_ReportUnlimitedMatch"%string).
  { apply (steer order _ _ _ _ O C); [discriminate|discriminate|exact W2|discriminate|rewrite W; right; left; reflexivity]. }
  intros E. assert (X := eq_trans (eq_sym E1) (eq_trans E E2)). discriminate X.
Qed.

(* ---- announcements ---- *)
Definition user_re : re := plus (Chr (Ranges false [("a", "z"); ("A", "Z"); ("_", "_"); ("<", "<"); (">", ">")]%char)).
Definition announce : re := Cat user_re (fold_right (fun t r => Alt (lit t) r) Emp announcements).
Lemma announce_lang u t : user_name u -> In t announcements -> lang announce (u ++ t).
Proof.
  intros [NE F] I. constructor.
  - destruct u as [|c u]; [congruence|]. inversion F; subst. change (c :: u) with ([c] ++ u). constructor; [constructor; assumption|].
    clear - H2. induction u as [|d u IH]; [constructor|]. inversion H2; subst. change (d :: u) with ([d] ++ u). constructor; [constructor; assumption|auto].
  - induction announcements as [|x l IH]; [destruct I|]. cbn [fold_right]. destruct I as [->|I]; [apply l_left, lit_lang; reflexivity|apply l_right; auto].
Qed.
Lemma announce_apart : shares_only (fun n m => negb (String.eqb n "T" || String.eqb m "T")) (("T"%string, announce) :: named Run) = true.
Proof. vm_cast_no_check (eq_refl true). Qed.
Lemma not_T : ~ In "T"%string (keys (table Run)).
Proof. apply (dget_none _ seqb_ok). vm_compute. reflexivity. Qed.
Lemma announced : forall order ms u t, any_order order -> phase_after ms = Run -> user_name u -> In t announcements ->
  cookie_after order ms (u ++ t) = "FIBS_Unknown"%string.
Proof.
  intros order ms u t O P U I. pose proof (cookie_after_right order ms (u ++ t) O) as R. rewrite P in R. unfold right_cookie in R.
  assert (NF : forall n, ~ fits Run n (u ++ t)).
  { intros n F. assert (K := fits_key _ _ _ F). apply fits_named in F as (r & J & H).
    assert (NT : "T"%string <> n) by (intros <-; exact (not_T K)).
    pose proof (shares_only_ok _ _ announce_apart (u ++ t) "T"%string announce n r (or_introl eq_refl) (or_intror J) NT (announce_lang u t U I) H) as X.
    cbv beta in X. rewrite !String.eqb_refl, orb_true_r in X. destruct X; discriminate. }
  destruct U as [NE _]. destruct u as [|c u]; [congruence|]. cbn [app] in *. destruct R as [F|[_ E]]; [destruct (NF _ F)|exact E].
Qed.

(* ---- what is remembered ---- *)
Definition remembers (s : cstate) : Prop := NoDup (last_match s) /\ incl (last_match s) (keys (table (cls s))).
Lemma remove_incl n l : incl (remove_first n l) l.
Proof. induction l as [|x l IH]; intros y I; [exact I|]. cbn in I. destruct (String.eqb x n); [right; exact I|]. destruct I as [->|I]; [left; reflexivity|right; apply IH, I]. Qed.
Lemma remove_gone n l : NoDup l -> NoDup (remove_first n l) /\ ~ In n (remove_first n l).
Proof.
  induction 1 as [|x l N D (IH & G)]; [split; [constructor|intros []]|]. cbn. destruct (String.eqb x n) eqn:E.
  - apply String.eqb_eq in E as ->. split; assumption.
  - split; [constructor; [intros I; apply N, (remove_incl n), I|exact IH]|]. intros [->|I]; [rewrite String.eqb_refl in E; discriminate|exact (G I)].
Qed.
Lemma new_remembers p : remembers (new_state p).
Proof. split; [repeat constructor; intros []|]. destruct p; intros x [<-|[]]; cbn; tauto. Qed.
Lemma memory : forall order, any_order order -> forall ms, let s := fst (session order ms) in
  NoDup (last_match s) /\ incl (last_match s) (keys (table (phase_after ms))).
Proof.
  intros order O ms. destruct (protocol order O ms) as (_ & <- & _).
  assert (G : forall ms s, remembers s -> remembers (fst (make_cookies order s ms))).
  { clear ms. induction ms as [|m ms IH]; intros s R; [exact R|]. cbn [make_cookies]. unfold make_cookie.
    assert (K : remembers (fst (state_cookie order s m))).
    { destruct (state_cookie_spec order O s m) as (_ & B & _). revert B. unfold state_cookie.
      assert (F : forall n r, find (fun '(_, r) => matches r m) (candidates order s) = Some (n, r) -> remembers (bring_to_top s n)).
      { intros n r F. apply find_some in F as (I & _). unfold candidates in I. apply in_flat_map in I as (n' & J & I). apply in_map_iff in I as (r' & E & _). injection E as -> ->.
        destruct R as (D & K). destruct (remove_gone n _ D) as (D' & N'). split; [constructor; assumption|]. intros x [<-|X]; [|apply K, (remove_incl n), X].
        apply in_app_or in J as [J|J]; [apply K, J|]. eapply Permutation_in; [apply O|exact J]. }
      destruct (cls s), m; try (destruct (find _ _) as [[n r]|] eqn:E; intros _; [eapply F; reflexivity|exact R]). intros _. exact R. }
    destruct (state_cookie order s m) as [s1 c]. cbn [fst] in K.
    assert (K2 : remembers (next_state s1 c)) by (unfold next_state; destruct (cls s1); destruct (String.eqb c _); try exact K; apply new_remembers).
    specialize (IH _ K2). destruct (make_cookies order (next_state s1 c) ms). exact IH. }
  apply (G ms new_monster). apply new_remembers.
Qed.
