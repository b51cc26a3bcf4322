(* The paths of the tree of a board, up to what a style sheet can see. *)
From Verif Require Import Py PyFacts Dict DictFacts UtilModel BoardModel ImageModel ImageSpec ImageCss ImageTree ThemePath ThemeDraw.
Open Scope string_scope.
Open Scope list_scope.
Open Scope Z_scope.

Definition root : elem := bare EBoard [].
Definition mt : elem := bare EMatch [].
Definition ps : elem := bare EPosition [].
Definition owned_head (k : ekind) (p : str) : head := mkhead k [(L "player", mkattr Player None (VStr p))] [].
Definition die_head (w : string) : head := mkhead EDie [(L "id", mkattr IdAttr None (VStr (L w)))] [].
Definition bare_head (k : ekind) : head := mkhead k [] [].
Definition field_heads : list head := [die_head "right"; die_head "left"; bare_head EResign; bare_head ECube].
Definition match_heads : list head :=
  [owned_head EAction you; owned_head EAction him; bare_head ELength; bare_head ECrawford; owned_head EScore you; owned_head EScore him].
(* the elements of a position, and what may lie on each *)
Definition zones : list (elem * list head) :=
  [(bare ETop [], []); (bare EBottom [], []); (bare ECubeholder [], [bare_head ECube]);
   (owned EField you [], field_heads); (owned EField him [], field_heads);
   (owned EHome you [], [owned_head EChequer you; bare_head ECube]); (owned EHome him [], [owned_head EChequer him; bare_head ECube]);
   (owned EBar you [], [owned_head EChequer you]); (owned EBar him [], [owned_head EChequer him])]
  ++ map (fun i => (Elem (point_head i) [inr (py_str_int i)], [owned_head EChequer you; owned_head EChequer him])) (zrange 1 25).
Definition lies (b : board) (zone : ekind) (n : Z) : Prop :=
  zone = EBar -> n <> 0 -> n = nth 24 (fst (position b)) 0 \/ n = nth 24 (snd (position b)) 0.
Definition leaf_ok (b : board) (zone : ekind) (h : head) (s : str) (n : Z) : Prop :=
  match kind h with
  | EChequer => s = py_str_int n /\ 1 <= n <= 15 /\ lies b zone n
  | EDie => n = 0 /\ exists d, 1 <= d <= 6 /\ s = py_str_int d
  | ECube => n = 0 /\ exists d, 0 <= d /\ s = py_str_int d
  | EResign => n = 0 /\ exists d, 0 <= d <= 3 /\ s = py_str_int d
  | EAction | ELength | EScore | ECrawford => n = 0
  | _ => False
  end.
Lemma leaf_lies b zone h s n : leaf_ok b zone h s n -> lies b zone n.
Proof. unfold leaf_ok. destruct (kind h); try contradiction; try (intros -> _ N; contradiction); try (intros (-> & _) _ N; contradiction). intros (_ & _ & K). exact K. Qed.
Lemma leaf_written b zone h s n e : leaf_ok b zone h s n -> child0 e = Ok s -> written (kind h) e n.
Proof.
  unfold leaf_ok, written. destruct (kind h); try contradiction; intros K C; eauto.
  - destruct K as (_ & d & D & ->). eauto.
  - destruct K as (_ & d & D & ->). eauto.
  - destruct K as (_ & d & D & ->). eauto.
  - destruct K as (-> & _). exact C.
Qed.
(* a kid is a leaf of one of these kinds *)
Definition leafy (b : board) (zone : ekind) (hs : list head) (c : kid) : Prop :=
  exists h s n, c = inl (Elem h [inr s]) /\ In h hs /\ leaf_ok b zone h s n.
Definition extras_ok (b : board) (x : extras) : Prop :=
  (exists p s, (p = you \/ p = him) /\ x_player x = Some p /\ x_says x = [s]) /\
  Forall (leafy b EField field_heads) (f_you x) /\ Forall (leafy b EField field_heads) (f_him x) /\
  Forall (leafy b ECubeholder [bare_head ECube]) (c_mid x) /\ Forall (leafy b EHome [bare_head ECube]) (c_you x) /\ Forall (leafy b EHome [bare_head ECube]) (c_him x).
Lemma leafy_texts b k hs l h : Forall (leafy b k hs) l -> stub (Elem h l) = Elem h [].
Proof.
  intros F. unfold stub. cbn [ehead]. f_equal. induction F as [|c l (hd & s & n & -> & _) F IH]; [reflexivity|exact IH].
Qed.
Lemma leafy_sub b k hs hs' l : incl hs hs' -> Forall (leafy b k hs) l -> Forall (leafy b k hs') l.
Proof. intros I. apply Forall_impl. intros c (h & s & n & E & J & K). exists h, s, n. auto. Qed.
Lemma in_paths h ks q : In q (paths [] (Elem h ks)) <-> q = [Elem h ks] \/ exists c r, In (inl c) ks /\ In r (paths [] c) /\ q = Elem h ks :: r.
Proof.
  rewrite paths_eq. cbn [In]. rewrite in_map_iff. unfold kid_paths. split.
  - intros [<-|(r & <- & I)]; [auto|]. apply in_flat_map in I as ([c|s] & I & J); [|destruct J]. right. exists c, r. auto.
  - intros [->|(c & r & I & J & ->)]; [auto|]. right. exists r. split; [reflexivity|]. apply in_flat_map. exists (inl c). auto.
Qed.
Lemma chequer_leafy b zone p n hs : In (owned_head EChequer p) hs -> 0 <= n <= 15 -> lies b zone n -> Forall (leafy b zone hs) (chequer p n).
Proof.
  intros I B K. unfold chequer. destruct (n =? 0) eqn:Z; constructor; [|constructor]. exists (owned_head EChequer p), (py_str_int n), n. split; [reflexivity|]. split; [exact I|].
  cbn. split; [reflexivity|]. split; [lia|exact K].
Qed.
Definition counts_ok (b : board) : Prop :=
  forall l, l = fst (position b) \/ l = snd (position b) -> List.length l = 25%nat /\ (forall n, In n l -> 0 <= n) /\ zsum l <= 15.
Lemma zsum_bound l : (forall n, In n l -> 0 <= n) -> 0 <= zsum l /\ forall i, 0 <= nth i l 0 <= zsum l.
Proof.
  induction l as [|a l IH]; intros H; [split; [reflexivity|intros [|i]; cbn; lia]|].
  destruct IH as (P & Q); [intros n I; apply H; right; exact I|]. pose proof (H a (or_introl eq_refl)).
  assert (E : zsum (a :: l) = a + zsum l) by (unfold zsum; cbn; reflexivity). rewrite E. split; [lia|]. intros [|i]; cbn [nth]; [lia|]. specialize (Q i). lia.
Qed.
Section Paths.
Variables (b : board) (x : extras).
Hypothesis (CO : counts_ok b) (XO : extras_ok b x).
Lemma count_ok l i : l = fst (position b) \/ l = snd (position b) -> 0 <= nth i l 0 <= 15.
Proof. intros E. destruct (CO l E) as (_ & P & Q). destruct (zsum_bound l P) as (_ & R). specialize (R i). lia. Qed.
Lemma rest_ok l : l = fst (position b) \/ l = snd (position b) -> 0 <= 15 - total_of l <= 15.
Proof. intros E. destruct (CO l E) as (_ & P & Q). destruct (zsum_bound l P) as (R & _). unfold total_of. lia. Qed.
Definition zone_ok (c : elem) (z : elem * list head) : Prop :=
  stub c = fst z /\ forall c', In (inl c') (children c) -> leafy b (kind (ehead (fst z))) (snd z) (inl c').
Lemma zone_leafy h l hs : Forall (leafy b (kind h) hs) l -> zone_ok (Elem h l) (Elem h [], hs).
Proof.
  intros F. split; [eapply leafy_texts; exact F|]. cbn [fst snd ehead children]. rewrite Forall_forall in F. intros c' I. apply F, I.
Qed.
Lemma point_zone i : 1 <= i <= 24 -> zone_ok (point b i) (Elem (point_head i) [inr (py_str_int i)], [owned_head EChequer you; owned_head EChequer him]).
Proof.
  intros B. assert (F : Forall (leafy b EPoint [owned_head EChequer you; owned_head EChequer him]) (on_point b i)).
  { unfold on_point. cbv zeta. assert (Y : Forall (leafy b EPoint [owned_head EChequer you; owned_head EChequer him]) (chequer you (nth (Z.to_nat (i - 1)) (fst (position b)) 0))).
    { apply chequer_leafy; [left; reflexivity|apply count_ok; auto|discriminate]. }
    assert (H : Forall (leafy b EPoint [owned_head EChequer you; owned_head EChequer him]) (chequer him (nth (Z.to_nat (24 - i)) (snd (position b)) 0))).
    { apply chequer_leafy; [right; left; reflexivity|apply count_ok; auto|discriminate]. }
    destruct (i <=? 12); apply Forall_app; auto. }
  split.
  - unfold point, stub, texts. cbn [ehead children flat_map map fst app]. f_equal. f_equal. clear B. induction F as [|c l (hd & s & n & -> & _) F IH]; [reflexivity|exact IH].
  - cbn [fst snd ehead point children]. intros c' [E|I]; [discriminate|]. rewrite Forall_forall in F. apply F, I.
Qed.
Lemma in_zones_point i : 1 <= i <= 24 -> In (Elem (point_head i) [inr (py_str_int i)], [owned_head EChequer you; owned_head EChequer him]) zones.
Proof.
  intros B. unfold zones. apply in_or_app. right.
  apply (in_map (fun i => (Elem (point_head i) [inr (py_str_int i)], [owned_head EChequer you; owned_head EChequer him]))). apply In_zrange. lia.
Qed.
Definition laid : list kid :=
  [inl (bare ETop []); inl (bare EBottom []); inl (bare ECubeholder (c_mid x)); inl (owned EField you (f_you x));
         inl (owned EHome you (chequer you (15 - total_of (fst (position b))) ++ c_you x));
         inl (owned EBar him (chequer him (nth 24 (snd (position b)) 0)))]
        ++ map (fun i => inl (point b i)) (zrange 1 25) ++
        [inl (owned EBar you (chequer you (nth 24 (fst (position b)) 0)));
         inl (owned EHome him (chequer him (15 - total_of (snd (position b))) ++ c_him x));
         inl (owned EField him (f_him x))].
Lemma zone_of c : In (inl c) laid -> exists z, In z zones /\ zone_ok c z.
Proof.
  destruct XO as (_ & F1 & F2 & F3 & F4 & F5).
  assert (Z : forall h l hs, In (Elem h [], hs) zones -> Forall (leafy b (kind h) hs) l -> exists z, In z zones /\ zone_ok (Elem h l) z).
  { intros h l hs I F. exists (Elem h [], hs). split; [exact I|apply zone_leafy, F]. }
  assert (K : forall n, lies b EHome n) by (intros n D; discriminate).
  intros I. unfold laid in I. apply in_app_or in I as [I|I]; [|apply in_app_or in I as [I|I]].
  - repeat (destruct I as [I|I]; [injection I as <-|]); [..|destruct I].
    + apply (Z _ [] []); [left; reflexivity|constructor].
    + apply (Z _ [] []); [do 1 right; left; reflexivity|constructor].
    + eapply Z; [do 2 right; left; reflexivity|exact F3].
    + eapply Z; [do 3 right; left; reflexivity|exact F1].
    + eapply Z; [do 5 right; left; reflexivity|]. apply Forall_app. split; [apply chequer_leafy; [left; reflexivity|apply rest_ok; auto|apply K]|].
      eapply leafy_sub; [|exact F4]. intros h [<-|[]]. right. left. reflexivity.
    + eapply Z; [do 8 right; left; reflexivity|]. apply chequer_leafy; [left; reflexivity|apply count_ok; auto|]. intros _ _. right. reflexivity.
  - apply in_map_iff in I as (i & E & I). injection E as <-. apply In_zrange in I. eexists. split; [apply (in_zones_point i); lia|apply point_zone; lia].
  - repeat (destruct I as [I|I]; [injection I as <-|]); [..|destruct I].
    + eapply Z; [do 7 right; left; reflexivity|]. apply chequer_leafy; [left; reflexivity|apply count_ok; auto|]. intros _ _. left. reflexivity.
    + eapply Z; [do 6 right; left; reflexivity|]. apply Forall_app. split; [apply chequer_leafy; [left; reflexivity|apply rest_ok; auto|apply K]|].
      eapply leafy_sub; [|exact F5]. intros h [<-|[]]. right. left. reflexivity.
    + eapply Z; [do 4 right; left; reflexivity|exact F2].
Qed.
(* where a path of the tree goes *)
Inductive route : list elem -> elem -> Prop :=
| RRoot e : route [root] e
| RMatch e : route [root; mt] e
| RPosition e : route [root; ps] e
| RZone z e : In z zones -> route [root; ps; fst z] e
| RLine h s : In h match_heads -> leaf_ok b EMatch h s 0 -> route [root; mt; Elem h [inr s]] (Elem h [inr s])
| RLeaf z h s n : In z zones -> In h (snd z) -> leaf_ok b (kind (ehead (fst z))) h s n -> route [root; ps; fst z; Elem h [inr s]] (Elem h [inr s]).
Lemma leaf_paths h s r : In r (paths [] (Elem h [inr s])) -> r = [Elem h [inr s]].
Proof. intros I. apply in_paths in I as [->|(c & r' & [J|[]] & _)]; [reflexivity|discriminate]. Qed.
Lemma line_of c : In (inl c) (inl (action_elem x) :: inl (bare ELength [inr (py_str_int (match_length b))]) :: inl (bare ECrawford [inr (py_str_bool (crawford b))]) ::
   inl (owned EScore you [inr (py_str_int (fst (score b)))]) :: inl (owned EScore him [inr (py_str_int (snd (score b)))]) :: [] : list kid) ->
  exists h s, c = Elem h [inr s] /\ In h match_heads /\ leaf_ok b EMatch h s 0.
Proof.
  destruct XO as ((p & s & P & E1 & E2) & _). intros I. repeat (destruct I as [I|I]; [injection I as <-|]); [..|destruct I].
  - unfold action_elem. rewrite E1, E2. exists (owned_head EAction p), s. split; [reflexivity|]. split; [|reflexivity]. destruct P as [->| ->]; [left|right; left]; reflexivity.
  - exists (bare_head ELength). eexists. split; [reflexivity|]. split; [do 2 right; left; reflexivity|reflexivity].
  - exists (bare_head ECrawford). eexists. split; [reflexivity|]. split; [do 3 right; left; reflexivity|reflexivity].
  - exists (owned_head EScore you). eexists. split; [reflexivity|]. split; [do 4 right; left; reflexivity|reflexivity].
  - exists (owned_head EScore him). eexists. split; [reflexivity|]. split; [do 5 right; left; reflexivity|reflexivity].
Qed.
Lemma stub_elements h (l : list elem) : stub (Elem h (map inl l)) = Elem h [].
Proof. unfold stub, texts. cbn [ehead children]. f_equal. induction l as [|c l IH]; [reflexivity|exact IH]. Qed.
Definition lines : list kid :=
  [inl (action_elem x); inl (bare ELength [inr (py_str_int (match_length b))]); inl (bare ECrawford [inr (py_str_bool (crawford b))]);
   inl (owned EScore you [inr (py_str_int (fst (score b)))]); inl (owned EScore him [inr (py_str_int (snd (score b)))])].
Lemma stub_laid : stub (bare EPosition laid) = ps.
Proof.
  unfold laid. rewrite <- (map_map (point b) inl). unfold bare, stub, texts, ps. cbn [ehead children]. f_equal. rewrite !flat_map_app. cbn [flat_map app].
  induction (map (point b) (zrange 1 25)) as [|c l IH]; [reflexivity|exact IH].
Qed.
Theorem trunk_paths p : In p (paths [] (trunk b x)) -> route (map stub p) (last p nobody).
Proof.
  assert (T : trunk b x = bare EBoard [inl (bare EMatch lines); inl (bare EPosition laid)]) by reflexivity. rewrite T. clear T.
  assert (Sr : forall c d, stub (bare EBoard [inl c; inl d]) = root) by reflexivity.
  assert (Sm : stub (bare EMatch lines) = mt) by reflexivity.
  pose proof stub_laid as Sp.
  intros I. apply in_paths in I as [->|(c & r & I & J & ->)].
  - apply RRoot.
  - cbn [map]. rewrite (Sr _ _ : stub (Elem _ _) = _). destruct I as [E|[E|[]]].
    + assert (Ec : c = bare EMatch lines) by congruence. subst c. clear E.
      apply in_paths in J as [->|(c & r' & I & J & ->)]; [cbn [map]; change (Elem (mkhead EMatch [] []) lines) with (bare EMatch lines); rewrite Sm; apply RMatch|].
      apply line_of in I as (h & s & -> & I & K). apply leaf_paths in J as ->. cbn [map]. change (Elem (mkhead EMatch [] []) lines) with (bare EMatch lines). rewrite Sm. exact (RLine h s I K).
    + assert (Ec : c = bare EPosition laid) by congruence. subst c. clear E.
      apply in_paths in J as [->|(c & r' & I & J & ->)]; cbn [map]; change (Elem (mkhead EPosition [] []) laid) with (bare EPosition laid); rewrite Sp; [apply RPosition|].
      apply zone_of in I as (z & Z & St & K). destruct c as [hc kc]. apply in_paths in J as [->|(c & r & I & J & ->)].
      * cbn [map]. rewrite St. apply RZone, Z.
      * destruct (K c I) as (h & s & n & E & Ih & Lf). injection E as ->. apply leaf_paths in J as ->. cbn [map]. rewrite St. exact (RLeaf z h s n Z Ih Lf).
Qed.
End Paths.
