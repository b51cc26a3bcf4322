(* The drawing context on the Python Imaging Library: caches, texts, life cycle. *)
From Verif Require Import Py PyFacts Dict DictFacts UtilModel BoardModel BoardSpec ImageModel ImageSpec ImageCss ImageTree ImageBoard ImageMag AttrSpec AttrProofs
  ThemeModel ThemePath ThemeTree ThemeSpec ThemeSound ThemeProofs PilModel PilSpec.
Open Scope string_scope.
Open Scope list_scope.
Open Scope Z_scope.

Lemma half a : 0 <= a - 2 * (a / 2) <= 1.
Proof. pose proof (Z.div_mod a 2 ltac:(lia)). pose proof (Z.mod_pos_bound a 2 ltac:(lia)). lia. Qed.
Lemma amid_half len start room : len < room -> amid (start + (room - len) / 2) len start room.
Proof. intros H. pose proof (half (room - len)). unfold amid. lia. Qed.

Section World.
Context {font image : Type}.
Variable truetype : str -> Z -> res font.
Variable getsize : font -> str -> Z * Z.
Variable open_image : str -> res image.
Variable turned : image -> image.
Variable resize : image -> xy -> res image.
Variable size_of : image -> xy.
Variable has_mask : image -> bool.
Hypothesis RS : resizes resize size_of.
Let call := @call font image.
Let ctx := @context font image.
Let picture := @picture font image.
Let shown := shown truetype getsize open_image turned resize has_mask.
Let shown_all := shown_all truetype getsize open_image turned resize has_mask.
Let lettered := lettered (image := image) truetype getsize.
Let fits := fits getsize.
Let too_big := too_big truetype getsize.
Let read_image := read_image open_image turned resize.
Let ask := ask truetype getsize open_image turned resize size_of has_mask.
Let ask_all := ask_all truetype getsize open_image turned resize size_of has_mask.
Let load_font := load_font (image := image) truetype.
Let load_image := load_image (font := font) open_image turned resize.
Let smaller := smaller (image := image) truetype getsize.

(* ---- caches ---- *)
Definition coherent (c : ctx) : Prop :=
  (forall k f, In (k, f) (fonts c) -> fst k <> [] /\ truetype (fst k) (snd k) = Ok f) /\
  (forall k i, In (k, i) (images c) -> read_image (fst (fst k)) (snd (fst k)) (snd k) = Ok i).
Lemma dget_entry {K V} (eqb : K -> K -> bool) d k (v : V) : dget eqb d k = Some v -> exists k', In (k', v) d /\ eqb k k' = true.
Proof.
  induction d as [|[k' v'] d IH]; cbn [dget]; [discriminate|]. destruct (eqb k k') eqn:E; [intros [= ->]; exists k'; split; [left; reflexivity|exact E]|].
  intros H. destruct (IH H) as (j & I & F). exists j. split; [right; exact I|exact F].
Qed.
Lemma dset_entry {K V} (eqb : K -> K -> bool) d k (v : V) : dget eqb d k = None -> dset eqb d k v = d ++ [(k, v)].
Proof.
  induction d as [|[k' v'] d IH]; cbn [dget dset]; [reflexivity|]. destruct (eqb k k') eqn:E; [discriminate|]. intros H. cbn. f_equal. apply IH, H.
Qed.
Lemma value_eqb_truthy a b : value_eqb a b = true -> truthy a = truthy b.
Proof.
  destruct a as [x|x|x|x], b as [y|y|y|y]; cbn [value_eqb truthy]; try discriminate; intros H.
  - apply Z.eqb_eq in H as ->. reflexivity.
  - apply Z.eqb_eq in H as ->. destruct y; reflexivity.
  - apply sq in H as ->. reflexivity.
  - apply Z.eqb_eq in H as ->. destruct x; reflexivity.
  - destruct x, y; (reflexivity || discriminate).
  - f_equal. destruct x as [x|x| |x m e], y as [y|y| |y n g]; try discriminate H; try reflexivity; destruct x, y; (reflexivity || discriminate H).
Qed.
Lemma oval_truthy a b : oval_eqb a b = true -> otruthy a = otruthy b.
Proof. destruct a, b; cbn; try discriminate; [apply value_eqb_truthy|reflexivity]. Qed.

(* what a computation does, whatever has been cached: it draws ks and gives r *)
Definition does {T} (m : ctx -> ctx * res T) (ks : list call) (r : res T) : Prop :=
  forall (c : ctx) (ps : list picture) (p : picture), coherent c -> dc c = Some (List.length ps) -> pictures c = ps ++ [p] ->
  exists c', m c = (c', r) /\ coherent c' /\ dc c' = dc c /\ pictures c' = ps ++ [mkpicture (psize p) (calls p ++ ks)].
Lemma same_picture (p : picture) : mkpicture (psize p) (calls p ++ []) = p.
Proof. rewrite app_nil_r. destruct p. reflexivity. Qed.
Lemma does_same {T} (m : ctx -> ctx * res T) r : (forall c, coherent c -> exists c', m c = (c', r) /\ coherent c' /\ dc c' = dc c /\ pictures c' = pictures c) -> does m [] r.
Proof. intros H c ps p C D P. destruct (H c C) as (c' & E & C' & D' & P'). exists c'. rewrite same_picture. split; [exact E|]. split; [exact C'|]. split; [exact D'|]. rewrite P'. exact P. Qed.
Lemma does_lift {T} (r : res T) : does (lift r) [] r.
Proof. apply does_same. intros c C. exists c. auto. Qed.
Lemma does_ret {T} (x : T) : does (ret x) [] (Ok x).
Proof. apply does_same. intros c C. exists c. auto. Qed.
Lemma does_fail {T} e : does (@fail font image T e) [] (Exc e).
Proof. apply does_same. intros c C. exists c. auto. Qed.
Lemma does_then {T U} (m : ctx -> ctx * res T) (k : T -> ctx -> ctx * res U) x ks ks' r : does m ks (Ok x) -> does (k x) ks' r -> does (andthen m k) (ks ++ ks') r.
Proof.
  intros M K c ps p C D P. destruct (M c ps p C D P) as (c1 & E1 & C1 & D1 & P1). destruct (K c1 ps _ C1 (eq_trans D1 D) P1) as (c2 & E2 & C2 & D2 & P2).
  exists c2. unfold andthen. rewrite E1, E2. split; [reflexivity|]. split; [exact C2|]. split; [congruence|]. rewrite P2. cbn [psize calls]. rewrite <- app_assoc. reflexivity.
Qed.
Lemma does_stop {T U} (m : ctx -> ctx * res T) (k : T -> ctx -> ctx * res U) e ks : does m ks (Exc e) -> does (andthen m k) ks (Exc e).
Proof. intros M c ps p C D P. destruct (M c ps p C D P) as (c1 & E1 & H). exists c1. unfold andthen. rewrite E1. split; [reflexivity|exact H]. Qed.
Lemma list_set_last {X} (l : list X) x y : list_set (l ++ [x]) (List.length l) y = l ++ [y].
Proof. induction l as [|z l IH]; [reflexivity|]. cbn. f_equal. exact IH. Qed.
Lemma nth_last {X} (l : list X) x : nth_error (l ++ [x]) (List.length l) = Some x.
Proof. rewrite nth_error_app2 by lia. rewrite Nat.sub_diag. reflexivity. Qed.
Lemma does_emit k : does (emit k) [k] (Ok tt).
Proof.
  intros c ps p C D P. unfold emit. rewrite D, P, nth_last, list_set_last. eexists. split; [reflexivity|]. split; [exact C|]. split; [symmetry in D|reflexivity]. cbn [set_pictures dc]. symmetry. exact D.
Qed.
Lemma does_font uri s : does (load_font uri s) [] (match uri with [] => Exc AssertionError | _ => truetype uri s end).
Proof.
  apply does_same. intros c (CF & CI). unfold load_font, PilModel.load_font. destruct (dget fkey_eqb (fonts c) (uri, s)) as [f|] eqn:E.
  - apply dget_entry in E as ((u & z) & I & E). unfold fkey_eqb in E. cbn [fst snd] in E. apply andb_prop in E as (E1 & E2). apply sq in E1 as <-. apply Z.eqb_eq in E2 as <-.
    destruct (CF _ _ I) as (N & F). cbn [fst snd] in *. exists c. split; [|split; [split; assumption|auto]]. destruct uri; [contradiction|rewrite F; reflexivity].
  - destruct uri as [|a u]; [exists c; split; [reflexivity|split; [split; assumption|split; reflexivity]]|]. destruct (truetype (a :: u) s) as [f|e] eqn:F; [|exists c; split; [reflexivity|split; [split; assumption|split; reflexivity]]].
    eexists. split; [reflexivity|]. split; [|split; reflexivity]. split; [|exact CI]. cbn [fonts set_fonts]. rewrite dset_entry by exact E. intros k g I.
    apply in_app_or in I as [I|[I|[]]]; [apply CF, I|]. injection I as <- <-. cbn [fst snd]. split; [discriminate|exact F].
Qed.
Lemma does_image uri s flip : does (load_image uri s flip) [] (read_image uri s flip).
Proof.
  apply does_same. intros c (CF & CI). unfold load_image, PilModel.load_image. destruct (dget ikey_eqb (images c) (uri, s, flip)) as [i|] eqn:E.
  - apply dget_entry in E as (((u & z) & fl) & I & E). unfold ikey_eqb in E. cbn [fst snd] in E. apply andb_prop in E as (E & E3). apply andb_prop in E as (E1 & E2).
    apply sq in E1 as <-. pose proof (CI _ _ I) as R. cbn [fst snd] in R. apply oval_truthy in E3. exists c. split; [|split; [split; assumption|split; reflexivity]].
    f_equal. rewrite <- R. unfold read_image, PilSpec.read_image. rewrite E3.
    unfold zpair_eqb in E2. apply andb_prop in E2 as (A2 & B2). apply Z.eqb_eq in A2, B2. destruct s, z. cbn [fst snd] in *. subst. reflexivity.
  - unfold read_image, PilSpec.read_image in *. destruct (bind (open_image uri) _) as [i|e] eqn:F; [|exists c; split; [reflexivity|split; [split; assumption|split; reflexivity]]].
    eexists. split; [reflexivity|]. split; [|split; reflexivity]. split; [exact CF|]. cbn [images set_images]. rewrite dset_entry by exact E. intros k j I.
    apply in_app_or in I as [I|[I|[]]]; [apply CI, I|]. injection I as <- <-. exact F.
Qed.

(* ---- a text ---- *)
Lemma big_or_fits text box f : if (fst (getsize f text) >=? fst box) || (snd (getsize f text) >=? snd box) then ~ fits text box f else fits text box f.
Proof. unfold fits, PilSpec.fits. destruct (_ || _) eqn:E; [apply orb_prop in E as [E|E]; lia|apply orb_false_elim in E; lia]. Qed.
Lemma smaller_does uri text box (N : uri <> []) : forall fuel s f, truetype uri s = Ok f -> (Z.to_nat s < fuel)%nat -> allowed box s ->
  (forall s', s < s' <= snd box -> too_big uri text box s') ->
  (exists s' g, does (smaller fuel uri box text s (fst (getsize f text)) (snd (getsize f text))) [] (Ok (Some s', fst (getsize g text), snd (getsize g text))) /\
    allowed box s' /\ truetype uri s' = Ok g /\ fits text box g /\ (forall s'', s' < s'' <= snd box -> too_big uri text box s'')) \/
  (exists w h, does (smaller fuel uri box text s (fst (getsize f text)) (snd (getsize f text))) [] (Ok (None, w, h)) /\ forall s', allowed box s' -> too_big uri text box s') \/
  (exists s' e, does (smaller fuel uri box text s (fst (getsize f text)) (snd (getsize f text))) [] (Exc e) /\
    allowed box s' /\ truetype uri s' = Exc e /\ (forall s'', s' < s'' <= snd box -> too_big uri text box s'')).
Proof.
  induction fuel as [|fuel IH]; intros s f F L Al B; [lia|]. cbn [smaller PilModel.smaller]. pose proof (big_or_fits text box f) as O.
  unfold smaller. cbn [PilModel.smaller]. destruct ((fst (getsize f text) >=? fst box) || (snd (getsize f text) >=? snd box)).
  2:{ left. exists s, f. split; [apply does_ret|]. auto. }
  assert (B' : forall s', s - 1 < s' <= snd box -> too_big uri text box s').
  { intros s' H. destruct (Z.eq_dec s' s) as [->|]; [exists f; auto|apply B; lia]. }
  destruct (s - 1 <? 8) eqn:E8.
  - right. left. do 2 eexists. split; [apply does_ret|]. intros s' [->|A']; [|apply B'; lia].
    destruct Al as [->|Al]; [exists f; auto|apply B; lia].
  - assert (A1 : allowed box (s - 1)) by (destruct Al as [->|Al]; right; lia).
    pose proof (does_font uri (s - 1)) as D. destruct uri as [|a u]; [contradiction|]. destruct (truetype (a :: u) (s - 1)) as [g|e] eqn:G.
    + destruct (IH (s - 1) g G ltac:(lia) A1 B') as [(s' & g' & D' & H)|[(w & h & D' & H)|(s' & e & D' & H)]].
      * left. exists s', g'. split; [|exact H]. exact (does_then _ _ _ [] [] _ D D').
      * right. left. exists w, h. split; [|exact H]. exact (does_then _ _ _ [] [] _ D D').
      * right. right. exists s', e. split; [|exact H]. exact (does_then _ _ _ [] [] _ D D').
    + right. right. exists (s - 1), e. split; [exact (does_stop _ _ _ [] D)|]. auto.
Qed.
Lemma text_does p box text uri fill : exists ks r, does (draw_text truetype getsize p box text uri fill) ks r /\ lettered p box text uri fill ks r.
Proof.
  unfold draw_text, calc_font_size. pose proof (does_font uri (snd box)) as D. fold load_font. fold smaller. destruct uri as [|a u] eqn:EU.
  - do 2 eexists. split; [|apply Unnamed; reflexivity]. apply does_stop, does_stop, D.
  - assert (N : uri <> []) by (rewrite EU; discriminate). rewrite <- EU in *. destruct (truetype uri (snd box)) as [f|e] eqn:F.
    + destruct (smaller_does uri text box N (Z.to_nat (snd box) + 1) (snd box) f F ltac:(lia) ltac:(left; reflexivity) ltac:(lia))
        as [(s' & g' & D' & A1 & G & Fi & B)|[(w & h & D' & H)|(s' & e & D' & A1 & G & B)]].
      * do 2 eexists. split; [|exact (Fitting _ _ _ _ _ _ _ s' g' N A1 G Fi B)].
        eapply (does_then _ _ _ []); [exact (does_then _ _ _ [] [] _ D D')|]. cbv beta iota.
        eapply (does_then _ _ _ []); [|apply does_emit]. pose proof (does_font uri s') as D2. rewrite EU in D2 |- *. rewrite <- EU in D2 |- *. rewrite G in D2. exact D2.
      * do 2 eexists. split; [|exact (Hopeless _ _ _ _ _ _ _ N H)]. eapply (does_then _ _ _ []); [exact (does_then _ _ _ [] [] _ D D')|]. apply does_ret.
      * do 2 eexists. split; [|exact (Unreadable _ _ _ _ _ _ _ s' e N A1 G B)]. apply does_stop. exact (does_then _ _ _ [] [] _ D D').
    + do 2 eexists. split; [|apply (Unreadable _ _ _ _ _ _ _ (snd box) e N (or_introl eq_refl) F); lia]. apply does_stop, does_stop, D.
Qed.

(* ---- all that an element asks for ---- *)
Definition stringy (k : cmd) : Prop :=
  match k with DrawText _ _ _ v _ => exists s, v = VStr s | PasteImage v _ _ _ => exists s, v = VStr s | _ => True end.
Lemma ask_does k : exists ks r, does (ask k) ks r /\ (stringy k -> shown k ks r).
Proof.
  destruct k as [p s t v fill|p s fill|ps fill|p s fill|v s flip p]; cbn [stringy].
  - destruct v as [z|uri|b|f]; try (exists [], (Exc Unmodelled); split; [apply does_fail|intros (? & [=])]).
    destruct (text_does p s t uri fill) as (ks & r & D & H). exists ks, r. split; [exact D|intros _; constructor; exact H].
  - do 2 eexists. split; [apply does_emit|intros _; constructor].
  - do 2 eexists. split; [apply does_emit|intros _; constructor].
  - do 2 eexists. split; [apply does_emit|intros _; constructor].
  - destruct v as [z|uri|b|f]; try (exists [], (Exc Unmodelled); split; [apply does_fail|intros (? & [=])]).
    pose proof (does_image uri s flip) as D. destruct (read_image uri s flip) as [i|e] eqn:R.
    + do 2 eexists. split; [|intros _; apply ShowImage, R]. eapply (does_then _ _ _ []); [exact D|]. cbv beta. eapply (does_then _ _ tt []); [|apply does_emit].
      assert (Z0 : size_of i = s). { unfold read_image, PilSpec.read_image in R. destruct (open_image uri); [|discriminate]. exact (RS _ _ _ R). }
      rewrite Z0, !Z.eqb_refl. apply does_lift.
    + do 2 eexists. split; [|intros _; apply LoseImage, R]. apply does_stop, D.
Qed.
Lemma ask_all_does cs : exists ks r, does (ask_all cs) ks r /\ (Forall stringy cs -> shown_all cs ks r).
Proof.
  induction cs as [|k cs IH]; [exists [], (Ok tt); split; [apply does_ret|intros _; constructor]|].
  destruct (ask_does k) as (ks & r & D & H). destruct r as [[]|e].
  - destruct IH as (ks' & r' & D' & H'). exists (ks ++ ks'), r'. split; [exact (does_then _ _ _ _ _ _ D D')|]. intros F. inversion F; subst. constructor; [apply H; assumption|apply H'; assumption].
  - exists ks, (Exc e). split; [exact (does_stop _ _ _ _ D)|]. intros F. inversion F; subst. apply ShownStop, H; assumption.
Qed.
Lemma shown_app cs ks cs' ks' r : shown_all cs ks (Ok tt) -> shown_all cs' ks' r -> shown_all (cs ++ cs') (ks ++ ks') r.
Proof.
  remember (Ok tt) as o eqn:EO. intros H. induction H as [|k cs ks1 ks2 r1 K H IH|k cs ks1 e K]; intros H'; [exact H'| |discriminate EO].
  rewrite <- app_assoc. cbn [app]. constructor; [exact K|]. apply IH; assumption.
Qed.
Lemma shown_stop cs ks cs' e : shown_all cs ks (Exc e) -> shown_all (cs ++ cs') ks (Exc e).
Proof.
  remember (Exc e) as o eqn:EO. intros H. induction H as [|k cs ks1 ks2 r1 K H IH|k cs ks1 e1 K]; [discriminate EO| |].
  - cbn [app]. constructor; [exact K|]. apply IH, EO.
  - cbn [app]. apply ShownStop, K.
Qed.

(* ---- the visit ---- *)
Let pil_element := pil_element truetype getsize open_image turned resize size_of has_mask.
Let pil_visit := pil_visit truetype getsize open_image turned resize size_of has_mask.
Definition at_element (path : list elem) (s : ctx * res unit) : ctx * res unit :=
  match s with
  | (c, Exc e) => (c, Exc e)
  | (c, Ok _) => match draw_element path with Ok ks => ask_all ks c | Exc e => (c, Exc e) end
  end.
Fixpoint along (l : list (list elem)) (s : ctx * res unit) : ctx * res unit := match l with [] => s | p :: l => along l (at_element p s) end.
Lemma run_along l : forall s, run_all (fun p s => Ok (at_element p s)) l s = Ok (along l s).
Proof. induction l as [|p l IH]; intros s; [reflexivity|]. cbn [run_all bind along]. apply IH. Qed.
Lemma pil_visit_along t c : pil_visit t c = along (paths [] t) (c, Ok tt).
Proof.
  assert (V : visit_tree pil_element t (c, Ok tt) = visit_tree (watching (fun p s => Ok (at_element p s))) t (c, Ok tt)).
  { unfold visit_tree. rewrite (visit_ext pil_element (watching (fun p s => Ok (at_element p s)))); [reflexivity|].
    intros p s. unfold pil_element, PilModel.pil_element, watching. destruct (last_head p); reflexivity. }
  rewrite visit_paths, run_along in V. cbn [bind] in V. unfold pil_visit, PilModel.pil_visit. fold pil_element. rewrite V. reflexivity.
Qed.
Lemma along_exc l c e : along l (c, Exc e) = (c, Exc e).
Proof. induction l as [|p l IH]; [reflexivity|exact IH]. Qed.
Lemma along_does l : exists ks r, does (fun c => along l (c, Ok tt)) ks r /\
  match run_all add_drawing l [] with
  | Ok cs => Forall stringy cs -> shown_all cs ks r
  | Exc _ => exists e, r = Exc e
  end.
Proof.
  assert (G : forall l dc, run_all add_drawing l dc = let! cs := run_all add_drawing l [] in Ok (dc ++ cs)).
  { clear l. induction l as [|p l IH]; intros d; cbn [run_all bind]; [rewrite app_nil_r; reflexivity|]. unfold add_drawing at 1 3. destruct (draw_element p) as [k|]; [|reflexivity].
    cbn [bind app]. rewrite (IH (d ++ k)), (IH k). destruct (run_all add_drawing l []); cbn [bind]; [rewrite app_assoc|]; reflexivity. }
  induction l as [|p l IH].
  - exists [], (Ok tt). split; [apply (does_ret tt)|]. cbn. constructor.
  - cbn [run_all along]. unfold add_drawing at 1. cbn [at_element]. destruct (draw_element p) as [d|e].
    2:{ exists [], (Exc e). split; [|cbn; eexists; reflexivity]. intros c ps q C D P. rewrite along_exc. apply (does_fail (T := unit) e c ps q C D P). }
    cbn [bind app]. destruct (ask_all_does d) as (ks & r & D & H). destruct IH as (ks' & r' & D' & H'). rewrite G. destruct r as [[]|e].
    + exists (ks ++ ks'), r'. split.
      * intros c ps q C Dc P. destruct (does_then _ (fun _ c => along l (c, Ok tt)) _ _ _ _ D D' c ps q C Dc P) as (c' & E & X). exists c'. split; [|exact X].
        unfold andthen in E. destruct (ask_all d c) as [c1 r1] eqn:E1. destruct r1 as [[]|e]; [exact E|]. rewrite along_exc. exact E.
      * destruct (run_all add_drawing l []) as [cs|e]; cbn [bind]; [|exact H']. intros F. apply Forall_app in F as (F1 & F2). apply shown_app; [apply H, F1|apply H', F2].
    + exists ks, (Exc e). split.
      * intros c ps q C Dc P. destruct (D c ps q C Dc P) as (c' & E & X). exists c'. split; [|exact X]. rewrite E. apply along_exc.
      * destruct (run_all add_drawing l []) as [cs|e']; cbn [bind]; [|eexists; reflexivity]. intros F. apply Forall_app in F as (F1 & F2). apply shown_stop, H, F1.
Qed.

(* ---- one call of draw ---- *)
Lemma step_ok {T U} (m : ctx -> ctx * res T) (k : T -> ctx -> ctx * res U) c c' x : m c = (c', Ok x) -> andthen m k c = k x c'.
Proof. intros E. unfold andthen. rewrite E. reflexivity. Qed.
Lemma step_exc {T U} (m : ctx -> ctx * res T) (k : T -> ctx -> ctx * res U) c c' e : m c = (c', Exc e) -> andthen m k c = (c', Exc e).
Proof. intros E. unfold andthen. rewrite E. reflexivity. Qed.
Let answer := answer truetype getsize open_image turned resize size_of has_mask.
Let after := after truetype getsize open_image turned resize size_of has_mask.
Let do_job := do_job truetype getsize open_image turned resize size_of has_mask.
Let pil_draw := pil_draw truetype getsize open_image turned resize size_of has_mask.
Lemma draw_does css b size : exists (made : list picture) (r : res unit),
  (forall c, coherent c -> exists c', pil_draw css b size c = (c', let! _ := r in Ok (List.length (pictures c))) /\ coherent c' /\ pictures c' = pictures c ++ made) /\
  match asked css b size with
  | Ok cs => exists ks, made = [mkpicture size ks] /\ (Forall stringy cs -> shown_all cs ks r)
  | Exc _ => exists e, r = Exc e
  end.
Proof.
  set (q := let! t := board_tree b in let! t := style css t in set_mag t size).
  assert (AQ : asked css b size = let! t := q in draw_tree t).
  { unfold asked, q. destruct (board_tree b); [|reflexivity]. cbn [bind]. destruct (style css _); [|reflexivity]. cbn [bind]. destruct (set_mag _ size); reflexivity. }
  rewrite AQ. destruct q as [t|e] eqn:Q.
  - cbn [bind]. rewrite draw_tree_paths. destruct (along_does (paths [] t)) as (ks & r & D & H). exists [mkpicture size ks], r. split.
    + intros c C. set (c0 := set_dc c None). set (c1 := set_dc (set_pictures c0 (pictures c ++ [mkpicture size []])) (Some (List.length (pictures c)))).
      assert (C1 : coherent c1) by exact C. destruct (D c1 (pictures c) (mkpicture size []) C1 eq_refl eq_refl) as (c2 & E2 & C2 & D2 & P2).
      cbn [calls psize app] in P2. cbn [dc c1 set_dc] in D2.
      exists (match r with Ok _ => set_dc c2 None | Exc _ => c2 end). split; [|destruct r; (split; [exact C2|exact P2])].
      unfold pil_draw, PilModel.pil_draw. fold q. rewrite Q.
      assert (X : (match dc c with Some _ => delete_dc c | None => (c, Ok tt) end) = (c0, Ok tt)).
      { unfold delete_dc, c0. destruct (dc c) eqn:DC; [reflexivity|]. unfold set_dc. rewrite <- DC. destruct c; reflexivity. }
      rewrite (step_ok _ _ c c0 tt X). rewrite (step_ok _ _ c0 c0 t eq_refl). rewrite (step_ok _ _ c0 c1 tt eq_refl).
      rewrite <- pil_visit_along in E2. destruct r as [[]|e]; [|exact (step_exc _ _ c1 c2 e E2)].
      rewrite (step_ok _ _ c1 c2 tt E2). rewrite (step_ok result_from_dc _ c2 c2 (List.length (pictures c))) by (unfold result_from_dc; rewrite D2; reflexivity).
      rewrite (step_ok delete_dc _ c2 (set_dc c2 None) tt) by (unfold delete_dc; rewrite D2; reflexivity). reflexivity.
    + destruct (run_all add_drawing (paths [] t) []); [|exact H]. exists ks. split; [reflexivity|exact H].
  - cbn [bind]. exists [], (Exc e). split; [|eexists; reflexivity]. intros c C. exists (set_dc c None).
    split; [|split; [exact C|rewrite app_nil_r; reflexivity]].
    unfold pil_draw, PilModel.pil_draw. fold q. rewrite Q.
    assert (X : (match dc c with Some _ => delete_dc c | None => (c, Ok tt) end) = (set_dc c None, Ok tt)).
    { unfold delete_dc. destruct (dc c) eqn:DC; [reflexivity|]. unfold set_dc. rewrite <- DC. destruct c; reflexivity. }
    rewrite (step_ok _ _ c (set_dc c None) tt X). reflexivity.
Qed.
Lemma coherent_fresh : coherent fresh_context.
Proof. split; intros k x []. Qed.
Lemma coherent_job c j : coherent c -> coherent (do_job c j).
Proof.
  destruct j as [[css b] size]. intros C. destruct (draw_does css b size) as (made & r & H & _). destruct (H c C) as (c' & E & C' & _).
  unfold do_job, PilSpec.do_job. cbn [fst snd]. fold pil_draw. rewrite E. exact C'.
Qed.
Lemma coherent_after js : coherent (after js).
Proof.
  assert (G : forall js c, coherent c -> coherent (fold_left do_job js c)) by (clear js; induction js as [|j js IH]; intros c C; [exact C|apply IH, coherent_job, C]).
  apply G, coherent_fresh.
Qed.
Lemma job_does css b size : exists made a, (forall c, coherent c -> answer c (css, b, size) = a /\ pictures (do_job c (css, b, size)) = pictures c ++ made) /\
  match asked css b size with
  | Ok cs => exists ks r, made = [mkpicture size ks] /\ a = (let! _ := r in Ok (mkpicture size ks)) /\ (Forall stringy cs -> shown_all cs ks r)
  | Exc _ => exists e, a = Exc e
  end.
Proof.
  destruct (draw_does css b size) as (made & r & H & K). exists made, (let! _ := r in match made with p :: _ => Ok p | [] => Exc Unmodelled end). split.
  - intros c C. destruct (H c C) as (c' & E & C' & P). unfold answer, PilSpec.answer, do_job, PilSpec.do_job. cbn [fst snd]. fold pil_draw. rewrite E. cbn [fst]. split; [|exact P].
    destruct r as [[]|e]; [|reflexivity]. cbn [bind]. rewrite P, nth_error_app2 by lia. rewrite Nat.sub_diag. destruct made; reflexivity.
  - destruct (asked css b size) as [cs|e].
    + destruct K as (ks & -> & K). exists ks, r. auto.
    + destruct K as (e' & ->). exists e'. reflexivity.
Qed.

(* ---- what an element names is a text ---- *)
Lemma text_right n v : In (L n) text_names -> right_type (L n) v -> exists s, v = VStr s.
Proof.
  intros I [(J & _)|[(_ & H)|[(J & _)|[(l & s & J & _ & H)|(J & _)]]]].
  - exfalso. revert I J. generalize (L n). cbn. intros m. intuition congruence.
  - exact H.
  - exfalso. revert I J. generalize (L n). cbn. intros m. intuition congruence.
  - eauto.
  - exfalso. revert I J. generalize (L n). cbn. intros m. intuition congruence.
Qed.
Section Up.
Variable up : list head.
Hypothesis R : forall n v, get_attr up n = Ok v -> right_type n v.
Lemma font_text v : get_attr up (L "font") = Ok v -> exists s, v = VStr s.
Proof. intros G. apply (text_right "font"); [cbn; tauto|apply R, G]. Qed.
Lemma image_text v : get_attr up (L "image") = Ok v -> exists s, v = VStr s.
Proof. intros G. apply (text_right "image"); [cbn; tauto|apply R, G]. Qed.
Lemma image_opt o : opt_attr up "image" = Ok o -> exists s, match o with Some v => v | None => VStr [] end = VStr s.
Proof.
  unfold opt_attr. destruct (get_attr up (L "image")) as [v|e] eqn:G.
  - intros [= <-]. apply image_text, G.
  - destruct e; try discriminate; intros [= <-]; eexists; reflexivity.
Qed.
Lemma paste_stringy o size position ks : opt_attr up "image" = Ok o -> paste up o size position = Ok ks -> Forall stringy ks.
Proof. unfold paste. intros I. destruct (get_attr up (L "flip")); [|discriminate]. intros [= <-]. repeat constructor. apply image_opt, I. Qed.
Lemma row_stringy n v size position off : (exists s, v = VStr s) -> Forall stringy (paste_row n v size position off).
Proof. intros (s & ->). revert position. induction n as [|n IH]; intros position; cbn; constructor; [eexists; reflexivity|apply IH]. Qed.
Ltac inv H :=
  repeat (cbv zeta in H; match type of H with
  | bind ?x _ = Ok _ => let E := fresh "E" in destruct x eqn:E; cbn [bind] in H; [|discriminate H]
  | (let '(_, _) := ?x in _) = Ok _ => destruct x
  | (if ?c then _ else _) = Ok _ => let E := fresh "E" in destruct c eqn:E
  | Exc _ = Ok _ => discriminate H
  end).
Lemma loop_stringy n : forall o color fill size position off r, opt_attr up "image" = Ok o -> chequer_loop n up o color fill size position off = Ok r -> Forall stringy (fst r).
Proof.
  induction n as [|n IH]; intros o color fill size position off r I H; cbn [chequer_loop] in H; [injection H as <-; constructor|].
  destruct (if otruthy o then _ else _) as [c|] eqn:E; [|discriminate]. cbn [bind] in H. inv H; injection H as <-; cbn [fst]; apply Forall_app; (split; [|eapply IH; eassumption]);
  (destruct (otruthy o); [eapply paste_stringy; eassumption|injection E as <-; repeat constructor]).
Qed.
Lemma chequer_stringy e ks : draw_chequer up e = Ok ks -> Forall stringy ks.
Proof.
  unfold draw_chequer. intros H. inv H; injection H as <-.
  - apply Forall_app. split; [eapply loop_stringy; eassumption|]. repeat constructor. eapply font_text; eassumption.
  - eapply loop_stringy; eassumption.
Qed.
Lemma base_stringy ks : draw_base up = Ok ks -> Forall stringy ks.
Proof.
  unfold draw_base. intros H. inv H; [|injection H as <-; constructor]. eapply paste_stringy; [|exact H]. unfold opt_attr. match goal with G : get_attr up (L "image") = Ok _ |- _ => rewrite G end. reflexivity.
Qed.
Lemma method_stringy e ks : draw_method up e = Ok ks -> Forall stringy ks.
Proof.
  unfold draw_method. destruct (kind (ehead e)); try apply base_stringy; try apply chequer_stringy.
  all: unfold draw_text_elem, draw_crawford, draw_field, draw_die, draw_cube, draw_resign, draw_point; intros H; inv H.
  all: try (eapply paste_stringy; [|exact H]; eassumption).
  all: injection H as <-.
  all: try (apply row_stringy; eapply image_opt; eassumption).
  all: repeat constructor; try (eapply font_text; eassumption); try (eapply image_opt; eassumption).
Qed.
End Up.
Lemma element_stringy p ks : (forall n v, get_attr (map ehead (rev p)) n = Ok v -> right_type n v) -> draw_element p = Ok ks -> Forall stringy ks.
Proof.
  intros R. unfold draw_element. cbv zeta. destruct (pyget p (-1)) as [e|]; [|discriminate]. cbn [bind].
  destruct (if has_attr _ "background" then _ else _) as [bg|] eqn:B; [|discriminate]. cbn [bind].
  destruct (if has_attr _ "image" || _ then _ else _) as [fg|] eqn:F; [|discriminate]. cbn [bind]. intros [= <-]. apply Forall_app. split.
  - destruct (has_attr _ "background"); [|injection B as <-; constructor]. unfold bg_draw in B. 
    destruct (get_attr _ (L "background")); [|discriminate]. cbn [bind] in B. destruct (mag2 _ "width" "height"); [|discriminate]. cbn [bind] in B.
    destruct (mag2 _ "x" "y"); [|discriminate]. injection B as <-. repeat constructor.
  - destruct (_ || _); [|injection F as <-; constructor]. eapply method_stringy; eassumption.
Qed.
Lemma asked_stringy css b size cs : sides_ok b -> asked css b size = Ok cs -> Forall stringy cs.
Proof.
  intros B A. unfold asked in A. destruct (board_tree b) as [t|] eqn:Et; [|discriminate]. cbn [bind] in A. destruct (style css t) as [t1|] eqn:E1; [|discriminate]. cbn [bind] in A.
  destruct (set_mag t1 size) as [t2|] eqn:E2; [|discriminate]. cbn [bind] in A.
  assert (T2 : typed_tree t2) by (eapply mag_typed; [|exact E2]; eapply style_typed; [|exact E1]; eapply tree_typed; [exact B|exact Et]).
  rewrite draw_tree_paths in A.
  assert (G : forall l dc cs, (forall p, In p l -> In p (paths [] t2)) -> Forall stringy dc -> run_all add_drawing l dc = Ok cs -> Forall stringy cs).
  { induction l as [|p l IH]; intros d ks I F H; cbn [run_all] in H; [injection H as <-; exact F|]. unfold add_drawing at 1 in H. destruct (draw_element p) as [k|] eqn:D; [|discriminate]. cbn [bind] in H.
    apply (IH (d ++ k) ks); [intros q J; apply I; right; exact J| |exact H]. apply Forall_app. split; [exact F|]. eapply element_stringy; [|exact D].
    intros n v. apply (path_right t2 p n v); [exact T2|apply I; left; reflexivity]. }
  apply (G _ [] _ (fun p H => H)) in A; [exact A|constructor].
Qed.
(* ---- the theorems ---- *)
Lemma picture_made js css b size : sides_ok b ->
  match asked css b size with
  | Ok cs => exists ks r, shown_all cs ks r /\ answer (after js) (css, b, size) = (let! _ := r in Ok (mkpicture size ks))
  | Exc _ => exists e, answer (after js) (css, b, size) = Exc e
  end.
Proof.
  intros B. destruct (job_does css b size) as (made & a & H & K). destruct (H _ (coherent_after js)) as (A1 & _). rewrite A1. destruct (asked css b size) as [cs|e] eqn:Q; [|exact K].
  destruct K as (ks & r & _ & -> & K). exists ks, r. split; [|reflexivity]. apply K. eapply asked_stringy; eassumption.
Qed.
Lemma same_answer js js' j : answer (after js) j = answer (after js') j.
Proof.
  destruct j as [[css b] size]. destruct (job_does css b size) as (made & a & H & _). destruct (H _ (coherent_after js)) as (-> & _). destruct (H _ (coherent_after js')) as (-> & _). reflexivity.
Qed.
Lemma pictures_kept js j : exists new, pictures (after (js ++ [j])) = pictures (after js) ++ new.
Proof.
  destruct j as [[css b] size]. destruct (job_does css b size) as (made & a & H & _). destruct (H _ (coherent_after js)) as (_ & P). exists made.
  unfold after, PilSpec.after. rewrite fold_left_app. cbn [fold_left]. exact P.
Qed.
Lemma call_source cs ks r c : shown_all cs ks r -> In c ks -> exists k ks' r', In k cs /\ shown k ks' r' /\ In c ks'.
Proof.
  induction 1 as [|k cs ks ks' r K _ IH|k cs ks e K]; intros I; [destruct I| |].
  - apply in_app_or in I as [I|I]; [exists k, ks, (Ok tt); split; [left; reflexivity|auto]|]. destruct (IH I) as (k' & a & b & J & H). exists k', a, b. split; [right; exact J|exact H].
  - exists k, ks, (Exc e). split; [left; reflexivity|auto].
Qed.
Lemma all_shown cs ks k : shown_all cs ks (Ok tt) -> In k cs -> exists ks', shown k ks' (Ok tt) /\ incl ks' ks.
Proof.
  remember (Ok tt) as r eqn:ER. intros H. induction H as [|k' cs ks ks' r K _ IH|k' cs ks e K]; intros I; [destruct I| |discriminate ER].
  subst r. destruct I as [->|I]; [exists ks; split; [exact K|apply incl_appl, incl_refl]|]. destruct (IH eq_refl I) as (a & H & J). exists a. split; [exact H|apply incl_appr, J].
Qed.
Lemma stopped cs ks e : shown_all cs ks (Exc e) -> exists k ks', In k cs /\ shown k ks' (Exc e).
Proof.
  remember (Exc e) as r eqn:ER. intros H. induction H as [|k cs ks ks' r K _ IH|k cs ks e' K]; [discriminate ER| |].
  - destruct (IH ER) as (k' & a & I & H). exists k', a. split; [right; exact I|exact H].
  - exists k, ks. split; [left; reflexivity|exact K].
Qed.
End World.

Section Library.
Context {font image : Type} (P : pil font image).
Lemma pil_picture js css b size : sides_ok b ->
  match asked css b size with
  | Ok cs => exists ks r, shows P cs ks r /\ draws P js css b size = (let! _ := r in Ok (mkpicture size ks))
  | Exc _ => exists e, draws P js css b size = Exc e
  end.
Proof. apply picture_made. destruct P; assumption. Qed.
Lemma pil_texts js css b size cs pic : sides_ok b -> asked css b size = Ok cs -> draws P js css b size = Ok pic ->
  (forall x y text f fill, In (Text (x, y) text f fill) (calls pic) ->
     exists at_ box uri s, In (DrawText at_ box text (VStr uri) fill) cs /\ allowed box s /\ p_truetype P uri s = Ok f /\
       amid x (fst (p_getsize P f text)) (fst at_) (fst box) /\ amid y (snd (p_getsize P f text)) (snd at_) (snd box) /\
       forall s', s < s' <= snd box -> too_big (p_truetype P) (p_getsize P) uri text box s') /\
  (forall at_ box text font fill, In (DrawText at_ box text font fill) cs ->
     exists uri, font = VStr uri /\ (hopeless P uri text box \/ exists x y f s, p_truetype P uri s = Ok f /\ In (Text (x, y) text f fill) (calls pic))).
Proof.
  intros B A D. pose proof (pil_picture js css b size B) as H. rewrite A in H. destruct H as (ks & r & S & E). rewrite D in E. destruct r as [[]|e]; [|discriminate]. injection E as ->. cbn [calls]. split.
  - intros x y text f fill I. destruct (call_source _ _ _ _ _ _ _ _ _ _ S I) as (k & ks' & r' & J & K & I'). inversion K; subst; cbn in I'; try contradiction I'; try (destruct I' as [[=]|[]]).
    match goal with L : lettered _ _ _ _ _ _ _ _ _ |- _ => inversion L; subst end; cbn in I'; try contradiction I'. destruct I' as [E|[]]. injection E as <- <- -> -> ->.
    match goal with F : fits _ _ _ _ |- _ => destruct F as (F1 & F2) end. exists p, s, uri, s0. split; [exact J|]. split; [assumption|]. split; [assumption|].
    split; [apply amid_half, F1|]. split; [apply amid_half, F2|assumption].
  - intros at_ box text font0 fill I. destruct (all_shown _ _ _ _ _ _ _ _ _ S I) as (ks' & K & J). inversion K; subst. eexists. split; [reflexivity|].
    match goal with L : lettered _ _ _ _ _ _ _ _ _ |- _ => inversion L; subst end.
    + right. do 4 eexists. split; [eassumption|]. apply J. left. reflexivity.
    + left. assumption.
Qed.
Lemma pil_again js js' css b size : draws P js css b size = draws P js' css b size.
Proof. apply same_answer. destruct P; assumption. Qed.
Lemma pil_kept js j : exists new, made P (js ++ [j]) = made P js ++ new.
Proof. apply pictures_kept. destruct P; assumption. Qed.
Lemma pil_blame js css b size cs e : sides_ok b -> asked css b size = Ok cs -> draws P js css b size = Exc e -> exists k, In k cs /\ fails P k e.
Proof.
  intros B A D. pose proof (pil_picture js css b size B) as H. rewrite A in H. destruct H as (ks & r & S & E). rewrite D in E. destruct r as [[]|e']; [discriminate|]. injection E as <-.
  destruct (stopped _ _ _ _ _ _ _ _ _ S) as (k & ks' & I & K). exists k. split; [exact I|]. inversion K; subst; cbn [fails]; [|assumption].
  match goal with L : lettered _ _ _ _ _ _ _ _ _ |- _ => inversion L; subst end; [right; eexists; split; eassumption|left; auto].
Qed.
Lemma pil_missing js css b size cs path : sides_ok b -> asked css b size = Ok cs -> In (VStr path) (files cs) -> missing P path -> exists e, draws P js css b size = Exc e.
Proof.
  intros B A I (MT & MO). pose proof (pil_picture js css b size B) as H. rewrite A in H. destruct H as (ks & r & S & E). destruct r as [[]|e']; [|exists e'; exact E]. exfalso.
  apply in_flat_map in I as (k & J & N). destruct (all_shown _ _ _ _ _ _ _ _ _ S J) as (ks' & K & _). inversion K; subst; cbn in N; try contradiction N.
  - destruct N as [N|[]]. injection N as ->. match goal with H : lettered _ _ _ _ _ _ _ _ _ |- _ => inversion H; subst end.
    + match goal with H : p_truetype P path ?z = Ok _ |- _ => destruct (MT z) as (e & T); rewrite T in H; discriminate H end.
    + destruct (MT (snd s)) as (e & T). match goal with H : forall s', allowed _ s' -> _ |- _ => destruct (H (snd s) (or_introl eq_refl)) as (f & F & _) end. rewrite T in F. discriminate F.
  - destruct N as [N|[]]. injection N as ->. destruct MO as (e & T). match goal with H : read_image _ _ _ _ _ _ = Ok _ |- _ => unfold read_image in H; rewrite T in H; discriminate H end.
Qed.
End Library.

(* ---- the theorems ---- *)
Lemma pictures_made : forall font image (P : pil font image) js css b size, sides_ok b ->
  match asked css b size with
  | Ok cs => exists ks r, shows P cs ks r /\ draws P js css b size = (let! _ := r in Ok (mkpicture size ks))
  | Exc _ => exists e, draws P js css b size = Exc e
  end.
Proof. intros. apply pil_picture. assumption. Qed.
Lemma texts_set : forall font image (P : pil font image) js css b size cs pic, sides_ok b -> asked css b size = Ok cs -> draws P js css b size = Ok pic ->
  (forall x y text f fill, In (Text (x, y) text f fill) (calls pic) ->
     exists at_ box uri s, In (DrawText at_ box text (VStr uri) fill) cs /\ allowed box s /\ p_truetype P uri s = Ok f /\
       amid x (fst (p_getsize P f text)) (fst at_) (fst box) /\ amid y (snd (p_getsize P f text)) (snd at_) (snd box) /\
       forall s', s < s' <= snd box -> too_big (p_truetype P) (p_getsize P) uri text box s') /\
  (forall at_ box text font fill, In (DrawText at_ box text font fill) cs ->
     exists uri, font = VStr uri /\ (hopeless P uri text box \/ exists x y f s, p_truetype P uri s = Ok f /\ In (Text (x, y) text f fill) (calls pic))).
Proof. intros font image P js css b size cs pic. apply pil_texts. Qed.
Lemma drawn_again : forall font image (P : pil font image) js js' css b size,
  draws P js css b size = draws P js' css b size /\ exists new, made P (js ++ [(css, b, size)]) = made P js ++ new.
Proof. intros. split; [apply pil_again|apply pil_kept]. Qed.
Lemma blamed : forall font image (P : pil font image) js css b size cs, sides_ok b -> asked css b size = Ok cs ->
  (forall e, draws P js css b size = Exc e -> exists k, In k cs /\ fails P k e) /\
  (forall path, In (VStr path) (files cs) -> missing P path -> exists e, draws P js css b size = Exc e).
Proof. intros font image P js css b size cs B A. split; [intros e; apply pil_blame; assumption|intros path I M; eapply pil_missing; eassumption]. Qed.
Lemma draw_asked css b size cs : draw css b size = Ok cs -> asked css b size = Ok cs.
Proof.
  unfold draw, asked. destruct (board_tree b); [|discriminate]. cbn [bind]. destruct (style css _); [|discriminate]. cbn [bind]. destruct (set_mag _ size); [|discriminate]. cbn [bind].
  destruct (draw_tree _) as [dc|]; [|discriminate]. cbn [bind]. destruct (passert (nonempty dc)); [|discriminate]. intros [= <-]. reflexivity.
Qed.
Lemma theme_pictures : forall name rs w h, ships name rs w h -> forall font image (P : pil font image) js b size, proper b -> (exists t, set_mag (plate w h) size = Ok t) ->
  exists cs, asked rs b size = Ok cs /\
  ((forall k e, In k cs -> ~ fails P k e) -> exists pic, draws P js rs b size = Ok pic) /\
  (forall e, draws P js rs b size = Exc e -> exists k, In k cs /\ fails P k e) /\
  (name = "matrix" -> missing P missing_font -> exists e, draws P js rs b size = Exc e).
Proof.
  intros name rs w h S font image P js b size Pb (t & M).
  assert (B : sides_ok b). { destruct Pb as (Pb & _). split; apply Pb; auto. }
  destruct (ships_audit name rs w h S) as (w' & al & Au). pose proof (audit_draws rs w' al w h b size Au Pb) as D. rewrite M in D. destruct D as (cs & D & _).
  pose proof (draw_asked _ _ _ _ D) as A1. exists cs. split; [exact A1|]. destruct (blamed font image P js rs b size cs B A1) as (H1 & H2). split; [|split; [exact H1|]].
  - intros F. destruct (draws P js rs b size) as [pic|e] eqn:E; [exists pic; reflexivity|]. exfalso. destruct (H1 e eq_refl) as (k & I & K). exact (F k e I K).
  - intros N MF. eapply H2; [|exact MF]. destruct (files_partial name rs w h S b size cs Pb D) as (_ & _ & X). apply X, N.
Qed.
