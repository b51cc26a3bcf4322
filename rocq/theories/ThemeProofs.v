(* Every shipped theme draws every board, and with which files. *)
From Verif Require Import Py PyFacts Dict DictFacts UtilModel BoardModel BoardSpec ImageModel ImageSpec ImageCss ImageTree ImageMag ThemeData ThemeModel ThemePath ThemeDraw ThemeTree ThemeSpec ThemeAudit ThemeSound ThemeCheck.
Open Scope string_scope.
Open Scope list_scope.
Open Scope Z_scope.

Lemma plate_mag w h size : match mag_of (fst size) (snd size) w h with Ok _ => exists t, set_mag (plate w h) size = Ok t | Exc x => set_mag (plate w h) size = Exc x end.
Proof.
  unfold set_mag. change (get_int [ehead (plate w h)] "width") with (Ok w). change (get_int [ehead (plate w h)] "height") with (Ok h). cbn [bind].
  destruct (mag_of (fst size) (snd size) w h) as [m|]; cbn [bind]; [|reflexivity]. eexists. reflexivity.
Qed.
Lemma audit_draws rs w al wd ht b size : audit rs w al wd ht = true -> proper b ->
  match set_mag (plate wd ht) size with
  | Ok _ => exists cs, draw rs b size = Ok cs /\ forall v, In v (files cs) -> exists zone n, lies b zone n /\ al zone n v = true
  | Exc x => draw rs b size = Exc x
  end.
Proof.
  intros A P. destruct (audited rs w al wd ht A b P) as (t & _ & D). specialize (D size). pose proof (plate_mag wd ht size) as M.
  destruct (mag_of (fst size) (snd size) wd ht) as [m|]; [destruct M as (u & ->)|rewrite M; exact D].
  destruct D as (cs & D & F & _). exists cs. split; assumption.
Qed.
Lemma draw_some rs b size cs : draw rs b size = Ok cs -> cs <> [].
Proof.
  unfold draw. intros H ->. destruct (board_tree b); cbn [bind] in H; [|discriminate]. destruct (style rs a); cbn [bind] in H; [|discriminate]. destruct (set_mag a0 size); cbn [bind] in H; [|discriminate].
  destruct (draw_tree a1) as [[|c l]|]; cbn [bind passert nonempty] in H; discriminate.
Qed.
(* the theme of a name is the one that was audited *)
Lemma ships_cases (Q : string -> list rule -> Z -> Z -> Prop) :
  Q "deutsche" deutsche_rules 341 262 -> Q "flower" flower_rules 341 262 -> Q "kotobuki" kotobuki_rules 341 262 -> Q "matrix" matrix_rules 1000 800 ->
  Q "minimal" minimal_rules 341 262 -> Q "nature" nature_rules 341 262 -> Q "neon" neon_rules 341 262 -> Q "safari" safari_rules 341 232 ->
  forall name rs w h, ships name rs w h -> Q name rs w h.
Proof.
  intros Q1 Q2 Q3 Q4 Q5 Q6 Q7 Q8 name rs w h (I & text & J & T).
  assert (X : forall n css r, In (("bglib/image/resource/" ++ n ++ "/default.css")%string, css) theme_files ->
     (forall css', In (("bglib/image/resource/" ++ n ++ "/default.css")%string, css') theme_files -> css' = css) ->
     theme (("bglib/image/resource/" ++ n ++ "/default.css")%string, css) = Ok r -> name = n -> rs = r).
  { intros n css r _ U K ->. rewrite (U text J) in T. congruence. }
  assert (U : forall n css css', In (n, css) theme_files -> In (n, css') theme_files -> css = css').
  { assert (N : NoDup (map fst theme_files)).
    { unfold theme_files. cbn [map fst]. repeat constructor; cbn [In]; intros K; repeat (destruct K as [K|K]; [discriminate K|]); exact K. }
    clear -N. induction theme_files as [|[a c] l IH]; intros n css css' A B; [destruct A|]. cbn [map fst] in N. inversion N as [|? ? N1 N2]; subst.
    destruct A as [A|A], B as [B|B].
    - congruence.
    - injection A as -> ->. exfalso. apply N1. apply (in_map fst) in B. exact B.
    - injection B as -> ->. exfalso. apply N1. apply (in_map fst) in A. exact A.
    - eapply IH; eassumption. }
  assert (Y : forall n css r, In (("bglib/image/resource/" ++ n ++ "/default.css")%string, css) theme_files -> theme (("bglib/image/resource/" ++ n ++ "/default.css")%string, css) = Ok r -> name = n -> rs = r).
  { intros n css r K E N. apply (X n css r K); auto. intros css' K'. eapply U; eassumption. }
  assert (Y1 : name = "deutsche" -> rs = deutsche_rules) by (apply (Y "deutsche" deutsche_css); [left; reflexivity|exact deutsche_ok]).
  assert (Y2 : name = "flower" -> rs = flower_rules) by (apply (Y "flower" flower_css); [do 1 right; left; reflexivity|exact flower_ok]).
  assert (Y3 : name = "kotobuki" -> rs = kotobuki_rules) by (apply (Y "kotobuki" kotobuki_css); [do 2 right; left; reflexivity|exact kotobuki_ok]).
  assert (Y4 : name = "matrix" -> rs = matrix_rules) by (apply (Y "matrix" matrix_css); [do 3 right; left; reflexivity|exact matrix_ok]).
  assert (Y5 : name = "minimal" -> rs = minimal_rules) by (apply (Y "minimal" minimal_css); [do 4 right; left; reflexivity|exact minimal_ok]).
  assert (Y6 : name = "nature" -> rs = nature_rules) by (apply (Y "nature" nature_css); [do 5 right; left; reflexivity|exact nature_ok]).
  assert (Y7 : name = "neon" -> rs = neon_rules) by (apply (Y "neon" neon_css); [do 6 right; left; reflexivity|exact neon_ok]).
  assert (Y8 : name = "safari" -> rs = safari_rules) by (apply (Y "safari" safari_css); [do 7 right; left; reflexivity|exact safari_ok]).
  clear X Y U T J text.
  repeat (destruct I as [I|I]; [injection I as <- <- <-; first [rewrite Y1 by reflexivity | rewrite Y2 by reflexivity | rewrite Y3 by reflexivity | rewrite Y4 by reflexivity | rewrite Y5 by reflexivity | rewrite Y6 by reflexivity | rewrite Y7 by reflexivity | rewrite Y8 by reflexivity]; assumption|]).
  destruct I.
Qed.
Lemma ships_all name w h : In (name, (w, h)) theme_sizes -> exists rs, ships name rs w h.
Proof.
  intros I. assert (I' := I). repeat (destruct I as [I|I]; [injection I as <- <- <-; eexists; split; [exact I'|]|]); [..|destruct I].
  - exists deutsche_css. split; [left; reflexivity|exact deutsche_ok].
  - exists flower_css. split; [do 1 right; left; reflexivity|exact flower_ok].
  - exists kotobuki_css. split; [do 2 right; left; reflexivity|exact kotobuki_ok].
  - exists matrix_css. split; [do 3 right; left; reflexivity|exact matrix_ok].
  - exists minimal_css. split; [do 4 right; left; reflexivity|exact minimal_ok].
  - exists nature_css. split; [do 5 right; left; reflexivity|exact nature_ok].
  - exists neon_css. split; [do 6 right; left; reflexivity|exact neon_ok].
  - exists safari_css. split; [do 7 right; left; reflexivity|exact safari_ok].
Qed.
Lemma ships_audit : forall name rs w h, ships name rs w h -> exists w' al, audit rs w' al w h = true.
Proof.
  apply (ships_cases (fun _ rs w h => exists w' al, audit rs w' al w h = true)); do 2 eexists;
  [exact deutsche_audit | exact flower_audit | exact kotobuki_audit | exact matrix_audit | exact minimal_audit | exact nature_audit | exact neon_audit | exact safari_audit].
Qed.
Lemma themes_draw : forall name w h, In (name, (w, h)) theme_sizes -> exists rs, ships name rs w h /\
  forall b, proper b ->
    (exists cs, draw rs b (w, h) = Ok cs /\ cs <> []) /\
    forall size, match set_mag (plate w h) size with
                 | Ok _ => exists cs, draw rs b size = Ok cs /\ cs <> []
                 | Exc x => draw rs b size = Exc x
                 end.
Proof.
  intros name w h I. destruct (ships_all name w h I) as (rs & S). exists rs. split; [exact S|]. intros b P.
  assert (G : forall size, match set_mag (plate w h) size with Ok _ => exists cs, draw rs b size = Ok cs /\ cs <> [] | Exc x => draw rs b size = Exc x end).
  { intros size. destruct (ships_audit name rs w h S) as (w' & al & A). pose proof (audit_draws rs w' al w h b size A P) as H.
    destruct (set_mag (plate w h) size); [|exact H]. destruct H as (cs & D & _). exists cs. split; [exact D|eapply draw_some, D]. }
  split; [|exact G]. specialize (G (w, h)).
  assert (E : exists t, set_mag (plate w h) (w, h) = Ok t).
  { clear -I. repeat (destruct I as [I|I]; [injection I as <- <- <-; eexists; vm_compute; reflexivity|]). destruct I. }
  destruct E as (t & E). rewrite E in G. exact G.
Qed.

(* ---- files that must be loaded ---- *)
Ltac steps H := repeat match type of H with (let! x := ?e in _) = Ok _ => let E := fresh "E" in destruct e eqn:E; cbn [bind] in H; [|discriminate H] end.
Lemma text_loads w up up' path e f cs : magged w up up' -> map ehead (rev path) = up' -> pyget path (-1) = Ok e -> kind (ehead e) = EScore ->
  otruthy (seen up "image") = false -> seen up "font" = Some f -> truthy f = true -> has_attr up "color" = true -> draw_element path = Ok cs -> In f (flat_map loads cs).
Proof.
  intros M U G K I F T C D. unfold draw_element in D. rewrite U, G in D. cbn [bind] in D. rewrite !(m_has w up up' M) in D by discriminate. rewrite C, orb_true_r in D.
  destruct (if has_attr up "background" then bg_draw up' else Ok []) as [bg|]; cbn [bind] in D; [|discriminate].
  unfold draw_method in D. rewrite K in D. unfold draw_text_elem in D. repeat rewrite opt_attr_seen in D. rewrite !(m_seen w up up' M) in D by discriminate. rewrite F in D.
  destruct (mag2 up' "width" "height"); cbn [bind] in D; [|discriminate]. destruct (mag2 up' "x" "y"); cbn [bind] in D; [|discriminate]. rewrite I in D. cbn [otruthy] in D. rewrite T in D.
  destruct (child0 e); cbn [bind] in D; [|discriminate]. rewrite (get_seen up' "font" f) in D by (rewrite (m_seen w up up' M) by discriminate; exact F). cbn [bind] in D.
  destruct (get_attr up' (L "color")); cbn [bind] in D; [|discriminate]. injection D as <-. rewrite flat_map_app. apply in_or_app. right. left. reflexivity.
Qed.
Lemma chequer_loads w up up' path e v n m cs : magged w up up' -> map ehead (rev path) = up' -> pyget path (-1) = Ok e -> kind (ehead e) = EChequer ->
  child0 e = Ok (py_str_int n) -> 1 <= n -> seen up "image" = Some v -> truthy v = true -> get_int up "max_count" = Ok m -> 1 <= m -> draw_element path = Ok cs -> In v (flat_map loads cs).
Proof.
  intros M U G K C N I T GM M1 D. unfold draw_element in D. rewrite U, G in D. cbn [bind] in D. rewrite !(m_has w up up' M) in D by discriminate. rewrite (has_seen up "image"), I in D. cbn [orb] in D.
  destruct (if has_attr up "background" then bg_draw up' else Ok []) as [bg|]; cbn [bind] in D; [|discriminate].
  destruct (draw_method up' e) as [fg|] eqn:F; [|discriminate]; cbn [bind] in D; injection D as <-; rewrite flat_map_app; apply in_or_app; right.
  unfold draw_method in F; rewrite K in F; unfold draw_chequer in F; rewrite C in F; cbn [bind] in F; rewrite py_int_str in F; cbn [bind] in F; steps F.
  rewrite !opt_attr_seen in *; repeat match goal with H : Ok _ = Ok _ |- _ => injection H as <- end.
  match goal with H : get_int up' "max_count" = Ok ?a |- _ => assert (a = m) by (unfold get_int in GM, H; rewrite (proj1 M) in H by discriminate; congruence); subst a end.
  rewrite (m_seen w up up' M) in E14 by discriminate. rewrite I in E14. destruct (Z.to_nat (Z.min n m)) as [|k] eqn:Ek; [lia|]. cbn [chequer_loop otruthy] in E14. rewrite T in E14.
  unfold paste in E14. destruct (get_attr up' (L "flip")) as [fl|]; cbn [bind] in E14; [|discriminate E14]. steps E14. injection E14 as <-.
  assert (X : forall (a : cmd) l, In v (loads a) -> In v (flat_map loads (a :: l))) by (intros; cbn [flat_map]; apply in_or_app; left; assumption).
  match type of F with (if ?c then _ else _) = _ => destruct c end; steps F; injection F as <-; cbn [fst app]; apply X; left; reflexivity.
Qed.
Definition score_check (rs : list rule) (f : str) : bool :=
  match datas rs EScore, walk rs [] [root; mt; Elem (owned_head EScore you) [inr fresh]] with
  | [], Ok q => let up := rev (map ehead q) in
                negb (otruthy (seen up "image")) && has_attr up "color" && match seen up "font" with Some (VStr s) => str_eqb s f | _ => false end && nonempty f
  | _, _ => false
  end.
Definition bar_check (rs : list rule) (p : str) (n : Z) : bool :=
  match walk rs [] [root; ps; owned EBar p []; Elem (owned_head EChequer p) [inr (py_str_int n)]] with
  | Ok q => let up := rev (map ehead q) in
            match seen up "image", get_int up "max_count" with
            | Some (VStr s), Ok m => nonempty s && (1 <=? m) && negb (str_mem s shipped)
            | _, _ => false
            end
  | Exc _ => false
  end.
Lemma matrix_score : score_check matrix_rules missing_font = true.
Proof. vm_compute. reflexivity. Qed.
Lemma safari_bars : forallb (fun n => bar_check safari_rules you n && bar_check safari_rules him n) (zrange 8 16) = true.
Proof. vm_compute. reflexivity. Qed.
Lemma font_missing : str_mem missing_font shipped = false.
Proof. vm_compute. reflexivity. Qed.
Lemma walk_fresh rs a b h s : datas rs (kind h) = [] -> walk rs [] [a; b; Elem h [inr s]] = match walk rs [] [a; b; Elem h [inr fresh]] with
  | Ok q => Ok (removelast q ++ [Elem (ehead (last q nobody)) [inr s]]) | Exc x => Exc x end.
Proof.
  intros D. cbn [walk app]. destruct (apply_rules rs [a]) as [h1|]; cbn [bind]; [|reflexivity]. destruct (apply_rules rs [set_head a h1; b]) as [h2|]; cbn [bind]; [|reflexivity].
  assert (F : apply_rules rs [set_head a h1; set_head b h2; Elem h [inr s]] = apply_rules rs [set_head a h1; set_head b h2; Elem h [inr fresh]]) by (apply (rules_fresh rs [set_head a h1; set_head b h2] s fresh h); rewrite D; intros []).
  rewrite F. destruct (apply_rules rs [set_head a h1; set_head b h2; Elem h [inr fresh]]) as [h3|]; reflexivity.
Qed.
Section Needs.
Variables (rs : list rule) (w : Z) (al : ekind -> Z -> value -> bool) (wd ht : Z).
Hypothesis AU : audit rs w al wd ht = true.
Variables (b : board) (size : Z * Z) (cs : list cmd).
Hypothesis (P : proper b) (D : draw rs b size = Ok cs).
Lemma must p q1 : (exists x, board_tree b = Ok (trunk b x) /\ In p (paths [] (trunk b x))) -> walk rs [] (map stub p) = Ok q1 ->
  exists up' q' cs', magged w (rev (map ehead q1)) up' /\ map ehead (rev q') = up' /\ pyget q' (-1) = Ok (last q' nobody) /\ kind (ehead (last q' nobody)) = kind (ehead (last q1 nobody)) /\
    child0 (last q' nobody) = child0 (last p nobody) /\ draw_element q' = Ok cs' /\ incl (flat_map loads cs') (files cs).
Proof.
  intros (x & T & I) W. destruct (audited rs w al wd ht AU b P) as (t & T' & G). rewrite T in T'. injection T' as <-. specialize (G size).
  destruct (mag_of (fst size) (snd size) wd ht); [|congruence]. destruct G as (cs1 & D1 & _ & G & _). rewrite D in D1. injection D1 as <-.
  destruct (G p I) as (q & q' & cs' & W0 & M & C & PG & K & DE & IN).
  assert (SS : map stub p = map stub (map stub p)) by (rewrite map_map; apply map_ext; intros y; symmetry; apply stub_stub).
  pose proof (walk_alike rs p (map stub p) [] [] eq_refl SS) as H. rewrite W0, W in H. apply heads_stub in H.
  exists (rev (map ehead q')), q', cs'. split; [rewrite <- H; exact M|]. split; [apply map_rev|]. split; [exact PG|]. split; [rewrite K, !last_head_of, H; reflexivity|]. split; [exact C|]. split; [exact DE|].
  unfold files. intros v J. apply in_flat_map in J as (c & J & L). apply in_flat_map. eauto.
Qed.
Lemma score_needs f : score_check rs f = true -> In (VStr f) (files cs).
Proof.
  intros S. unfold score_check in S. destruct (datas rs EScore) eqn:DS; [|discriminate]. destruct (walk rs [] [root; mt; Elem (owned_head EScore you) [inr fresh]]) as [q|] eqn:W; [|discriminate].
  cbv zeta in S. apply andb_prop in S as (S & S4). apply andb_prop in S as (S & S3). apply andb_prop in S as (S1 & S2). apply negb_true_iff in S1.
  destruct (seen (rev (map ehead q)) "font") as [[ |s| | ]|] eqn:F; try discriminate. apply sq in S3 as ->.
  destruct (proper_tree b P) as (x & T & XO). pose (p := [trunk b x; bare EMatch (lines b x); owned EScore you [inr (py_str_int (fst (score b)))]]).
  assert (I : In p (paths [] (trunk b x))).
  { unfold p. unfold trunk at 2. apply in_paths. right. exists (bare EMatch (lines b x)), [bare EMatch (lines b x); owned EScore you [inr (py_str_int (fst (score b)))]]. split; [left; reflexivity|]. split; [|reflexivity].
    apply in_paths. right. exists (owned EScore you [inr (py_str_int (fst (score b)))]), [owned EScore you [inr (py_str_int (fst (score b)))]]. split; [do 3 right; left; reflexivity|]. split; [|reflexivity].
    apply in_paths. left. reflexivity. }
  assert (HQ : exists a c e, q = [a; c; e] /\ kind (ehead e) = EScore).
  { cbn [walk app] in W. destruct (apply_rules rs [root]); cbn [bind] in W; [|discriminate]. destruct (apply_rules rs [set_head root a; mt]) as [h2|]; cbn [bind] in W; [|discriminate].
    destruct (apply_rules rs [set_head root a; set_head mt h2; Elem (owned_head EScore you) [inr fresh]]) as [h3|] eqn:A3; cbn [bind] in W; [|discriminate]. injection W as <-. do 3 eexists. split; [reflexivity|].
    exact (kind_rules rs [set_head root a; set_head mt h2] _ h3 A3). }
  destruct HQ as (a & c & e & -> & KE).
  destruct (must p (removelast [a; c; e] ++ [Elem (ehead e) [inr (py_str_int (fst (score b)))]])) as (up' & q' & cs' & M & U & PG & KK & C & DE & IN).
  { exists x. split; assumption. }
  { change (map stub p) with [root; mt; Elem (owned_head EScore you) [inr (py_str_int (fst (score b)))]]. rewrite (walk_fresh rs root mt (owned_head EScore you)) by exact DS. rewrite W. reflexivity. }
  apply IN. change (rev (map ehead (removelast [a; c; e] ++ [Elem (ehead e) [inr (py_str_int (fst (score b)))]]))) with (rev (map ehead [a; c; e])) in M.
  eapply text_loads; [exact M|exact U|exact PG|rewrite KK; exact KE|exact S1|exact F|exact S4|exact S2|exact DE].
Qed.
Lemma bar_needs p n : (p = you /\ n = nth 24 (fst (position b)) 0) \/ (p = him /\ n = nth 24 (snd (position b)) 0) -> 1 <= n -> bar_check rs p n = true ->
  exists v, In v (files cs) /\ ~ in_package v.
Proof.
  intros PN N B. unfold bar_check in B. destruct (walk rs [] _) as [q|] eqn:W; [|discriminate]. cbv zeta in B.
  destruct (seen (rev (map ehead q)) "image") as [[ |s| | ]|] eqn:F; try discriminate. destruct (get_int (rev (map ehead q)) "max_count") as [m|] eqn:GM; [|discriminate].
  apply andb_prop in B as (B & B3). apply andb_prop in B as (B1 & B2). apply negb_true_iff in B3.
  destruct (proper_tree b P) as (x & T & XO). pose (l := [trunk b x; bare EPosition (laid b x); owned EBar p (chequer p n); owned EChequer p [inr (py_str_int n)]]).
  assert (CH : chequer p n = [inl (owned EChequer p [inr (py_str_int n)])]) by (unfold chequer; replace (n =? 0) with false by lia; reflexivity).
  assert (I : In l (paths [] (trunk b x))).
  { unfold l. unfold trunk at 2. apply in_paths. right. exists (bare EPosition (laid b x)), [bare EPosition (laid b x); owned EBar p (chequer p n); owned EChequer p [inr (py_str_int n)]]. split; [right; left; reflexivity|]. split; [|reflexivity].
    apply in_paths. right. exists (owned EBar p (chequer p n)), [owned EBar p (chequer p n); owned EChequer p [inr (py_str_int n)]]. split; [|split; [|reflexivity]].
    - unfold laid. destruct PN as [(-> & ->)|(-> & ->)]; [apply in_or_app; right; apply in_or_app; right; left; reflexivity|apply in_or_app; left; do 5 right; left; reflexivity].
    - rewrite CH. apply in_paths. right. exists (owned EChequer p [inr (py_str_int n)]), [owned EChequer p [inr (py_str_int n)]]. split; [left; reflexivity|]. split; [|reflexivity]. apply in_paths. left. reflexivity. }
  assert (KE : kind (ehead (last q nobody)) = EChequer).
  { cbn [walk app] in W. destruct (apply_rules rs [root]) as [a|]; cbn [bind] in W; [|discriminate]. destruct (apply_rules rs [set_head root a; ps]) as [h2|]; cbn [bind] in W; [|discriminate].
    destruct (apply_rules rs [set_head root a; set_head ps h2; owned EBar p []]) as [h3|]; cbn [bind] in W; [|discriminate].
    destruct (apply_rules rs [set_head root a; set_head ps h2; set_head (owned EBar p []) h3; Elem (owned_head EChequer p) [inr (py_str_int n)]]) as [h4|] eqn:A4; cbn [bind] in W; [|discriminate]. injection W as <-.
    exact (kind_rules rs [set_head root a; set_head ps h2; set_head (owned EBar p []) h3] _ h4 A4). }
  destruct (must l q) as (up' & q' & cs' & M & U & PG & KK & C & DE & IN).
  { exists x. split; assumption. }
  { unfold l. cbn [map]. rewrite stub_laid, CH. exact W. }
  exists (VStr s). split.
  - apply IN. eapply chequer_loads; [exact M|exact U|exact PG|rewrite KK; exact KE|exact C|exact N|exact F|exact B1|exact GM|lia|exact DE].
  - intros (path & E & J). injection E as <-. apply str_mem_in in J. congruence.
Qed.
End Needs.
Lemma draws_size rs w al wd ht b size cs : audit rs w al wd ht = true -> proper b -> draw rs b size = Ok cs -> forall v, In v (files cs) -> exists zone n, lies b zone n /\ al zone n v = true.
Proof.
  intros A P D. pose proof (audit_draws rs w al wd ht b size A P) as H. destruct (set_mag (plate wd ht) size); [|congruence]. destruct H as (cs' & D' & F). rewrite D in D'. injection D' as <-. exact F.
Qed.
Lemma files_partial : forall name rs w h, ships name rs w h -> forall b size cs, proper b -> draw rs b size = Ok cs -> accounted name b cs.
Proof.
  apply (ships_cases (fun name rs w h => forall b size cs, proper b -> draw rs b size = Ok cs -> accounted name b cs)); intros b size cs P D.
  1, 2, 3, 5, 6, 7: split; [|split; intros E; discriminate E]; intros _ _ v I.
  - destruct (draws_size _ _ _ _ _ _ _ _ deutsche_audit P D v I) as (zone & n & _ & K). exact (known_ok _ v deutsche_back_ok K).
  - destruct (draws_size _ _ _ _ _ _ _ _ flower_audit P D v I) as (zone & n & _ & K). exact (known_ok _ v flower_back_ok K).
  - destruct (draws_size _ _ _ _ _ _ _ _ kotobuki_audit P D v I) as (zone & n & _ & K). exact (known_ok _ v kotobuki_back_ok K).
  - destruct (draws_size _ _ _ _ _ _ _ _ minimal_audit P D v I) as (zone & n & _ & K). exact (known_ok _ v minimal_back_ok K).
  - destruct (draws_size _ _ _ _ _ _ _ _ nature_audit P D v I) as (zone & n & _ & K). exact (known_ok _ v nature_back_ok K).
  - destruct (draws_size _ _ _ _ _ _ _ _ neon_audit P D v I) as (zone & n & _ & K). exact (known_ok _ v neon_back_ok K).
  - split; [intros N; contradiction|]. split; [discriminate|]. intros _. split; [|split].
    + exact (score_needs _ _ _ _ _ matrix_audit b size cs P D missing_font matrix_score).
    + intros (p & E & J). injection E as <-. apply str_mem_in in J. rewrite font_missing in J. discriminate.
    + intros v I. destruct (draws_size _ _ _ _ _ _ _ _ matrix_audit P D v I) as (zone & n & _ & K). apply orb_prop in K as [K|K]; [right; exact (known_ok _ v matrix_back_ok K)|].
      destruct v as [ |s| | ]; try discriminate. apply sq in K as ->. left. reflexivity.
  - split; [intros _ N; contradiction|]. split; [|discriminate]. intros _. split.
    + intros H. assert (X : forall p n, (p = you /\ n = nth 24 (fst (position b)) 0) \/ (p = him /\ n = nth 24 (snd (position b)) 0) -> n < 8).
      { intros p n PN. destruct (Z_lt_le_dec n 8) as [L|L]; [exact L|exfalso].
        assert (B : n <= 15). { destruct PN as [(_ & ->)|(_ & ->)]; [apply (count_ok b (proj1 P) (fst (position b)) 24)|apply (count_ok b (proj1 P) (snd (position b)) 24)]; auto. }
        pose proof safari_bars as S. rewrite forallb_forall in S. specialize (S n). rewrite In_zrange in S. specialize (S ltac:(lia)). apply andb_prop in S as (S1 & S2).
        assert (S : bar_check safari_rules p n = true) by (destruct PN as [(-> & _)|(-> & _)]; assumption).
        destruct (bar_needs _ _ _ _ _ safari_audit b size cs P D p n PN ltac:(lia) S) as (v & I & N). exact (N (H v I)). }
      split; unfold on_bar; cbn [fst snd]; [apply (X you)|apply (X him)]; auto.
    + intros (B1 & B2) v I. destruct (draws_size _ _ _ _ _ _ _ _ safari_audit P D v I) as (zone & n & Li & K). apply orb_prop in K as [K|K]; [exact (known_ok _ v safari_back_ok K)|].
      apply andb_prop in K as (K1 & K2). destruct zone; try discriminate. exfalso. unfold on_bar in *. cbn [fst snd] in *. destruct (Li eq_refl ltac:(lia)) as [E|E]; rewrite E in K2; lia.
Qed.
Lemma files_refuted : exists name rs w h, ships name rs w h /\ forall b, proper b -> forall size cs, draw rs b size = Ok cs -> exists v, In v (files cs) /\ ~ in_package v.
Proof.
  exists "matrix", matrix_rules, 1000, 800. assert (S : ships "matrix" matrix_rules 1000 800).
  { split; [do 3 right; left; reflexivity|]. exists matrix_css. split; [do 3 right; left; reflexivity|exact matrix_ok]. }
  split; [exact S|]. intros b P size cs D. destruct (files_partial _ _ _ _ S b size cs P D) as (_ & _ & H). destruct (H eq_refl) as (I & N & _). eauto.
Qed.
