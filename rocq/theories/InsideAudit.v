(* Checking once and for all boards that a style sheet keeps within the picture. *)
From Coq Require Import Floats.SpecFloat.
From Verif Require Import Py PyFacts Dict DictFacts UtilModel BoardModel ImageModel ImageSpec ImageCss ImageTree ImageBoard ImageMag ThemeData ThemeModel ThemePath ThemeDraw ThemeTree ThemeSpec ThemeAudit ThemeSound DrawnSpec DrawnTree DrawnProofs PlaceSpec PlaceProofs InsideSpec.
Open Scope string_scope.
Open Scope list_scope.
Open Scope Z_scope.

Definition at_point (w h : Z) (q : xy) : bool := (0 <=? fst q) && (fst q <=? w) && (0 <=? snd q) && (snd q <=? h).
Definition framed (w h : Z) (q s : xy) : bool := (0 <=? fst s) && (0 <=? snd s) && at_point w h q && at_point w h (fst q + fst s, snd q + snd s).
Definition insideb (w h : Z) (c : cmd) : bool :=
  match c with
  | DrawText q s _ _ _ | DrawEllipse q s _ | DrawRect q s _ | PasteImage _ s _ q => framed w h q s
  | DrawPolygon qs _ => forallb (at_point w h) qs
  end.
(* drawing an element with the heads of its path *)
Definition draw_from (up : list head) (e : elem) : res (list cmd) :=
  let! bg := (if has_attr up "background" then bg_draw up else Ok []) in
  let! fg := (if has_attr up "image" || has_attr up "color" then draw_method up e else Ok []) in
  Ok (bg ++ fg).
(* the heads once the magnification was set *)
Definition remag (m : spec_float) (hs : list head) : list head :=
  match hs with h :: r => match set_attr h (L "mag") (VFlt m) with Ok h1 => h1 :: r | Exc _ => [] end | [] => [] end.
Definition most (ns : list Z) : Z := fold_right Z.max 0 ns.
Definition texts_of (k : ekind) (ns : list Z) : list str :=
  match k with EChequer => [py_str_int (most ns)] | EDie => map py_str_int (zrange 1 7) | EResign => map py_str_int (zrange 0 4) | _ => [] end.
Definition boxed (k : ekind) : bool := match k with EChequer | EDie | EResign => false | _ => true end.
Definition keeps (m : spec_float) (w h : Z) (up : list head) (k zone : ekind) (ns : list Z) : bool :=
  let up' := rev (remag m (rev up)) in
  if boxed k then
    match mag2 up' "x" "y", mag2 up' "width" "height" with
    | Ok q, Ok s => framed w h q s || negb (has_attr up' "background" || has_attr up' "image" || has_attr up' "color")
    | _, _ => true
    end
  else forallb (fun t => match draw_from up' (Elem (mkhead k [] []) [inr t]) with Ok cs => forallb (insideb w h) cs | Exc _ => false end) (texts_of k ns).
Definition mag_own (w h : Z) : spec_float := match mag_of w h w h with Ok m => m | Exc _ => S754_nan end.
Lemma at_point_iff w h q : at_point w h q = true <-> in_picture w h q.
Proof. unfold at_point, in_picture. rewrite !andb_true_iff, !Z.leb_le. tauto. Qed.
Lemma framed_iff w h q s : framed w h q s = true <-> 0 <= fst s /\ 0 <= snd s /\ in_picture w h q /\ in_picture w h (fst q + fst s, snd q + snd s).
Proof. unfold framed. rewrite !andb_true_iff, !at_point_iff, !Z.leb_le. tauto. Qed.
Lemma insideb_ok w h c : insideb w h c = true -> inside w h c.
Proof.
  destruct c; cbn [insideb inside]; try apply framed_iff. rewrite forallb_forall, Forall_forall. intros H x I. apply at_point_iff, H, I.
Qed.
Lemma fills_inside w h at_ s c : framed w h at_ s = true -> fills at_ s c -> inside w h c.
Proof.
  intros F. apply framed_iff in F. destruct c; cbn [fills inside]; try (intros (-> & ->); exact F); [intros []|].
  intros H. eapply Forall_impl; [|exact H]. intros q (A & B). destruct F as (F1 & F2 & (F3 & F4) & (F5 & F6)). cbn [fst snd] in *. specialize (A F1). specialize (B F2). unfold in_picture. lia.
Qed.
Lemma pixels_mag p n z : pixels p p n z -> exists i, get_int (map ehead (rev p)) n = Ok i /\ apply_mag (map ehead (rev p)) i = Ok z.
Proof.
  intros (i & [S|(b & S & ->)] & A); unfold seen in S; unfold get_int; rewrite S; cbn [bind]; eauto.
Qed.
Lemma box_mag p at_ s : box p at_ s -> mag2 (map ehead (rev p)) "x" "y" = Ok at_ /\ mag2 (map ehead (rev p)) "width" "height" = Ok s.
Proof.
  intros (X & Y & W & H). apply pixels_mag in X as (x & X1 & X2), Y as (y & Y1 & Y2), W as (w & W1 & W2), H as (h & H1 & H2).
  unfold mag2. rewrite X1, Y1, W1, H1. cbn [bind]. rewrite X2, Y2, W2, H2. cbn [bind]. destruct at_, s. split; reflexivity.
Qed.
Lemma draw_snoc a e : draw_element (a ++ [e]) = draw_from (map ehead (rev (a ++ [e]))) e.
Proof. unfold draw_element, draw_from. rewrite last_snoc. reflexivity. Qed.
Lemma boxed_inside w h a e cs (up := map ehead (rev (a ++ [e]))) : boxed (kind (ehead e)) = true ->
  match mag2 up "x" "y", mag2 up "width" "height" with
  | Ok q, Ok s => framed w h q s || negb (has_attr up "background" || has_attr up "image" || has_attr up "color")
  | _, _ => true
  end = true -> draw_element (a ++ [e]) = Ok cs -> Forall (inside w h) cs.
Proof.
  intros B K D. assert (N : forall k, boxed k = false -> ends k (a ++ [e]) = false).
  { intros k Q. rewrite ends_snoc. unfold of_kind. destruct (str_eqb _ _) eqn:E; [|reflexivity]. exfalso. apply sq in E. destruct (kind (ehead e)), k; discriminate. }
  assert (P := in_place_end a e cs (N EChequer eq_refl) ltac:(rewrite (N EResign eq_refl); discriminate) D).
  rewrite Forall_forall in P. apply Forall_forall. intros c I. destruct (P c I) as [(at_ & s & X & F)|(X & _)]; [|rewrite (N EDie eq_refl) in X; discriminate].
  apply box_mag in X as (X1 & X2). fold up in X1, X2. rewrite X1, X2 in K. apply orb_true_iff in K as [K|K]; [eapply fills_inside; eassumption|].
  apply negb_true_iff, orb_false_iff in K as (K & K3). apply orb_false_iff in K as (K1 & K2). rewrite draw_snoc in D. unfold draw_from in D. fold up in D. rewrite K1, K2, K3 in D. cbn [orb bind app] in D. injection D as <-. destruct I.
Qed.
Lemma draw_from_text up e t : boxed (kind (ehead e)) = false -> child0 e = Ok t -> draw_from up e = draw_from up (Elem (mkhead (kind (ehead e)) [] []) [inr t]).
Proof.
  intros B C. assert (C' : forall h, child0 (Elem h [inr t]) = Ok t) by reflexivity. unfold draw_from, draw_method. cbn [ehead kind].
  destruct (kind (ehead e)); try discriminate B; [unfold draw_die|unfold draw_resign|unfold draw_chequer]; rewrite C, C'; reflexivity.
Qed.
Lemma most_le n ns : In n ns -> n <= most ns.
Proof. induction ns as [|a ns IH]; intros I; [destruct I|]. cbn [most fold_right]. fold (most ns). destruct I as [->|I]; [lia|]. specialize (IH I). lia. Qed.
Lemma loop_prefix up im co fi size off : forall n n' at_ r r', (n <= n')%nat -> chequer_loop n up im co fi size at_ off = Ok r -> chequer_loop n' up im co fi size at_ off = Ok r' -> incl (fst r) (fst r').
Proof.
  induction n as [|n IH]; intros n' at_ r r' Le H H'; [injection H as <-; intros x []|]. destruct n' as [|n']; [lia|]. cbn [chequer_loop] in H, H'. cbv zeta in H, H'.
  repeat match type of H with (let! _ := ?m in _) = Ok _ => lazymatch m with chequer_loop _ _ _ _ _ _ _ _ => fail | _ => destruct m; cbn [bind] in H, H'; [|discriminate H] end end.
  sten H r1 E1. sten H' r1' E1'. injection H as <-. injection H' as <-. cbn [fst]. apply incl_app; [apply incl_appl, incl_refl|apply incl_appr]. eapply IH; [|exact E1|exact E1']. lia.
Qed.
Lemma chequer_less w h up e e' n n' cs cs' : child0 e = Ok (py_str_int n) -> child0 e' = Ok (py_str_int n') -> n <= n' -> draw_chequer up e = Ok cs -> draw_chequer up e' = Ok cs' ->
  Forall (inside w h) cs' -> Forall (inside w h) cs.
Proof.
  unfold draw_chequer. intros C C' Le H H' F. rewrite C in H. rewrite C' in H'. cbn [bind] in H, H'. rewrite py_int_str in H, H'. cbn [bind] in H, H'. cbv zeta in H, H'.
  repeat match type of H with (let! _ := ?m in _) = Ok _ => lazymatch m with chequer_loop _ _ _ _ _ _ _ _ => fail | _ => destruct m; cbn [bind] in H, H'; [|discriminate H] end end.
  sten H r E1. sten H' r' E1'. rewrite Forall_forall in F.
  match type of E1 with chequer_loop (Z.to_nat (Z.min n ?mc)) _ _ _ _ _ _ _ = _ => set (m := mc) in * end.
  assert (P : incl (fst r) (fst r')) by (eapply loop_prefix; [|exact E1|exact E1']; lia).
  assert (Fr : forall x, In x (fst r') -> inside w h x).
  { intros x I. apply F. destruct (_ && _ && (n' >? m)); [sten H' f Ef; injection H' as <-; apply in_or_app; left; exact I|injection H' as <-; exact I]. }
  apply Forall_forall. intros x I. destruct (_ && _ && (n >? m)) eqn:B; [|injection H as <-; apply Fr, P, I].
  sten H f Ef. injection H as <-. apply in_app_or in I as [I|[<-|[]]]; [apply Fr, P, I|].
  apply andb_prop in B as (B & B'). rewrite B in H'. replace (n' >? m) with true in H' by lia. cbn [andb] in H'. injection H' as <-.
  rewrite Z.min_r in E1, E1' by lia. rewrite E1 in E1'. injection E1' as <-.
  match goal with |- inside w h (DrawText ?q ?s _ ?g ?c) => specialize (F (DrawText q s (py_str_int n') g c)) end. apply F. apply in_or_app. right. left. reflexivity.
Qed.
Lemma from_less w h up e n n' cs cs' : kind (ehead e) = EChequer -> child0 e = Ok (py_str_int n) -> n <= n' -> draw_from up e = Ok cs -> draw_from up (Elem (mkhead EChequer [] []) [inr (py_str_int n')]) = Ok cs' ->
  Forall (inside w h) cs' -> Forall (inside w h) cs.
Proof.
  unfold draw_from, draw_method. intros K C Le H H' F. rewrite K in H. cbn [ehead kind] in H'. sten H bg Eb. cbn [bind] in H'. sten H fg Ef. sten H' fg' Ef'. injection H as <-. injection H' as <-. apply Forall_app in F as (F1 & F2).
  apply Forall_app. split; [exact F1|]. destruct (_ || _); [|injection Ef as <-; constructor]. exact (chequer_less w h up e (Elem (mkhead EChequer [] []) [inr (py_str_int n')]) n n' fg fg' C eq_refl Le Ef Ef' F2).
Qed.
Lemma forallb_inside w h cs : forallb (insideb w h) cs = true -> Forall (inside w h) cs.
Proof. rewrite forallb_forall. intros K. apply Forall_forall. intros c J. apply insideb_ok, K, J. Qed.
Lemma keeps_inside m w h up a e zone n ns cs : keeps m w h up (kind (ehead e)) zone ns = true -> In n ns -> rev (remag m (rev up)) = map ehead (rev (a ++ [e])) -> written (kind (ehead e)) e n ->
  draw_element (a ++ [e]) = Ok cs -> Forall (inside w h) cs.
Proof.
  unfold keeps. cbv zeta. intros K In0 R W D. rewrite R in K. destruct (boxed (kind (ehead e))) eqn:B; [apply (boxed_inside w h a e cs B K D)|].
  rewrite forallb_forall in K. assert (T : kind (ehead e) = EChequer \/ exists t, child0 e = Ok t /\ In t (texts_of (kind (ehead e)) ns)).
  { destruct (kind (ehead e)); try discriminate B; cbn [written texts_of] in *; [right|right|left; reflexivity]; destruct W as (d & X & ->); eexists; (split; [reflexivity|]); apply in_map, In_zrange; lia. }
  rewrite draw_snoc in D. destruct T as [T|(t & C & I)].
  - rewrite T in K, W. specialize (K _ (or_introl eq_refl)). destruct (draw_from _ _) as [cs'|] eqn:D' in K; [|discriminate]. eapply from_less; [exact T|exact W|apply most_le, In0|exact D|exact D'|apply forallb_inside, K].
  - specialize (K t I). rewrite (draw_from_text _ e t B C) in D. rewrite D in K. apply forallb_inside, K.
Qed.
Lemma kind_set h n v h' : set_attr h n v = Ok h' -> kind h' = kind h.
Proof.
  unfold set_attr. cbv zeta. intros H. repeat match type of H with context [match ?x with _ => _ end] => destruct x; cbn [bind] in H; try discriminate end; injection H as <-; reflexivity.
Qed.
Lemma survey_inside rs m w h w' al b cs : survey rs (keeps m w h) w h = true -> mag_of w h w h = Ok m -> audit rs w' al w h = true -> proper b -> draw rs b (w, h) = Ok cs -> Forall (inside w h) cs.
Proof.
  intros SV MO AU P D. destruct (proper_tree b P) as (x & T & XO). destruct (audited rs w' al w h AU b P) as (t & T' & G). rewrite T in T'. injection T' as <-.
  specialize (G (w, h)). cbn [fst snd] in G. rewrite MO in G. destruct G as (cs1 & D1 & _ & _ & G). rewrite D in D1. injection D1 as <-.
  apply Forall_forall. intros c I. destruct (G c I) as (p & q & q' & h1 & cs' & Ip & Wq & S1 & HQ & C & DE & Ic).
  destruct (routes rs (keeps m w h) w h SV b x (proj1 P) XO p Ip) as (q0 & q1 & W0 & SQ & V). rewrite Wq in W0. injection W0 as <-. apply heads_stub in SQ.
  destruct V as (r & zone & n & E1 & _ & _ & _ & (ns & Ins & K) & WR).
  destruct (map ehead q) as [|h0 hs] eqn:EQ; [rewrite E1 in SQ; discriminate SQ|]. cbn [hd tl] in S1, HQ.
  destruct q' as [|e a _] using rev_ind; [discriminate HQ|]. rewrite last_last in C.
  assert (KE : kind (ehead e) = kind (ehead (last q1 nobody))).
  { rewrite last_head_of, <- SQ. assert (LE := f_equal (fun l => last l (ehead nobody)) HQ). rewrite map_app in LE. cbn [map] in LE. rewrite last_last in LE. rewrite LE.
    destruct hs; [cbn [last]; exact (kind_set _ _ _ _ S1)|reflexivity]. }
  rewrite <- KE in K, WR.
  assert (R : rev (remag m (rev (rev (map ehead q1)))) = map ehead (rev (a ++ [e]))).
  { rewrite rev_involutive, <- SQ. cbn [remag]. rewrite S1, <- HQ, map_rev. reflexivity. }
  pose proof (keeps_inside m w h _ a e zone n ns cs' K Ins R (WR e C) DE) as F. rewrite Forall_forall in F. apply F, Ic.
Qed.
Lemma survey_own rs w h w' al : survey rs (keeps (mag_own w h) w h) w h = true -> match mag_of w h w h with Ok _ => true | Exc _ => false end = true -> audit rs w' al w h = true ->
  forall b cs, proper b -> draw rs b (w, h) = Ok cs -> Forall (inside w h) cs.
Proof. unfold mag_own. destruct (mag_of w h w h) as [m|] eqn:M; [|discriminate]. intros S _ A b cs P D. eapply survey_inside; eassumption. Qed.
