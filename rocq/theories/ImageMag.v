(* The magnification of a board. *)
From Verif Require Import Py PyFacts Dict DictFacts UtilModel BoardModel ImageModel ImageSpec ImageCss ImageSign ImageRound.
From Coq Require Import Floats.SpecFloat.
Open Scope string_scope.
Open Scope list_scope.
Open Scope Z_scope.

Lemma smaller a b : SFltb zero_f a = true -> SFltb zero_f b = true ->
  let m := if SFltb b a then b else a in (m = a \/ m = b) /\ SFleb m a = true /\ SFleb m b = true /\ SFltb zero_f m = true.
Proof.
  intros A B. assert (R : forall x, SFltb zero_f x = true -> SFleb x x = true).
  { intros x. destruct x as [[|]|[|]| |[|] m e]; cbn; try reflexivity; try discriminate. intros _. unfold SFleb. cbn. rewrite Z.compare_refl, Pos.compare_cont_refl. reflexivity. }
  assert (T : SFltb b a = false -> SFleb a b = true).
  { destruct a as [[|]|[|]| |[|] m e], b as [[|]|[|]| |[|] m' e']; try discriminate; try reflexivity. clear A B R.
    unfold SFltb, SFleb. cbn. rewrite (Z.compare_antisym e e'). destruct (e ?= e'); cbn; try reflexivity; try discriminate.
    change (Pos.compare_cont Eq m' m) with (m' ?= m)%positive. change (Pos.compare_cont Eq m m') with (m ?= m')%positive.
    rewrite (Pos.compare_antisym m m'). destruct (m ?= m')%positive; cbn; try reflexivity; discriminate. }
  assert (T' : SFltb b a = true -> SFleb b a = true).
  { unfold SFltb, SFleb. destruct (SFcompare b a) as [[]|]; (reflexivity || discriminate). }
  cbv zeta. destruct (SFltb b a) eqn:E; [|]; repeat split; auto.
Qed.
Lemma mag_of_ok bx by_ w h m : mag_of bx by_ w h = Ok m -> exists fx fw fy fh,
  to_float bx = Ok fx /\ to_float w = Ok fw /\ to_float by_ = Ok fy /\ to_float h = Ok fh /\ w <> 0 /\ h <> 0 /\
  (m = fdiv fx fw \/ m = fdiv fy fh) /\ SFleb m (fdiv fx fw) = true /\ SFleb m (fdiv fy fh) = true /\ SFltb zero_f m = true /\
  fle_int (fmul fw m) bx = true /\ fle_int (fmul fh m) by_ = true.
Proof.
  unfold mag_of. destruct (to_float bx) as [fx|]; [|discriminate]. cbn [bind]. destruct (to_float w) as [fw|]; [|discriminate]. cbn [bind].
  destruct (Z.eqb_spec w 0) as [W|W]; [discriminate|]. cbn [bind]. cbv zeta. destruct (to_float by_) as [fy|]; [|discriminate]. cbn [bind]. destruct (to_float h) as [fh|]; [|discriminate]. cbn [bind].
  destruct (Z.eqb_spec h 0) as [Hh|Hh]; [discriminate|]. cbn [bind]. unfold passert.
  destruct (SFltb zero_f (fdiv fx fw)) eqn:P1; [|discriminate]. cbn [bind]. destruct (SFltb zero_f (fdiv fy fh)) eqn:P2; [|discriminate]. cbn [bind].
  pose proof (smaller _ _ P1 P2) as Sm. cbv zeta in Sm. destruct Sm as (S1 & S2 & S3 & S4). set (k := if SFltb (fdiv fy fh) (fdiv fx fw) then fdiv fy fh else fdiv fx fw) in *.
  destruct (fle_int (fmul fw k) bx) eqn:F1; [|discriminate]. cbn [bind]. destruct (fle_int (fmul fh k) by_) eqn:F2; [|discriminate]. cbn [bind].
  intros H. assert (k = m) by congruence. subst m. exists fx, fw, fy, fh. repeat (split; [solve [reflexivity|assumption]|]). assumption.
Qed.
Lemma set_mag_partial : forall e bound e', set_mag e bound = Ok e' ->
  children e' = children e /\ kind (ehead e') = kind (ehead e) /\ css_lineno (ehead e') = css_lineno (ehead e) /\
  (forall n, n <> L "mag" -> dget str_eqb (attrs (ehead e')) n = dget str_eqb (attrs (ehead e)) n) /\
  exists m w h fx fw fy fh,
    get_attr [ehead e'] (L "mag") = Ok (VFlt m) /\ get_int [ehead e'] "width" = Ok w /\ get_int [ehead e'] "height" = Ok h /\
    to_float (fst bound) = Ok fx /\ to_float w = Ok fw /\ to_float (snd bound) = Ok fy /\ to_float h = Ok fh /\
    SFltb (S754_zero false) m = true /\ (m = fdiv fx fw \/ m = fdiv fy fh) /\ SFleb m (fdiv fx fw) = true /\ SFleb m (fdiv fy fh) = true /\
    (0 < w -> forall x, 0 <= x <= w -> exists v, apply_mag [ehead e'] x = Ok v /\ 0 <= v <= fst bound) /\
    (0 < h -> forall x, 0 <= x <= h -> exists v, apply_mag [ehead e'] x = Ok v /\ 0 <= v <= snd bound).
Proof.
  intros [hd ks] bound e' H. unfold set_mag in H. cbn [ehead] in H.
  destruct (get_int [hd] "width") as [w|] eqn:GW; [|discriminate]. cbn [bind] in H. destruct (get_int [hd] "height") as [h|] eqn:GH; [|discriminate]. cbn [bind] in H.
  destruct (mag_of (fst bound) (snd bound) w h) as [m|] eqn:M; [|discriminate]. cbn [bind] in H.
  destruct (set_attr hd (L "mag") (VFlt m)) as [hd'|] eqn:SA; [|discriminate]. cbn [bind] in H.
  change (set_head (Elem hd ks) hd') with (Elem hd' ks) in H. injection H as <-. cbn [ehead children].
  unfold set_attr in SA. destruct (class_of (kind hd) (L "mag")) as [c|] eqn:C; [|discriminate].
  set (a := match dget str_eqb (attrs hd) (L "mag") with Some a => a | None => mkattr c None (VFlt m) end) in SA.
  destruct (is_acceptable (a_class a) (VFlt m)); [|discriminate]. injection SA as <-. cbn [kind css_lineno attrs].
  assert (G : forall n, dget str_eqb (dset str_eqb (attrs hd) (L "mag") (mkattr (a_class a) (a_path a) (VFlt m))) n = if str_eqb n (L "mag") then Some (mkattr (a_class a) (a_path a) (VFlt m)) else dget str_eqb (attrs hd) n).
  { intros n. apply dget_dset. apply sq. }
  assert (Gn : forall n, n <> L "mag" -> dget str_eqb (dset str_eqb (attrs hd) (L "mag") (mkattr (a_class a) (a_path a) (VFlt m))) n = dget str_eqb (attrs hd) n).
  { intros n N. rewrite G. destruct (str_eqb n (L "mag")) eqn:Q; [apply sq in Q; contradiction|reflexivity]. }
  repeat (split; [reflexivity|]). split; [exact Gn|].
  destruct (mag_of_ok _ _ _ _ _ M) as (fx & fw & fy & fh & T1 & T2 & T3 & T4 & W & Hn & Mm & L1 & L2 & P & F1 & F2).
  exists m, w, h, fx, fw, fy, fh.
  assert (GM : get_attr [mkhead (kind hd) (dset str_eqb (attrs hd) (L "mag") (mkattr (a_class a) (a_path a) (VFlt m))) (css_lineno hd)] (L "mag") = Ok (VFlt m)).
  { cbn [get_attr kind attrs]. rewrite C, G. replace (str_eqb (L "mag") (L "mag")) with true by (symmetry; apply sq; reflexivity). reflexivity. }
  assert (GI : forall n, L n <> L "mag" -> get_int [mkhead (kind hd) (dset str_eqb (attrs hd) (L "mag") (mkattr (a_class a) (a_path a) (VFlt m))) (css_lineno hd)] n = get_int [hd] n).
  { intros n N. unfold get_int. cbn [get_attr kind attrs]. rewrite Gn by exact N. reflexivity. }
  split; [exact GM|]. split; [rewrite GI by discriminate; exact GW|]. split; [rewrite GI by discriminate; exact GH|].
  repeat (split; [assumption|]).
  assert (AM : forall x, apply_mag [mkhead (kind hd) (dset str_eqb (attrs hd) (L "mag") (mkattr (a_class a) (a_path a) (VFlt m))) (css_lineno hd)] x = let! f := to_float x in trunc (fmul f m)).
  { intros x. unfold apply_mag. rewrite GM. reflexivity. }
  split; intros Q x X.
  - destruct (scaled_within m w fw (fst bound) P Q T2 F1 x X) as (v & V1 & V2). exists v. split; [|exact V2]. etransitivity; [exact (AM x)|exact V1].
  - destruct (scaled_within m h fh (snd bound) P Q T4 F2 x X) as (v & V1 & V2). exists v. split; [|exact V2]. etransitivity; [exact (AM x)|exact V1].
Qed.
Definition plate (w h : Z) : elem := Elem (mkhead EBoard [(L "width", mkattr InheritInt None (VInt w)); (L "height", mkattr InheritInt None (VInt h))] []) [].
Lemma set_mag_refuted : exists e bound, get_int [ehead e] "width" = Ok 341 /\ get_int [ehead e] "height" = Ok 262 /\ bound = (97, 97) /\ set_mag e bound = Exc AssertionError.
Proof. exists (plate 341 262), (97, 97). repeat split; vm_compute; reflexivity. Qed.
