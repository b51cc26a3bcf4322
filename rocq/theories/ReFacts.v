(* The matcher decides the usual meaning of patterns *)
From Verif Require Import Py PyFacts Re.

Inductive lang : re -> str -> Prop :=
| l_eps : lang Eps []
| l_chr p c : inset p c = true -> lang (Chr p) [c]
| l_cat r s a b : lang r a -> lang s b -> lang (Cat r s) (a ++ b)
| l_left r s a : lang r a -> lang (Alt r s) a
| l_right r s a : lang s a -> lang (Alt r s) a
| l_nil r : lang (Star r) []
| l_star r a b : lang r a -> lang (Star r) b -> lang (Star r) (a ++ b).

Lemma cat_inv r s w : lang (Cat r s) w -> exists a b, w = a ++ b /\ lang r a /\ lang s b.
Proof. intros H. inversion H; subst. eauto. Qed.
Lemma mkcat_ok r s a : lang (mkcat r s) a <-> lang (Cat r s) a.
Proof.
  assert (E1 : forall s a, lang (Cat Emp s) a -> False) by (intros ? ? H; inversion H; subst; match goal with X : lang Emp _ |- _ => inversion X end).
  assert (E2 : forall r a, lang (Cat r Emp) a -> False) by (intros ? ? H; inversion H; subst; match goal with X : lang Emp _ |- _ => inversion X end).
  assert (E3 : forall s a, lang (Cat Eps s) a <-> lang s a).
  { intros t b. split; intros H; [apply cat_inv in H as (u & v & -> & U & V); inversion U; subst; exact V|]. apply (l_cat Eps t [] b); [constructor|exact H]. }
  assert (E0 : forall a, ~ lang Emp a) by (intros ? H; inversion H).
  destruct r; cbn [mkcat]; try (split; [intros H; destruct (E0 _ H)|intros H; destruct (E1 _ _ H)]);
    destruct s; try reflexivity; try (split; [intros H; destruct (E0 _ H)|intros H; destruct (E2 _ _ H)]); symmetry; apply E3.
Qed.
Lemma mkalt_ok r s a : lang (mkalt r s) a <-> lang (Alt r s) a.
Proof.
  assert (E0 : forall a, ~ lang Emp a) by (intros ? H; inversion H).
  assert (A : forall r s a, lang (Alt r s) a <-> lang r a \/ lang s a).
  { clear. intros r s a. split; [intros H; inversion H; auto|]. intros [H|H]; [apply l_left|apply l_right]; exact H. }
  rewrite A. destruct r; cbn [mkalt]; try (split; [auto|intros [H|H]; [destruct (E0 _ H)|exact H]]);
    destruct s; rewrite ?A; try tauto; (split; [auto|intros [H|H]; [exact H|destruct (E0 _ H)]]).
Qed.
Lemma nullable_ok r : nullable r = true <-> lang r [].
Proof.
  induction r as [| |p|r IHr s IHs|r IHr s IHs|r IH]; cbn.
  - split; [discriminate|intros H; inversion H].
  - split; [constructor|reflexivity].
  - split; [discriminate|intros H; inversion H].
  - rewrite andb_true_iff, IHr, IHs. split.
    + intros [A B]. apply (l_cat r s [] []); assumption.
    + intros H. apply cat_inv in H as (u & v & E & U & V). symmetry in E. apply app_eq_nil in E as [-> ->]. auto.
  - rewrite orb_true_iff, IHr, IHs. split; [intros [H|H]; [apply l_left|apply l_right]; exact H|]. intros H. inversion H; auto.
  - split; [intros _; constructor|reflexivity].
Qed.
Lemma star_cons r c s : lang (Star r) (c :: s) -> exists a b, s = a ++ b /\ lang r (c :: a) /\ lang (Star r) b.
Proof.
  intros H. remember (Star r) as q eqn:Q. remember (c :: s) as w eqn:W. revert c s W. induction H; try discriminate; intros c0 s0 W.
  injection Q as ->. destruct a as [|x a].
  - apply IHlang2; [reflexivity|exact W].
  - injection W as -> <-. exists a, b. auto.
Qed.
Lemma deriv_ok c r : forall s, lang (deriv c r) s <-> lang r (c :: s).
Proof.
  induction r as [| |p|r IHr s IHs|r IHr s IHs|r IH]; intros w; cbn [deriv].
  - split; intros H; inversion H.
  - split; intros H; inversion H.
  - split.
    + destruct (inset p c) eqn:E; intros H; inversion H; subst. constructor. exact E.
    + intros H. inversion H; subst. match goal with X : inset p c = true |- _ => rewrite X end. constructor.
  - assert (G : lang (mkcat (deriv c r) s) w <-> exists a b, w = a ++ b /\ lang r (c :: a) /\ lang s b).
    { rewrite mkcat_ok. split.
      - intros H. apply cat_inv in H as (u & v & -> & U & V). exists u, v. rewrite <- IHr. auto.
      - intros (a & b & -> & A & B). constructor; [apply IHr, A|exact B]. }
    assert (K : lang (Cat r s) (c :: w) <-> (exists a b, w = a ++ b /\ lang r (c :: a) /\ lang s b) \/ (lang r [] /\ lang s (c :: w))).
    { split.
      - intros H. apply cat_inv in H as (u & v & E & U & V). destruct u as [|x u]; cbn in *; [right; subst; auto|]. injection E as -> ->. left. exists u, v. auto.
      - intros [(a & b & -> & A & B)|[A B]]; [apply (l_cat r s (c :: a) b); assumption|apply (l_cat r s [] (c :: w)); assumption]. }
    rewrite K. destruct (nullable r) eqn:N.
    + rewrite mkalt_ok. apply nullable_ok in N. rewrite <- G. split.
      * intros H. inversion H; subst; [auto|right; split; [exact N|apply IHs; assumption]].
      * intros [H|[_ H]]; [apply l_left, H|apply l_right, IHs, H].
    + rewrite G. split; [auto|]. intros [H|[H _]]; [exact H|]. apply nullable_ok in H. congruence.
  - rewrite mkalt_ok. split; intros H; inversion H; subst; try (apply l_left, IHr; assumption); apply l_right, IHs; assumption.
  - rewrite mkcat_ok. split.
    + intros H. apply cat_inv in H as (u & v & -> & U & V). apply (l_star r (c :: u) v); [apply IH, U|exact V].
    + intros H. apply star_cons in H as (a & b & -> & A & B). constructor; [apply IH, A|exact B].
Qed.
Lemma starts_ok s : forall r, starts r s = true <-> exists a b, s = a ++ b /\ lang r a.
Proof.
  induction s as [|c s IH]; intros r; cbn [starts]; rewrite orb_true_iff, nullable_ok.
  - split; [intros [H|H]; [exists [], []; auto|discriminate]|]. intros (a & b & E & H). symmetry in E. apply app_eq_nil in E as [-> ->]. auto.
  - rewrite IH. split.
    + intros [H|(a & b & -> & H)]; [exists [], (c :: s); auto|]. exists (c :: a), b. rewrite <- deriv_ok. auto.
    + intros (a & b & E & H). destruct a as [|x a]; [auto|]. injection E as -> ->. right. exists a, b. rewrite deriv_ok. auto.
Qed.
Lemma ends_ok s : forall r, ends r s = true <-> lang r s \/ exists a, s = a ++ [ascii_of_nat 10] /\ lang r a.
Proof.
  induction s as [|c s IH]; intros r; cbn [ends].
  - rewrite nullable_ok. split; [auto|]. intros [H|(a & E & _)]; [exact H|]. destruct a; discriminate.
  - destruct s as [|d s].
    + rewrite orb_true_iff, andb_true_iff, !nullable_ok, deriv_ok, Ascii.eqb_eq. split.
      * intros [[A ->]|A]; [right; exists []; auto|auto].
      * intros [A|(a & E & A)]; [auto|]. destruct a as [|x a]; [injection E as ->; auto|]. injection E as _ E. destruct a; discriminate.
    + rewrite IH, deriv_ok. split; (intros [H|(a & E & H)]; [auto|right]).
      * exists (c :: a). rewrite E. split; [reflexivity|]. apply deriv_ok, H.
      * destruct a as [|x a]; [discriminate|]. injection E as -> E. exists a. rewrite deriv_ok. auto.
Qed.

Lemma lit_lang : forall s a, lang (lit s) a <-> a = s.
Proof.
  induction s as [|c s IH]; intros a; cbn [lit].
  - split; [intros H; inversion H; auto|intros ->; constructor].
  - split.
    + intros H. apply cat_inv in H as (x & y & -> & X & Y). apply IH in Y. inversion X; subst.
      match goal with H : inset _ _ = true |- _ => apply Ascii.eqb_eq in H; subst end. reflexivity.
    + intros ->. change (c :: s) with ([c] ++ s). constructor; [constructor; apply Ascii.eqb_refl|apply IH; reflexivity].
Qed.
