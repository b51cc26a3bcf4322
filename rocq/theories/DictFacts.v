(* Facts about association lists *)
From Verif Require Import Py Dict.
From Coq Require Import Permutation.

Section Facts.
Context {K V : Type} (eqb : K -> K -> bool) (eqb_ok : forall a b, eqb a b = true <-> a = b).
Implicit Types d : list (K * V).
Lemma eqb_refl_ a : eqb a a = true.
Proof. apply eqb_ok. reflexivity. Qed.
Lemma eqb_neq a b : a <> b -> eqb a b = false.
Proof. intros N. destruct (eqb a b) eqn:E; [apply eqb_ok in E; contradiction|reflexivity]. Qed.
Lemma dget_in d k v : dget eqb d k = Some v -> In (k, v) d.
Proof.
  induction d as [|[k' v'] d IH]; cbn; [discriminate|]. destruct (eqb k k') eqn:E; [apply eqb_ok in E as ->; intros [= ->]; auto|auto].
Qed.
Lemma dget_none d k : dget eqb d k = None <-> ~ In k (keys d).
Proof.
  induction d as [|[k' v'] d IH]; cbn; [tauto|]. destruct (eqb k k') eqn:E.
  - apply eqb_ok in E as ->. split; [discriminate|]. intros H. destruct H. left. reflexivity.
  - rewrite IH. split; [intros N [->|I]; [rewrite eqb_refl_ in E; discriminate|contradiction]|tauto].
Qed.
Lemma dget_some d k : In k (keys d) -> exists v, dget eqb d k = Some v.
Proof. intros I. destruct (dget eqb d k) as [v|] eqn:E; [eauto|]. apply dget_none in E. contradiction. Qed.
Lemma dget_unique d k v : NoDup (keys d) -> In (k, v) d -> dget eqb d k = Some v.
Proof.
  induction d as [|[k' v'] d IH]; [intros _ []|]. intros N [E|I]; cbn in *.
  - injection E as -> ->. rewrite eqb_refl_. reflexivity.
  - inversion N as [|? ? N1 N2]; subst. destruct (eqb k k') eqn:E; [|auto]. apply eqb_ok in E as ->. exfalso. apply N1. apply (in_map fst) in I. exact I.
Qed.
Lemma dget_dset d k v j : dget eqb (dset eqb d k v) j = if eqb j k then Some v else dget eqb d j.
Proof.
  induction d as [|[k' v'] d IH]; cbn; [reflexivity|]. destruct (eqb k k') eqn:E.
  - apply eqb_ok in E as ->. cbn. destruct (eqb j k'); reflexivity.
  - cbn. destruct (eqb j k') eqn:F; [|exact IH]. apply eqb_ok in F as ->. rewrite eqb_neq; [reflexivity|]. intros ->. rewrite eqb_refl_ in E. discriminate.
Qed.
Lemma dget_dpop d k j : NoDup (keys d) -> dget eqb (dpop eqb d k) j = if eqb j k then None else dget eqb d j.
Proof.
  induction d as [|[k' v'] d IH]; cbn; [destruct (eqb j k); reflexivity|]. intros N. inversion N as [|? ? N1 N2]; subst. destruct (eqb k k') eqn:E.
  - apply eqb_ok in E as ->. destruct (eqb j k') eqn:F; [|reflexivity]. apply eqb_ok in F as ->. apply dget_none, N1.
  - cbn. destruct (eqb j k') eqn:F; [|apply IH, N2]. apply eqb_ok in F as ->. rewrite eqb_neq; [reflexivity|]. intros ->. rewrite eqb_refl_ in E. discriminate.
Qed.
Lemma keys_dset_in d k v : In k (keys d) -> keys (dset eqb d k v) = keys d.
Proof.
  induction d as [|[k' v'] d IH]; [intros []|]. cbn. destruct (eqb k k') eqn:E; [reflexivity|]. intros [->|I]; [rewrite eqb_refl_ in E; discriminate|].
  cbn. f_equal. apply IH, I.
Qed.
Lemma dset_new d k v : ~ In k (keys d) -> dset eqb d k v = d ++ [(k, v)].
Proof.
  induction d as [|[k' v'] d IH]; [reflexivity|]. cbn. intros N. destruct (eqb k k') eqn:E; [apply eqb_ok in E as ->; destruct N; left; reflexivity|].
  f_equal. apply IH. tauto.
Qed.
Lemma dpop_perm d k v : dget eqb d k = Some v -> Permutation d ((k, v) :: dpop eqb d k).
Proof.
  induction d as [|[k' v'] d IH]; cbn; [discriminate|]. destruct (eqb k k') eqn:E.
  - apply eqb_ok in E as ->. intros [= ->]. reflexivity.
  - intros H. rewrite perm_swap. apply perm_skip. apply IH, H.
Qed.
Lemma dset_perm d k v w : dget eqb d k = Some v -> Permutation (dset eqb d k w) ((k, w) :: dpop eqb d k).
Proof.
  induction d as [|[k' v'] d IH]; cbn; [discriminate|]. destruct (eqb k k') eqn:E.
  - apply eqb_ok in E as ->. reflexivity.
  - intros H. rewrite perm_swap. apply perm_skip. apply IH, H.
Qed.
End Facts.
