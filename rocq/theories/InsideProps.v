(* Property C154: the themes of the package draw within the picture *)
From Verif Require Import Py UtilModel BoardModel BoardSpec ImageModel ImageSpec ImageCss ThemeData ThemeModel ThemeSpec ThemeCheck InsideSpec InsideProofs.
Open Scope string_scope.
Open Scope list_scope.
Open Scope Z_scope.

(* C154 *)
Theorem C154_inside : forall name rs w h, ships name rs w h -> forall b, proper b -> exists cs, draw rs b (w, h) = Ok cs /\ Forall (inside w h) cs.
Proof. exact themes_keep. Qed.
Print Assumptions C154_inside.
(* fifteen chequers on one point, and all of the others on the bar *)
Definition heaped : board :=
  set_position ([0; 0; 0; 0; 0; 15; 0; 0; 0; 0; 0; 0; 0; 0; 0; 0; 0; 0; 0; 0; 0; 0; 0; 0; 0], repeat 0 24 ++ [15]) ongoing.
Example C154_board : proper heaped.
Proof.
  assert (S : forall l, List.length l = 25%nat -> forallb (Z.leb 0) l && (zsum l <=? 15) = true -> List.length l = 25%nat /\ (forall n, In n l -> 0 <= n) /\ zsum l <= 15).
  { intros l E H. apply andb_prop in H as (H & K). rewrite forallb_forall in H. split; [exact E|]. split; [intros n I; specialize (H n I); lia|lia]. }
  split; [intros l [->| ->]; apply S; vm_compute; reflexivity|]. split; [left; vm_compute; reflexivity|]. split; [vm_compute; congruence|].
  split; [left; vm_compute; reflexivity|]. split; [right; right; right; vm_compute; reflexivity|]. intros _. split; [left; vm_compute; reflexivity|right; left; vm_compute; reflexivity].
Qed.
(* the picture is filled up to its edges *)
Example C154_drawn : exists cs, draw neon_rules heaped (341, 262) = Ok cs /\ zlen cs >= 40 /\ ~ Forall (inside 340 262) cs /\ ~ Forall (inside 341 261) cs.
Proof.
  destruct (draw neon_rules heaped (341, 262)) as [cs|] eqn:D; vm_compute in D; [|discriminate D]. injection D as <-. eexists. split; [reflexivity|]. split; [vm_compute; congruence|].
  split; intros F; rewrite Forall_forall in F; specialize (F _ (or_introl eq_refl)); cbn in F; unfold in_picture in F; cbn in F; lia.
Qed.
