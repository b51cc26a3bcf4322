(* Properties C101 and C102: the themes of the package *)
From Verif Require Import Py UtilModel BoardModel BoardSpec ImageModel ImageSpec ImageCss ImageMag ThemeData ThemeModel ThemeSpec ThemeProofs.
Open Scope string_scope.
Open Scope list_scope.
Open Scope Z_scope.

(* C101 *)
Theorem C101_themes_draw : forall name w h, In (name, (w, h)) theme_sizes -> exists rs, ships name rs w h /\
  forall b, proper b ->
    (exists cs, draw rs b (w, h) = Ok cs /\ cs <> []) /\
    forall size, match set_mag (plate w h) size with
                 | Ok _ => exists cs, draw rs b size = Ok cs /\ cs <> []
                 | Exc x => draw rs b size = Exc x
                 end.
Proof. exact themes_draw. Qed.
Print Assumptions C101_themes_draw.
(* a bar full of chequers, a double offered, a match score *)
Definition jammed : board :=
  set_score (3, 7) (set_match_length 9 (set_on_inner_action HIM (set_doubled true (set_position
    ([2; 0; 0; 0; 0; 5; 0; 0; 0; 0; 0; 0; 0; 0; 0; 0; 0; 0; 0; 0; 0; 0; 0; 0; 8], snd INITIAL_POSITION) ongoing)))).
Example C101_boards : proper ongoing /\ proper jammed.
Proof.
  assert (S : forall l, List.length l = 25%nat -> forallb (Z.leb 0) l && (zsum l <=? 15) = true -> List.length l = 25%nat /\ (forall n, In n l -> 0 <= n) /\ zsum l <= 15).
  { intros l E H. apply andb_prop in H as (H & K). rewrite forallb_forall in H. split; [exact E|]. split; [intros n I; specialize (H n I); lia|lia]. }
  split; (split; [intros l [->| ->]; apply S; vm_compute; reflexivity|]; split; [left; vm_compute; reflexivity|]; split; [vm_compute; congruence|]).
  - split; [left; vm_compute; reflexivity|]. split; [right; right; right; vm_compute; reflexivity|]. intros _. split; [left; vm_compute; reflexivity|right; left; vm_compute; reflexivity].
  - split; [left; vm_compute; reflexivity|]. split; [left; split; vm_compute; congruence|]. intros _. split; [right; vm_compute; reflexivity|left; vm_compute; reflexivity].
Qed.
(* a size that suits and one that does not *)
Example C101_sizes : (exists t, set_mag (plate 341 262) (400, 400) = Ok t) /\ set_mag (plate 341 262) (97, 97) = Exc AssertionError.
Proof. split; [eexists|]; vm_compute; reflexivity. Qed.

(* C102: no picture of the theme matrix can do without a font that is not there *)
Theorem C102_files_refuted : exists name rs w h, ships name rs w h /\ forall b, proper b -> forall size cs, draw rs b size = Ok cs -> exists v, In v (files cs) /\ ~ in_package v.
Proof. exact files_refuted. Qed.
Print Assumptions C102_files_refuted.

(* C102: the six other themes, and safari up to seven chequers on a bar, need only files of the package *)
Theorem C102_files_partial : forall name rs w h, ships name rs w h -> forall b size cs, proper b -> draw rs b size = Ok cs -> accounted name b cs.
Proof. exact files_partial. Qed.
Print Assumptions C102_files_partial.
Example C102_bars : on_bar jammed = (8, 0) /\ on_bar ongoing = (0, 0).
Proof. split; reflexivity. Qed.
Example C102_there : in_package (VStr (L "bglib/image/resource/safari/bar-green-7.jpg")) /\ ~ in_package (VStr (L "bglib/image/resource/safari/bar-green-8.jpg")).
Proof.
  assert (M : forall s, existsb (str_eqb s) shipped = true <-> In s shipped).
  { intros s. rewrite existsb_exists. split; [intros (x & I & E); apply sq in E as ->; exact I|intros I; exists s; split; [exact I|apply sq; reflexivity]]. }
  split.
  - eexists. split; [reflexivity|]. apply M. vm_compute. reflexivity.
  - intros (p & E & I). injection E as <-. apply M in I. vm_compute in I. discriminate I.
Qed.
