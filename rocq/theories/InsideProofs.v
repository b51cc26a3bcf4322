(* The shipped themes draw within the picture. *)
From Coq Require Import Floats.SpecFloat.
From Verif Require Import Py PyFacts Dict DictFacts UtilModel BoardModel ImageModel ImageSpec ImageCss ImageTree ImageBoard ImageMag ThemeData ThemeModel ThemePath ThemeDraw ThemeTree ThemeSpec ThemeAudit ThemeSound ThemeCheck ThemeProofs DrawnSpec DrawnTree DrawnProofs PlaceSpec PlaceProofs InsideSpec InsideAudit.
Open Scope string_scope.
Open Scope list_scope.
Open Scope Z_scope.

Lemma deutsche_inside : survey deutsche_rules (keeps (mag_own 341 262) 341 262) 341 262 = true.
Proof. vm_compute. reflexivity. Qed.
Lemma flower_inside : survey flower_rules (keeps (mag_own 341 262) 341 262) 341 262 = true.
Proof. vm_compute. reflexivity. Qed.
Lemma kotobuki_inside : survey kotobuki_rules (keeps (mag_own 341 262) 341 262) 341 262 = true.
Proof. vm_compute. reflexivity. Qed.
Lemma matrix_inside : survey matrix_rules (keeps (mag_own 1000 800) 1000 800) 1000 800 = true.
Proof. vm_compute. reflexivity. Qed.
Lemma minimal_inside : survey minimal_rules (keeps (mag_own 341 262) 341 262) 341 262 = true.
Proof. vm_compute. reflexivity. Qed.
Lemma nature_inside : survey nature_rules (keeps (mag_own 341 262) 341 262) 341 262 = true.
Proof. vm_compute. reflexivity. Qed.
Lemma neon_inside : survey neon_rules (keeps (mag_own 341 262) 341 262) 341 262 = true.
Proof. vm_compute. reflexivity. Qed.
Lemma safari_inside : survey safari_rules (keeps (mag_own 341 232) 341 232) 341 232 = true.
Proof. vm_compute. reflexivity. Qed.
Lemma themes_inside : forall name rs w h, ships name rs w h -> forall b cs, proper b -> draw rs b (w, h) = Ok cs -> Forall (inside w h) cs.
Proof.
  intros name rs w h S. pose proof (ships_audit name rs w h S) as (w' & al & A). revert name rs w h S w' al A.
  apply (ships_cases (fun _ rs w h => forall w' al, audit rs w' al w h = true -> forall b cs, proper b -> draw rs b (w, h) = Ok cs -> Forall (inside w h) cs));
    intros w' al A; (eapply survey_own; [|vm_compute; reflexivity|exact A]);
    [exact deutsche_inside|exact flower_inside|exact kotobuki_inside|exact matrix_inside|exact minimal_inside|exact nature_inside|exact neon_inside|exact safari_inside].
Qed.
Lemma own_size : forall name rs w h, ships name rs w h -> match mag_of w h w h with Ok _ => true | Exc _ => false end = true.
Proof. apply (ships_cases (fun _ _ w h => match mag_of w h w h with Ok _ => true | Exc _ => false end = true)); vm_compute; reflexivity. Qed.
Lemma themes_keep : forall name rs w h, ships name rs w h -> forall b, proper b -> exists cs, draw rs b (w, h) = Ok cs /\ Forall (inside w h) cs.
Proof.
  intros name rs w h S b P. pose proof (ships_audit name rs w h S) as (w' & al & A). pose proof (own_size name rs w h S) as M. destruct (audited rs w' al w h A b P) as (t & _ & G).
  specialize (G (w, h)). cbn [fst snd] in G. destruct (mag_of w h w h); [|discriminate]. destruct G as (cs & D & _). exists cs. split; [exact D|]. eapply themes_inside; eassumption.
Qed.
