(* What lies within a picture. *)
From Verif Require Import Py UtilModel BoardModel ImageModel ImageSpec.
Open Scope Z_scope.

Definition in_picture (w h : Z) (q : xy) : Prop := 0 <= fst q <= w /\ 0 <= snd q <= h.
(* all of a part of a drawing *)
Definition inside (w h : Z) (c : cmd) : Prop :=
  match c with
  | DrawText q s _ _ _ | DrawEllipse q s _ | DrawRect q s _ | PasteImage _ s _ q =>
      0 <= fst s /\ 0 <= snd s /\ in_picture w h q /\ in_picture w h (fst q + fst s, snd q + snd s)
  | DrawPolygon qs _ => Forall (in_picture w h) qs
  end.
