(* Where the parts of a drawing lie. *)
From Verif Require Import Py UtilModel BoardModel ImageModel ImageSpec DrawnSpec.
Open Scope string_scope.
Open Scope list_scope.
Open Scope Z_scope.

(* a triangle on one side of a box, its tip in the middle of the opposite side *)
Definition triangle (at_ size : xy) (on_top : bool) (fill : option value) (c : cmd) : Prop :=
  exists half, 2 * half <= fst size <= 2 * half + 1 /\
    c = DrawPolygon
      (if on_top then [at_; (fst at_ + half, snd at_ + snd size); (fst at_ + fst size, snd at_)]
       else [(fst at_, snd at_ + snd size); (fst at_ + half, snd at_); (fst at_ + fst size, snd at_ + snd size)]) fill.
Inductive pointed (p : list elem) : list cmd -> Prop :=
| PointPicture u f at_ size : pictured p u -> seen p "flip" f -> box p at_ size -> pointed p [PasteImage u size (Some f) at_]
| PointShape col v f at_ size c : unpictured p -> coloured p (VStr (L "white")) col -> fill_of p v -> seen p "flip" f -> box p at_ size ->
    triangle at_ size (truthy f) (if truthy v then Some col else None) c -> pointed p [c].
Definition triangles (cs : list cmd) : Z := zlen (filter (fun c => match c with DrawPolygon [_; _; _] _ => true | _ => false end) cs).
(* points with a colour and without a picture *)
Definition plain_points (t : elem) : Prop :=
  forall p, In p (paths [] t) -> ends EPoint p = true -> visible p /\ unpictured p.
(* a part of a drawing that fills a box *)
Definition corner_in (at_ size q : xy) : Prop :=
  (0 <= fst size -> fst at_ <= fst q <= fst at_ + fst size) /\ (0 <= snd size -> snd at_ <= snd q <= snd at_ + snd size).
Definition fills (at_ size : xy) (c : cmd) : Prop :=
  match c with
  | DrawText q s _ _ _ | DrawRect q s _ | PasteImage _ s _ q => q = at_ /\ s = size
  | DrawPolygon qs _ => Forall (corner_in at_ size) qs
  | DrawEllipse _ _ _ => False
  end.
