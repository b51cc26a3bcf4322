(* Properties C117 and C118: where the parts of a drawing lie *)
From Verif Require Import Py UtilModel BoardModel BoardSpec ImageModel ImageSpec DrawnSpec DrawnTree DrawnProofs PlaceSpec PlaceProofs.
Open Scope string_scope.
Open Scope list_scope.
Open Scope Z_scope.

(* the sheet of the examples *)
Definition pointed_sheet : list rule :=
  match load (L "t/default.css") [L "board {x: 0; y: 0; width: 400; height: 300}";
      L "point {x: 10; y: 20; width: 15; height: 100; color: red; background: green}"; L "chequer {x: 1; y: 1; width: 2; height: 2; color: blue; max_count: 15}";
      L "die {x: 100; y: 50; width: 20; height: 20; eyesize: 4; color: blue; diestyle: dot}";
      L "score {x: 5; y: 6; width: 70; height: 8; color: red; font: url(""a.ttf"")}"; L "cube {color: red; font: url(""a.ttf""); initialCube: 64}";
      L "resign {x: 30; y: 40; width: 10; height: 20; x_offset: 3; image: url(""flag.jpg"")}"] with Ok rs => rs | Exc _ => [] end.
(* a gammon is offered *)
Definition giving : board := set_resign_offer 2 (set_on_inner_action HIM (set_on_action YOU ongoing)).
Definition pointed_drawn : elem := match plain_tree pointed_sheet giving (800, 600) with Ok t => t | Exc _ => Elem (mkhead EBoard [] []) [] end.

(* C117 *)
Theorem C117_points : forall t p cs, In p (paths [] t) -> ends EPoint p = true -> draw_element p = Ok cs ->
  (visible p -> exists fg, on_ground p cs fg /\ pointed p fg) /\ (~ visible p -> on_ground p cs []).
Proof. exact points_drawn. Qed.
Print Assumptions C117_points.
(* the point thirteen, twice as large as told, on its background *)
Example C117_case : exists p, In p (paths [] pointed_drawn) /\ ends EPoint p = true /\ visible p /\ writing p = [L "13"] /\
  draw_element p = Ok [DrawRect (20, 40) (30, 200) (VStr (L "green")); DrawPolygon [(20, 240); (35, 40); (50, 240)] (Some (VStr (L "red")))].
Proof.
  exists (nth 0 (filter (fun p => ends EPoint p && match writing p with [s] => str_eqb s (L "13") | _ => false end) (paths [] pointed_drawn)) []).
  split; [apply filtered_in; vm_compute; reflexivity|]. split; [vm_compute; reflexivity|].
  split; [exists (VStr (L "red")); right; vm_compute; reflexivity|]. split; vm_compute; reflexivity.
Qed.

Theorem C117_twenty_four : forall css b size cs, sides_ok b -> draw css b size = Ok cs ->
  exists t ds, dressed css b size t /\ pieces t ds /\ cs = List.concat ds /\
    (plain_points t -> triangles cs = 24 /\ triangles (part EPoint (paths [] t) ds) = 24 /\ written_on EPoint t = map py_str_int (zrange 1 25)).
Proof. exact twenty_four. Qed.
Print Assumptions C117_twenty_four.
Example C117_twenty_four_case : sides_ok giving /\ dressed pointed_sheet giving (800, 600) pointed_drawn /\ plain_points pointed_drawn /\
  match draw pointed_sheet giving (800, 600) with Ok cs => triangles cs = 24 | Exc _ => False end.
Proof.
  split; [split; reflexivity|]. split; [apply plain_dressed; vm_compute; reflexivity|]. split; [apply plain_check; vm_compute; reflexivity|]. vm_compute. reflexivity.
Qed.

(* C118 *)
Theorem C118_in_place : forall t p cs, In p (paths [] t) -> ends EChequer p = false -> (ends EResign p = true -> unpictured p) -> draw_element p = Ok cs ->
  Forall (fun c => (exists at_ s, box p at_ s /\ fills at_ s c) \/ ends EDie p = true /\ exists q d col, c = DrawEllipse q d col) cs.
Proof. exact in_place. Qed.
Print Assumptions C118_in_place.
Example C118_case : exists p, In p (paths [] pointed_drawn) /\ ends EChequer p = false /\ ends EResign p = false /\
  draw_element p = Ok [DrawText (10, 12) (140, 16) (L "0") (VStr (L "t/a.ttf")) (VStr (L "red"))].
Proof.
  exists (nth 0 (filter (ends EScore) (paths [] pointed_drawn)) []). split; [apply filtered_in; vm_compute; reflexivity|]. repeat (split; [vm_compute; reflexivity|]); vm_compute; reflexivity.
Qed.

Theorem C118_flags : forall t p cs, In p (paths [] t) -> ends EResign p = true -> draw_element p = Ok cs -> forall u, pictured p u ->
  exists s r n at_ size ox oy fg, writing p = s :: r /\ py_int s = Ok n /\ box p at_ size /\ pixels p p "x_offset" ox /\ pixels p p "y_offset" oy /\ on_ground p cs fg /\
    fg = map (fun k => PasteImage u size (Some (VBool false)) (fst at_ + k * ox, snd at_ + k * oy)) (zrange 1 (n + 1)).
Proof. exact flags_drawn. Qed.
Print Assumptions C118_flags.
Example C118_flags_case : exists p, In p (paths [] pointed_drawn) /\ ends EResign p = true /\ pictured p (VStr (L "t/flag.jpg")) /\ writing p = [L "2"] /\
  draw_element p = Ok [PasteImage (VStr (L "t/flag.jpg")) (20, 40) (Some (VBool false)) (66, 80); PasteImage (VStr (L "t/flag.jpg")) (20, 40) (Some (VBool false)) (72, 80)].
Proof.
  exists (nth 0 (filter (ends EResign) (paths [] pointed_drawn)) []). split; [apply filtered_in; vm_compute; reflexivity|]. split; [vm_compute; reflexivity|]. split; [split; vm_compute; reflexivity|]. split; vm_compute; reflexivity.
Qed.
