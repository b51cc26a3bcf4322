(* What the drawing of a board consists of. *)
From Verif Require Import Py UtilModel BoardModel ImageModel ImageSpec.
From Coq Require Import Permutation.
Open Scope string_scope.
Open Scope list_scope.
Open Scope Z_scope.

(* the tree of a board, styled and scaled *)
Definition dressed (css : list rule) (b : board) (size : xy) (t : elem) : Prop :=
  exists t1 t2, board_tree b = Ok t1 /\ style css t1 = Ok t2 /\ set_mag t2 size = Ok t.
(* a drawing in pieces, one for each element *)
Definition pieces (t : elem) (ds : list (list cmd)) : Prop := Forall2 (fun p d => draw_element p = Ok d) (paths [] t) ds.
(* the element at the end of a path *)
Definition ends (k : ekind) (p : list elem) : bool :=
  match rev p with e :: _ => of_kind k e | [] => false end.
Definition writing (p : list elem) : list str := match rev p with e :: _ => texts e | [] => [] end.
(* the part of a drawing that comes from elements of a kind *)
Fixpoint part (k : ekind) (ps : list (list elem)) (ds : list (list cmd)) : list cmd :=
  match ps, ds with
  | p :: ps, d :: ds => (if ends k p then d else []) ++ part k ps ds
  | _, _ => []
  end.

(* ---- attributes of the last element of a path ---- *)
Definition seen (p : list elem) (n : string) (v : value) : Prop := get_attr (map ehead (rev p)) (L n) = Ok v.
Definition unset (p : list elem) (n : string) : Prop := get_attr (map ehead (rev p)) (L n) = Exc AttributeError.
(* a picture is given for it *)
Definition pictured (p : list elem) (v : value) : Prop := seen p "image" v /\ truthy v = true.
Definition unpictured (p : list elem) : Prop := unset p "image" \/ exists v, seen p "image" v /\ truthy v = false.
(* it is drawn at all *)
Definition visible (p : list elem) : Prop := exists v, seen p "image" v \/ seen p "color" v.
(* the colour, or the given one *)
Definition coloured (p : list elem) (d c : value) : Prop := seen p "color" c \/ unset p "color" /\ c = d.
Definition lettered (p : list elem) (f : value) : Prop := seen p "font" f /\ truthy f = true.
(* a number in pixels: of the element at the end of q, magnified as that at the end of p *)
Definition pixels (p q : list elem) (n : string) (z : Z) : Prop :=
  exists i, (seen q n (VInt i) \/ exists b : bool, seen q n (VBool b) /\ i = if b then 1 else 0) /\ apply_mag (map ehead (rev p)) i = Ok z.
Definition box (p : list elem) (at_ size : xy) : Prop :=
  pixels p p "x" (fst at_) /\ pixels p p "y" (snd at_) /\ pixels p p "width" (fst size) /\ pixels p p "height" (snd size).

(* ---- chequers ---- *)
Definition is_disc (c : cmd) : bool := match c with DrawEllipse _ _ _ | PasteImage _ _ _ _ => true | _ => false end.
Definition is_text (c : cmd) : bool := match c with DrawText _ _ _ _ _ => true | _ => false end.
Definition is_rect (c : cmd) : bool := match c with DrawRect _ _ _ => true | _ => false end.
Definition discs (cs : list cmd) : Z := zlen (filter is_disc cs).
Definition fill_of (p : list elem) (v : value) : Prop := seen p "fill" v \/ unset p "fill" /\ v = VBool true.
Inductive disc (p : list elem) (size at_ : xy) : cmd -> Prop :=
| DiscPicture u f : pictured p u -> seen p "flip" f -> disc p size at_ (PasteImage u size (Some f) at_)
| DiscPlain c v : unpictured p -> coloured p (VStr (L "white")) c -> fill_of p v ->
    disc p size at_ (DrawEllipse at_ size (if truthy v then c else v)).
(* where the next one goes: moved by the offsets, and once more by the second offsets
   if that would leave the element around it to the right or below *)
Inductive next (p : list elem) (size q : xy) : xy -> Prop :=
| NextPlain ox oy x w y h : pixels p p "x_offset" ox -> pixels p p "y_offset" oy ->
    pixels p (removelast p) "x" x -> pixels p (removelast p) "width" w -> fst q + ox + fst size <= x + w ->
    pixels p (removelast p) "y" y -> pixels p (removelast p) "height" h -> snd q + oy + snd size <= y + h ->
    next p size q (fst q + ox, snd q + oy)
| NextRight ox oy x w ox2 oy2 : pixels p p "x_offset" ox -> pixels p p "y_offset" oy ->
    pixels p (removelast p) "x" x -> pixels p (removelast p) "width" w -> fst q + ox + fst size > x + w ->
    pixels p p "x_offset2" ox2 -> pixels p p "y_offset2" oy2 ->
    next p size q (fst q + ox + ox2, snd q + oy + oy2)
| NextBelow ox oy y h ox2 oy2 : pixels p p "x_offset" ox -> pixels p p "y_offset" oy ->
    pixels p (removelast p) "y" y -> pixels p (removelast p) "height" h -> snd q + oy + snd size > y + h ->
    pixels p p "x_offset2" ox2 -> pixels p p "y_offset2" oy2 ->
    next p size q (fst q + ox + ox2, snd q + oy + oy2).
(* discs one after the other, from a place to a place *)
Inductive row (p : list elem) (size : xy) : xy -> list cmd -> xy -> Prop :=
| RowNil q : row p size q [] q
| RowCons q c q' cs r : disc p size q c -> next p size q q' -> row p size q' cs r -> row p size q (c :: cs) r.
(* the number is written: there are more than shown, and nothing forbids it *)
Definition counted (p : list elem) (n m : Z) : Prop :=
  n > m /\ (exists f, seen p "font" f) /\ forall v, seen p "hide_count" v -> truthy v = false.
(* the stack of n chequers, of which at most m are shown *)
Definition stack (p : list elem) (n m : Z) (cs : list cmd) : Prop :=
  exists at_ size row_ last_ label, box p at_ size /\ cs = row_ ++ label /\
    row p size at_ row_ last_ /\ zlen row_ = Z.max 0 (Z.min n m) /\
    (~ counted p n m -> label = []) /\
    (counted p n m -> exists f c, seen p "font" f /\ coloured p (VStr (L "white")) c /\ label = [DrawText last_ size (py_str_int n) f c]).
(* an element is drawn as its background, if it has one, and what is on it *)
Definition on_ground (p : list elem) (cs fg : list cmd) : Prop :=
  (unset p "background" /\ cs = fg) \/
  exists v at_ size, seen p "background" v /\ box p at_ size /\ cs = DrawRect at_ size v :: fg.

(* ---- dice ---- *)
(* the eyes of the faces, on a grid of four by four *)
Definition face (n : Z) : list (Z * Z) :=
  match n with
  | 1 => [(2, 2)]
  | 2 => [(3, 1); (1, 3)]
  | 3 => [(3, 1); (2, 2); (1, 3)]
  | 4 => [(1, 1); (3, 1); (1, 3); (3, 3)]
  | 5 => [(1, 1); (3, 1); (2, 2); (1, 3); (3, 3)]
  | 6 => [(1, 1); (1, 2); (1, 3); (3, 1); (3, 2); (3, 3)]
  | _ => []
  end.
(* the middle of the eye is less than a pixel away from its place on the grid *)
Definition placed (start room eye a at_ : Z) : Prop := Z.abs (8 * at_ + 4 * eye - (8 * start + 2 * room * a)) < 8.
Definition eye (at_ size d : xy) (col : value) (g : Z * Z) (c : cmd) : Prop :=
  exists q, c = DrawEllipse q d col /\ placed (fst at_) (fst size) (fst d) (fst g) (fst q) /\ placed (snd at_) (snd size) (snd d) (snd g) (snd q).
Definition within (at_ size : xy) (c : cmd) : Prop :=
  match c with
  | DrawEllipse q d _ => fst at_ <= fst q /\ fst q + fst d <= fst at_ + fst size /\ snd at_ <= snd q /\ snd q + snd d <= snd at_ + snd size
  | _ => False
  end.
(* a die with eyes *)
Definition eyes (p : list elem) (n : Z) (cs : list cmd) : Prop :=
  exists at_ size d col gs, box p at_ size /\ pixels p p "eyesize" d /\ coloured p (VStr (L "black")) col /\
    Permutation gs (face n) /\ Forall2 (eye at_ size (d, d) col) gs cs /\
    (0 <= d -> 2 * d <= fst size -> 2 * d <= snd size -> Forall (within at_ size) cs).

(* ---- texts ---- *)
Definition words (cs : list cmd) : list str := flat_map (fun c => match c with DrawText _ _ t _ _ => [t] | _ => [] end) cs.

(* ---- boards ---- *)
(* at most fifteen chequers each, none of them negative *)
Definition fair (b : board) : Prop :=
  forall side, side = fst (position b) \/ side = snd (position b) ->
    List.length side = 25%nat /\ (forall n, In n side -> 0 <= n) /\ zsum side <= 15.
(* all elements of a kind are written in letters *)
Definition all_lettered (k : ekind) (t : elem) : Prop :=
  forall p, In p (paths [] t) -> ends k p = true -> visible p /\ unpictured p /\ exists f, lettered p f.
Definition all_styled (style_ : string) (t : elem) : Prop :=
  forall p, In p (paths [] t) -> ends EDie p = true -> visible p /\ unpictured p /\ seen p "diestyle" (VStr (L style_)).
(* no stack is higher than may be shown *)
Definition all_roomy (t : elem) : Prop :=
  forall p, In p (paths [] t) -> ends EChequer p = true -> visible p /\
    forall s n m, writing p = [s] -> py_int s = Ok n -> seen p "max_count" (VInt m) -> n <= m.
(* what a picture of a die, or of a die with a number, is *)
Inductive die (p : list elem) (s : str) : list cmd -> Prop :=
| DiePicture u f at_ size : pictured p u -> seen p "flip" f -> box p at_ size -> die p s [PasteImage u size (Some f) at_]
| DieNumber f col at_ size : unpictured p -> seen p "diestyle" (VStr (L "numeric")) -> lettered p f -> coloured p (VStr (L "black")) col -> box p at_ size ->
    die p s [DrawText at_ size s f col]
| DieEyes n cs : unpictured p -> seen p "diestyle" (VStr (L "dot")) -> py_int s = Ok n -> 1 <= n <= 6 -> eyes p n cs -> die p s cs.
(* what a cube shows *)
Inductive cube_says (t : elem) (c : Z) : str -> Prop :=
| CubeValue : 0 < c -> cube_says t c (py_str_int (2 ^ c))
| CubeFirst p w : c = 0 -> In p (paths [] t) -> ends ECube p = true -> seen p "initialCube" (VStr w) -> cube_says t c w
| CubeOne p : c = 0 -> In p (paths [] t) -> ends ECube p = true -> unset p "initialCube" -> cube_says t c (L "1").
Definition resign_word (n : Z) : str := if n =? 1 then L "single" else if n =? 2 then L "gammon" else L "backgammon".

(* ---- what there is to do ---- *)
Definition sentence (b : board) : str :=
  if not_rolled b then
    if on_inner_action b =? on_action b then
      if doubled b then L (if on_action b =? YOU then "you doubled. he took. you to roll." else "he doubled. you took. him to roll.")
      else L (if on_action b =? YOU then "you to roll or double." else "him to roll or double.")
    else if doubled b then L (if on_action b =? YOU then "you doubled. him to take or drop." else "he doubled. you to take or drop.")
    else L (if on_action b =? YOU then "him to accept your resignation or not." else "you to accept his resignation or not.")
  else L (if on_action b =? YOU then "you to move." else "him to move.").
(* who has to do it *)
Definition decider (b : board) : Z := if not_rolled b then on_inner_action b else on_action b.
Definition action_names (t : elem) (z : Z) : Prop := the_one t (of_kind EAction) (fun e => own e "player" = Some (VStr (name_of z))).
