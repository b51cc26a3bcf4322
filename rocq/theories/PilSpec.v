(* What a picture drawn with the Python Imaging Library holds: no caches, no life cycle. *)
From Verif Require Import Py BoardModel ImageModel PilModel ThemeModel.
Open Scope string_scope.
Open Scope list_scope.
Open Scope Z_scope.

Section World.
Context {font image : Type}.
Variable truetype : str -> Z -> res font.
Variable getsize : font -> str -> Z * Z.
Variable open_image : str -> res image.
Variable turned : image -> image.
Variable resize : image -> xy -> res image.
Variable size_of : image -> xy.
Variable has_mask : image -> bool.
Let call := @call font image.

(* ---- a text in a box ---- *)
(* the text, set with this font, is smaller than the box *)
Definition fits (text : str) (box : xy) (f : font) : Prop :=
  fst (getsize f text) < fst box /\ snd (getsize f text) < snd box.
(* the sizes of the font that come into question: the height of the box, and below it not less than 8 *)
Definition allowed (box : xy) (s : Z) : Prop := s = snd box \/ 8 <= s < snd box.
Definition too_big (uri text : str) (box : xy) (s : Z) : Prop := exists f, truetype uri s = Ok f /\ ~ fits text box f.
(* the calls for a text, and how it ends *)
Inductive lettered (at_ box : xy) (text uri : str) (fill : value) : list call -> res unit -> Prop :=
| Fitting s f : uri <> [] -> allowed box s -> truetype uri s = Ok f -> fits text box f ->
    (forall s', s < s' <= snd box -> too_big uri text box s') ->
    lettered at_ box text uri fill
      [Text (fst at_ + (fst box - fst (getsize f text)) / 2, snd at_ + (snd box - snd (getsize f text)) / 2) text f fill] (Ok tt)
| Hopeless : uri <> [] -> (forall s, allowed box s -> too_big uri text box s) -> lettered at_ box text uri fill [] (Ok tt)
| Unreadable s e : uri <> [] -> allowed box s -> truetype uri s = Exc e ->
    (forall s', s < s' <= snd box -> too_big uri text box s') -> lettered at_ box text uri fill [] (Exc e)
| Unnamed : uri = [] -> lettered at_ box text uri fill [] (Exc AssertionError).

(* ---- the other calls ---- *)
(* the picture in a file, turned upside down if so asked, at the size *)
Definition read_image (uri : str) (size : xy) (flip : option value) : res image :=
  let! i := open_image uri in resize (if otruthy flip then turned i else i) size.
Inductive shown : cmd -> list call -> res unit -> Prop :=
| ShowText p s t uri fill ks r : lettered p s t uri fill ks r -> shown (DrawText p s t (VStr uri) fill) ks r
| ShowEllipse p s fill : shown (DrawEllipse p s fill) [Ellipse (fst p) (snd p) (fst p + fst s) (snd p + snd s) fill] (Ok tt)
| ShowPolygon ps fill : shown (DrawPolygon ps fill) [Polygon ps fill] (Ok tt)
| ShowRect p s fill : shown (DrawRect p s fill) [Rectangle p (fst p + fst s - 1, snd p + snd s - 1) fill] (Ok tt)
| ShowImage uri s flip p i : read_image uri s flip = Ok i ->
    shown (PasteImage (VStr uri) s flip p) [Paste i (fst p) (snd p) (fst p + fst s) (snd p + snd s) (has_mask i)] (Ok tt)
| LoseImage uri s flip p e : read_image uri s flip = Exc e -> shown (PasteImage (VStr uri) s flip p) [] (Exc e).
(* one after the other, up to the first that fails *)
Inductive shown_all : list cmd -> list call -> res unit -> Prop :=
| ShownNil : shown_all [] [] (Ok tt)
| ShownCons k cs ks ks' r : shown k ks (Ok tt) -> shown_all cs ks' r -> shown_all (k :: cs) (ks ++ ks') r
| ShownStop k cs ks e : shown k ks (Exc e) -> shown_all (k :: cs) ks (Exc e).

(* ---- a drawing context and what was done with it ---- *)
Definition job := (list rule * board * xy)%type.
Let ctx := @context font image.
Definition do_job (c : ctx) (j : job) : ctx :=
  fst (pil_draw truetype getsize open_image turned resize size_of has_mask (fst (fst j)) (snd (fst j)) (snd j) c).
Definition after (js : list job) : ctx := fold_left do_job js fresh_context.
(* the answer of the next call: the picture itself, or the exception *)
Definition answer (c : ctx) (j : job) : res (picture (font := font) (image := image)) :=
  let (c', r) := pil_draw truetype getsize open_image turned resize size_of has_mask (fst (fst j)) (snd (fst j)) (snd j) c in
  let! n := r in match nth_error (pictures c') n with Some p => Ok p | None => Exc Unmodelled end.
(* what drawing the board asks for *)
Definition asked (css : list rule) (b : board) (size : xy) : res (list cmd) :=
  let! t := board_tree b in let! t := style css t in let! t := set_mag t size in draw_tree t.
(* resizing gives the size that was asked for *)
Definition resizes : Prop := forall i s j, resize i s = Ok j -> size_of j = s.
(* there is no such file *)
Definition absent (path : str) : Prop := (forall s, exists e, truetype path s = Exc e) /\ exists e, open_image path = Exc e.
(* a text of this width, or height, put between two edges: not outside, and in the middle *)
Definition amid (at_ len start room : Z) : Prop :=
  start <= at_ /\ at_ + len <= start + room /\ 0 <= (start + room - (at_ + len)) - (at_ - start) <= 1.
End World.

(* the library as one object *)
Record pil (font image : Type) := mkpil
  { p_truetype : str -> Z -> res font; p_getsize : font -> str -> Z * Z; p_open : str -> res image; p_turned : image -> image;
    p_resize : image -> xy -> res image; p_size : image -> xy; p_mask : image -> bool; p_resizes : resizes p_resize p_size }.
Arguments p_truetype {font image}. Arguments p_getsize {font image}. Arguments p_open {font image}. Arguments p_turned {font image}.
Arguments p_resize {font image}. Arguments p_size {font image}. Arguments p_mask {font image}.
(* the pictures a drawing context has made, and what it gives next *)
Definition made {font image} (P : pil font image) (js : list job) : list picture :=
  pictures (after (p_truetype P) (p_getsize P) (p_open P) (p_turned P) (p_resize P) (p_size P) (p_mask P) js).
Definition draws {font image} (P : pil font image) (js : list job) (css : list rule) (b : board) (size : xy) : res picture :=
  answer (p_truetype P) (p_getsize P) (p_open P) (p_turned P) (p_resize P) (p_size P) (p_mask P)
    (after (p_truetype P) (p_getsize P) (p_open P) (p_turned P) (p_resize P) (p_size P) (p_mask P) js) (css, b, size).
Definition shows {font image} (P : pil font image) : list cmd -> list call -> res unit -> Prop :=
  shown_all (p_truetype P) (p_getsize P) (p_open P) (p_turned P) (p_resize P) (p_mask P).
(* a text that is too big for its box at every size that comes into question *)
Definition hopeless {font image} (P : pil font image) (uri text : str) (box : xy) : Prop :=
  forall s, allowed box s -> too_big (p_truetype P) (p_getsize P) uri text box s.
(* what is asked for needs a file that cannot be read as what it is used for, at a size that comes into question *)
Definition fails {font image} (P : pil font image) (k : cmd) (e : exn) : Prop :=
  match k with
  | DrawText _ box _ (VStr uri) _ => (uri = [] /\ e = AssertionError) \/ exists s, allowed box s /\ p_truetype P uri s = Exc e
  | PasteImage (VStr uri) size flip _ => read_image (p_open P) (p_turned P) (p_resize P) uri size flip = Exc e
  | _ => False
  end.
Definition missing {font image} (P : pil font image) (path : str) : Prop := absent (p_truetype P) (p_open P) path.
