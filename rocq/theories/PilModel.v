(* Model of bglib/image/PIL.py: the drawing context on the Python Imaging Library, and of the
   life cycle of a drawing context, bglib/image/draw.py 12-47.
   The library itself is outside: fonts, images, the extent of a text, opening, flipping and resizing are variables.
   Pictures are objects with an identity: a picture that was handed out can be looked at later.
   Simplified: what an element asks of its context is known before any of it is done, so if an
   element cannot be drawn and also needs a file that cannot be loaded, the former is raised. *)
From Verif Require Import Py Dict BoardModel ImageModel.
Open Scope string_scope.
Open Scope list_scope.
Open Scope Z_scope.

Section Pil.
Context {font image : Type}.
Variable truetype : str -> Z -> res font.           (* ImageFont.truetype(uri, size) *)
Variable getsize : font -> str -> Z * Z.            (* font.getsize(text) *)
Variable open_image : str -> res image.             (* Image.open(uri) *)
Variable turned : image -> image.                   (* image.transpose(Image.FLIP_TOP_BOTTOM) *)
Variable resize : image -> xy -> res image.         (* image.resize(size) *)
Variable size_of : image -> xy.                     (* image.size *)
Variable has_mask : image -> bool.                  (* image.mode == 'RGBA' *)

(* a call on ImageDraw or on the picture *)
Inductive call :=
| Text (at_ : xy) (text : str) (f : font) (fill : value)
| Ellipse (x1 y1 x2 y2 : Z) (fill : value)
| Polygon (points : list xy) (fill : option value)
| Rectangle (p q : xy) (fill : value)
| Paste (i : image) (x1 y1 x2 y2 : Z) (mask : bool).
Record picture := mkpicture { psize : xy; calls : list call }.
Definition fkey := (str * Z)%type.
Definition ikey := (str * xy * option value)%type.
Definition fkey_eqb (a b : fkey) : bool := str_eqb (fst a) (fst b) && (snd a =? snd b).
Definition oval_eqb (a b : option value) : bool :=
  match a, b with Some a, Some b => value_eqb a b | None, None => true | _, _ => false end.
Definition ikey_eqb (a b : ikey) : bool :=
  str_eqb (fst (fst a)) (fst (fst b)) && zpair_eqb (snd (fst a)) (snd (fst b)) && oval_eqb (snd a) (snd b).
(* Draw.__init__: draw.py 12-16.  The one dictionary self.cache is kept in two parts, because
   a key with two parts never equals a key with three.  All pictures ever made are in [pictures]. *)
Record context := mkcontext
  { fonts : list (fkey * font); images : list (ikey * image); dc : option nat; pictures : list picture }.
Definition fresh_context : context := mkcontext [] [] None [].
Definition set_fonts c v := mkcontext v (images c) (dc c) (pictures c).
Definition set_images c v := mkcontext (fonts c) v (dc c) (pictures c).
Definition set_dc c v := mkcontext (fonts c) (images c) v (pictures c).
Definition set_pictures c v := mkcontext (fonts c) (images c) (dc c) v.

Definition io (T : Type) := context -> context * res T.
Definition ret {T} (x : T) : io T := fun c => (c, Ok x).
Definition fail {T} (x : exn) : io T := fun c => (c, Exc x).
Definition lift {T} (x : res T) : io T := fun c => (c, x).
Definition andthen {T U} (m : io T) (k : T -> io U) : io U :=
  fun c => let (c, r) := m c in match r with Ok x => k x c | Exc e => (c, Exc e) end.

(* create_dc: PIL.py 15-21 *)
Definition create_dc (size : xy) : io unit := fun c =>
  match dc c with
  | Some _ => (c, Exc AssertionError)
  | None => (set_dc (set_pictures c (pictures c ++ [mkpicture size []])) (Some (List.length (pictures c))), Ok tt)
  end.
(* delele_dc: 23-25 *)
Definition delete_dc : io unit := fun c =>
  match dc c with Some _ => (set_dc c None, Ok tt) | None => (c, Exc AssertionError) end.
(* result_from_dc: 27-29 *)
Definition result_from_dc : io nat := fun c =>
  match dc c with Some n => (c, Ok n) | None => (c, Exc AssertionError) end.
(* a call on self.dc *)
Definition emit (k : call) : io unit := fun c =>
  match dc c with
  | None => (c, Exc AssertionError)
  | Some n => match nth_error (pictures c) n with
              | Some p => (set_pictures c (list_set (pictures c) n (mkpicture (psize p) (calls p ++ [k]))), Ok tt)
              | None => (c, Exc Unmodelled)
              end
  end.
(* load_font: 60-66 *)
Definition load_font (uri : str) (size : Z) : io font := fun c =>
  match dget fkey_eqb (fonts c) (uri, size) with
  | Some f => (c, Ok f)
  | None => match uri with
            | [] => (c, Exc AssertionError)
            | _ => match truetype uri size with
                   | Ok f => (set_fonts c (dset fkey_eqb (fonts c) (uri, size) f), Ok f)
                   | Exc e => (c, Exc e)
                   end
            end
  end.
(* load_image: 68-77 *)
Definition load_image (uri : str) (size : xy) (flip : option value) : io image := fun c =>
  match dget ikey_eqb (images c) (uri, size, flip) with
  | Some i => (c, Ok i)
  | None => match (let! i := open_image uri in resize (if otruthy flip then turned i else i) size) with
            | Ok i => (set_images c (dset ikey_eqb (images c) (uri, size, flip) i), Ok i)
            | Exc e => (c, Exc e)
            end
  end.
(* paste_image: 79-90 *)
Definition paste_image (i : image) (position size : xy) : io unit :=
  andthen (lift (let! _ := passert (fst (size_of i) =? fst size) in passert (snd (size_of i) =? snd size))) (fun _ =>
  emit (Paste i (fst position) (snd position) (fst position + fst size) (snd position + snd size) (has_mask i))).
(* the loop of calc_font_size: 35-40 *)
Fixpoint smaller (fuel : nat) (uri : str) (size : xy) (text : str) (fsize w h : Z) : io (option Z * Z * Z) :=
  if (w >=? fst size) || (h >=? snd size) then
    match fuel with
    | 0%nat => fail OutOfFuel
    | S fuel =>
        if fsize - 1 <? 8 then ret (None, w, h)
        else andthen (load_font uri (fsize - 1)) (fun f =>
             smaller fuel uri size text (fsize - 1) (fst (getsize f text)) (snd (getsize f text)))
    end
  else ret (Some fsize, w, h).
(* calc_font_size: 31-41 *)
Definition calc_font_size (uri : str) (size : xy) (text : str) : io (option Z * Z * Z) :=
  andthen (load_font uri (snd size)) (fun f =>
  smaller (Z.to_nat (snd size) + 1) uri size text (snd size) (fst (getsize f text)) (snd (getsize f text))).
(* draw_text: 48-58 *)
Definition draw_text (position size : xy) (text : str) (uri : str) (fill : value) : io unit :=
  andthen (calc_font_size uri size text) (fun r =>
  match r with
  | (None, _, _) => ret tt
  | (Some fsize, w, h) =>
      andthen (load_font uri fsize) (fun f =>
      emit (Text (fst position + (fst size - w) / 2, snd position + (snd size - h) / 2) text f fill))
  end).
(* what an element asks for: draw_text 48-58, draw_ellipse 92-98, draw_polygon 100-103, draw_rect 105-111,
   load_image and paste_image 68-90 *)
Definition ask (k : cmd) : io unit :=
  match k with
  | DrawText p s t (VStr uri) fill => draw_text p s t uri fill
  | DrawText _ _ _ _ _ => fail Unmodelled
  | DrawEllipse p s fill => emit (Ellipse (fst p) (snd p) (fst p + fst s) (snd p + snd s) fill)
  | DrawPolygon ps fill => emit (Polygon ps fill)
  | DrawRect p s fill => emit (Rectangle p (fst p + fst s - 1, snd p + snd s - 1) fill)
  | PasteImage (VStr uri) s flip p => andthen (load_image uri s flip) (fun i => paste_image i p s)
  | PasteImage _ _ _ _ => fail Unmodelled
  end.
Fixpoint ask_all (ks : list cmd) : io unit :=
  match ks with [] => ret tt | k :: ks => andthen (ask k) (fun _ => ask_all ks) end.
(* visit(self.draw_element, [t.board]): the callback, which does nothing once an exception is on its way *)
Definition pil_element (path : list elem) (s : context * res unit) : res (head * (context * res unit)) :=
  let! h := last_head path in
  Ok (h, match s with
         | (c, Exc e) => (c, Exc e)
         | (c, Ok _) => match draw_element path with Ok ks => ask_all ks c | Exc e => (c, Exc e) end
         end).
Definition pil_visit (t : elem) : io unit := fun c =>
  match visit_tree pil_element t (c, Ok tt) with Ok (_, s) => s | Exc e => (c, Exc e) end.
(* Draw.draw: draw.py 35-47; make_tree 30-33.  The picture that is returned is given by its place in [pictures]. *)
Definition pil_draw (css : list rule) (b : board) (size : xy) : io nat :=
  andthen (fun c => match dc c with Some _ => delete_dc c | None => (c, Ok tt) end) (fun _ =>
  andthen (lift (let! t := board_tree b in let! t := style css t in set_mag t size)) (fun t =>
  andthen (create_dc size) (fun _ =>
  andthen (pil_visit t) (fun _ =>
  andthen result_from_dc (fun n =>
  andthen delete_dc (fun _ => ret n)))))).
End Pil.
