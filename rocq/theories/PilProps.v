(* Properties C104 to C107: pictures made with the Python Imaging Library *)
From Verif Require Import Py UtilModel BoardModel BoardSpec ImageModel ImageSpec ImageMag ThemeModel ThemeSpec PilModel PilSpec PilProofs ThemeProps.
Open Scope string_scope.
Open Scope list_scope.
Open Scope Z_scope.

(* the library of the examples: three files are missing; a text is as wide as its font is high, for each letter *)
Definition toy : pil (str * Z) (str * bool * xy).
Proof.
  refine (mkpil _ _ (fun u s => if str_eqb u (L "t/gone.ttf") || str_eqb u missing_font then Exc IOError else Ok (u, s)) (fun f t => (snd f * zlen t, snd f - 1))
    (fun u => if str_eqb u (L "t/gone.jpg") || str_eqb u missing_font then Exc IOError else Ok (u, false, (640, 480))) (fun i => (fst (fst i), negb (snd (fst i)), snd i))
    (fun i s => Ok (fst i, s)) snd (fun _ => false) _).
  intros i s j [= <-]. reflexivity.
Defined.
Definition toy_sheet (font picture : string) : list rule :=
  match load (L "t/default.css") [L "board {x: 0; y: 0; width: 100; height: 100; background: gray}";
      L "length {x: 10; y: 10; width: 50; height: 20; color: red; font: url(""" ++ L font ++ L """)}";
      L "position {x: 0; y: 40; width: 100; height: 50; flip: true; image: url(""" ++ L picture ++ L """)}"] with Ok rs => rs | Exc _ => [] end.
Definition toy_board : board := set_match_length 123 ongoing.

(* C104 *)
Theorem C104_pictures : forall font image (P : pil font image) js css b size, sides_ok b ->
  match asked css b size with
  | Ok cs => exists ks r, shows P cs ks r /\ draws P js css b size = (let! _ := r in Ok (mkpicture size ks))
  | Exc _ => exists e, draws P js css b size = Exc e
  end.
Proof. exact pictures_made. Qed.
Print Assumptions C104_pictures.
(* a background, a text and a picture upside down *)
Example C104_case : sides_ok toy_board /\ List.length (toy_sheet "a.ttf" "p.jpg") = 3%nat /\
  asked (toy_sheet "a.ttf" "p.jpg") toy_board (200, 200) = Ok
    [DrawRect (0, 0) (200, 200) (VStr (L "gray")); DrawText (20, 20) (100, 40) (L "123") (VStr (L "t/a.ttf")) (VStr (L "red"));
     PasteImage (VStr (L "t/p.jpg")) (200, 100) (Some (VBool true)) (0, 80)] /\
  draws toy [] (toy_sheet "a.ttf" "p.jpg") toy_board (200, 200) = Ok (mkpicture (200, 200)
    [Rectangle (0, 0) (199, 199) (VStr (L "gray")); Text (20, 24) (L "123") (L "t/a.ttf", 33) (VStr (L "red"));
     Paste (L "t/p.jpg", true, (200, 100)) 0 80 200 180 false]).
Proof. split; [split; reflexivity|]. split; [vm_compute; reflexivity|]. split; vm_compute; reflexivity. Qed.

(* C105 *)
Theorem C105_texts : forall font image (P : pil font image) js css b size cs pic, sides_ok b -> asked css b size = Ok cs -> draws P js css b size = Ok pic ->
  (forall x y text f fill, In (Text (x, y) text f fill) (calls pic) ->
     exists at_ box uri s, In (DrawText at_ box text (VStr uri) fill) cs /\ allowed box s /\ p_truetype P uri s = Ok f /\
       amid x (fst (p_getsize P f text)) (fst at_) (fst box) /\ amid y (snd (p_getsize P f text)) (snd at_) (snd box) /\
       forall s', s < s' <= snd box -> too_big (p_truetype P) (p_getsize P) uri text box s') /\
  (forall at_ box text font fill, In (DrawText at_ box text font fill) cs ->
     exists uri, font = VStr uri /\ (hopeless P uri text box \/ exists x y f s, p_truetype P uri s = Ok f /\ In (Text (x, y) text f fill) (calls pic))).
Proof. exact texts_set. Qed.
Print Assumptions C105_texts.
(* at 34 the text would be 102 wide *)
Example C105_case : amid 20 99 20 100 /\ amid 24 32 20 40 /\ p_getsize toy (L "t/a.ttf", 33) (L "123") = (99, 32) /\
  too_big (p_truetype toy) (p_getsize toy) (L "t/a.ttf") (L "123") (100, 40) 34.
Proof. split; [unfold amid; lia|]. split; [unfold amid; lia|]. split; [reflexivity|]. exists (L "t/a.ttf", 34). split; [reflexivity|]. unfold fits. cbn. lia. Qed.
(* no room for it at all *)
Example C105_hopeless : hopeless toy (L "t/a.ttf") (L "123") (20, 40).
Proof. intros s H. exists (L "t/a.ttf", s). split; [reflexivity|]. unfold fits. destruct H as [->|H]; cbn in *; lia. Qed.

(* C106 *)
Theorem C106_again : forall font image (P : pil font image) js js' css b size,
  draws P js css b size = draws P js' css b size /\ exists new, made P (js ++ [(css, b, size)]) = made P js ++ new.
Proof. exact drawn_again. Qed.
Print Assumptions C106_again.
(* after a drawing that failed halfway, and one that succeeded *)
Example C106_case :
  let bad := (toy_sheet "gone.ttf" "p.jpg", toy_board, (200, 200)) in let good := (toy_sheet "a.ttf" "p.jpg", toy_board, (200, 200)) in
  dc (after (p_truetype toy) (p_getsize toy) (p_open toy) (p_turned toy) (p_resize toy) (p_size toy) (p_mask toy) [good; bad]) = Some 1%nat /\
  List.length (made toy [good; bad; good]) = 3%nat /\
  nth_error (made toy [good; bad; good]) 0 = nth_error (made toy [good; bad; good]) 2.
Proof. split; [|split]; vm_compute; reflexivity. Qed.

(* C107 *)
Theorem C107_blame : forall font image (P : pil font image) js css b size cs, sides_ok b -> asked css b size = Ok cs ->
  (forall e, draws P js css b size = Exc e -> exists k, In k cs /\ fails P k e) /\
  (forall path, In (VStr path) (files cs) -> missing P path -> exists e, draws P js css b size = Exc e).
Proof. exact blamed. Qed.
Print Assumptions C107_blame.
Example C107_case : draws toy [] (toy_sheet "gone.ttf" "p.jpg") toy_board (200, 200) = Exc IOError /\
  draws toy [] (toy_sheet "a.ttf" "gone.jpg") toy_board (200, 200) = Exc IOError.
Proof. split; vm_compute; reflexivity. Qed.

(* C107: the themes of the package *)
Theorem C107_themes : forall name rs w h, ships name rs w h -> forall font image (P : pil font image) js b size, proper b -> (exists t, set_mag (plate w h) size = Ok t) ->
  exists cs, asked rs b size = Ok cs /\
  ((forall k e, In k cs -> ~ fails P k e) -> exists pic, draws P js rs b size = Ok pic) /\
  (forall e, draws P js rs b size = Exc e -> exists k, In k cs /\ fails P k e) /\
  (name = "matrix" -> missing P missing_font -> exists e, draws P js rs b size = Exc e).
Proof. exact theme_pictures. Qed.
Print Assumptions C107_themes.
(* the boards of C101, a size that suits, and a library without the font *)
Example C107_theme_case : In ("matrix", (1000, 800)) theme_sizes /\ proper jammed /\ (exists t, set_mag (plate 1000 800) (500, 400) = Ok t) /\ missing toy missing_font.
Proof.
  split; [cbn; tauto|]. split; [apply C101_boards|]. split; [eexists; vm_compute; reflexivity|]. split; [intros s|]; exists IOError; vm_compute; reflexivity.
Qed.
