(* The themes of the package: their style sheets as load() reads them, and the files beside them.
   Sources: bglib/image/theme.py 10, bglib/image/resource/NAME.py (css = load(.../default.css)),
   bglib/image/css.py 214-222, and the listing of bglib/image/resource. *)
From Verif Require Import Py ImageModel ThemeData.
Open Scope string_scope.
Open Scope list_scope.

(* file.readlines(): every line with its newline, the last one perhaps without *)
Definition is_newline (c : ascii) : bool := Ascii.eqb c (ascii_of_nat 10).
Fixpoint readlines (s : str) : list str :=
  match s with
  | [] => []
  | c :: s => if is_newline c then [c] :: readlines s
              else match readlines s with [] => [[c]] | l :: ls => (c :: l) :: ls end
  end.
(* css.load(os.path.join(themata, name, "default.css")); themata is written relative to the package *)
Definition theme (file : string * string) : res (list rule) := load (L (fst file)) (readlines (L (snd file))).

(* the files in the directory of each theme, without its directory of tests *)
Definition theme_dir (name : string) (files : list string) : list str :=
  map (fun f => L ("bglib/image/resource/" ++ name ++ "/" ++ f)%string) files.
(* bglib/image/resource/deutsche *)
Definition deutsche_files : list str := theme_dir "deutsche"
  ["ActionManShadedItalic.ttf"; "default.css"].
(* bglib/image/resource/flower *)
Definition flower_files : list str := theme_dir "flower"
  ["Advert-Italic.ttf"; "default.css"].
(* bglib/image/resource/kotobuki *)
Definition kotobuki_files : list str := theme_dir "kotobuki"
  ["DejaVuLGCSans-Bold.ttf"; "default.css"].
(* bglib/image/resource/matrix *)
Definition matrix_files : list str := theme_dir "matrix"
  ["checker_blue.png"; "checker_red.png"; "default.css"; "design.xcf"; "dice_blue_1.png"; "dice_blue_2.png";
   "dice_blue_3.png"; "dice_blue_4.png"; "dice_blue_5.png"; "dice_blue_6.png"; "dice_red_1.png"; "dice_red_2.png";
   "dice_red_3.png"; "dice_red_4.png"; "dice_red_5.png"; "dice_red_6.png"; "ind_blue_r.png"; "ind_red_l.png";
   "position.png"].
(* bglib/image/resource/minimal *)
Definition minimal_files : list str := theme_dir "minimal"
  ["Alien-Encounters-Bold-Italic.ttf"; "default.css"].
(* bglib/image/resource/nature *)
Definition nature_files : list str := theme_dir "nature"
  ["DejaVuLGCSans-Bold.ttf"; "default.css"].
(* bglib/image/resource/neon *)
Definition neon_files : list str := theme_dir "neon"
  ["Cake.ttf"; "default.css"].
(* bglib/image/resource/safari *)
Definition safari_files : list str := theme_dir "safari"
  ["action.jpg"; "action_green.jpg"; "action_white.jpg"; "bar-green-1.jpg"; "bar-green-2.jpg"; "bar-green-3.jpg";
   "bar-green-4.jpg"; "bar-green-5.jpg"; "bar-green-6.jpg"; "bar-green-7.jpg"; "bar-none.jpg"; "bar-white-1.jpg";
   "bar-white-2.jpg"; "bar-white-3.jpg"; "bar-white-4.jpg"; "bar-white-5.jpg"; "bar-white-6.jpg"; "bar-white-7.jpg";
   "center.jpg"; "chip.png"; "crawford.jpg"; "cube_0.jpg"; "cube_1.jpg"; "cube_2.jpg"; "cube_3.jpg"; "cube_4.jpg";
   "cube_5.jpg"; "cubeholder.jpg"; "default.css"; "die_1.jpg"; "die_2.jpg"; "die_3.jpg"; "die_4.jpg"; "die_5.jpg";
   "die_6.jpg"; "empty-edge.jpg"; "empty-home.jpg"; "even-green-1.jpg"; "even-green-10.jpg"; "even-green-11.jpg";
   "even-green-12.jpg"; "even-green-13.jpg"; "even-green-14.jpg"; "even-green-15.jpg"; "even-green-2.jpg";
   "even-green-3.jpg"; "even-green-4.jpg"; "even-green-5.jpg"; "even-green-6.jpg"; "even-green-7.jpg";
   "even-green-8.jpg"; "even-green-9.jpg"; "even-none.jpg"; "even-white-1.jpg"; "even-white-10.jpg";
   "even-white-11.jpg"; "even-white-12.jpg"; "even-white-13.jpg"; "even-white-14.jpg"; "even-white-15.jpg";
   "even-white-2.jpg"; "even-white-3.jpg"; "even-white-4.jpg"; "even-white-5.jpg"; "even-white-6.jpg";
   "even-white-7.jpg"; "even-white-8.jpg"; "even-white-9.jpg"; "field.jpg"; "frame.jpg"; "his-home.jpg";
   "non-crawford.jpg"; "odd-green-1.jpg"; "odd-green-10.jpg"; "odd-green-11.jpg"; "odd-green-12.jpg";
   "odd-green-13.jpg"; "odd-green-14.jpg"; "odd-green-15.jpg"; "odd-green-2.jpg"; "odd-green-3.jpg";
   "odd-green-4.jpg"; "odd-green-5.jpg"; "odd-green-6.jpg"; "odd-green-7.jpg"; "odd-green-8.jpg"; "odd-green-9.jpg";
   "odd-none.jpg"; "odd-white-1.jpg"; "odd-white-10.jpg"; "odd-white-11.jpg"; "odd-white-12.jpg"; "odd-white-13.jpg";
   "odd-white-14.jpg"; "odd-white-15.jpg"; "odd-white-2.jpg"; "odd-white-3.jpg"; "odd-white-4.jpg";
   "odd-white-5.jpg"; "odd-white-6.jpg"; "odd-white-7.jpg"; "odd-white-8.jpg"; "odd-white-9.jpg"; "position.jpg";
   "score_0.jpg"; "score_1.jpg"; "score_10.jpg"; "score_11.jpg"; "score_12.jpg"; "score_13.jpg"; "score_14.jpg";
   "score_15.jpg"; "score_16.jpg"; "score_17.jpg"; "score_18.jpg"; "score_19.jpg"; "score_2.jpg"; "score_20.jpg";
   "score_21.jpg"; "score_22.jpg"; "score_23.jpg"; "score_24.jpg"; "score_25.jpg"; "score_3.jpg"; "score_4.jpg";
   "score_5.jpg"; "score_6.jpg"; "score_7.jpg"; "score_8.jpg"; "score_9.jpg"; "score_template.jpg"; "your-home.jpg"].
Definition shipped : list str :=
  deutsche_files ++ flower_files ++ kotobuki_files ++ matrix_files ++ minimal_files ++ nature_files ++ neon_files ++ safari_files.

(* the file that a call on the drawing context loads: load_font and load_image, PIL.py 60-76 *)
Definition loads (c : cmd) : list value :=
  match c with
  | DrawText _ _ _ font _ => [font]
  | PasteImage uri _ _ _ => [uri]
  | _ => []
  end.
