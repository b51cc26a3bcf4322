(* What the pictures of the shipped themes should be like. *)
From Verif Require Import Py UtilModel BoardModel ImageModel ImageSpec ThemeData ThemeModel.
Open Scope Z_scope.

(* a board of a game of backgammon: fifteen chequers each at most, dice with six sides *)
Definition proper (b : board) : Prop :=
  (forall side, side = fst (position b) \/ side = snd (position b) ->
     List.length side = 25%nat /\ (forall n, In n side -> 0 <= n) /\ zsum side <= 15) /\
  (rolled b = (0, 0) \/ (1 <= fst (rolled b) <= 6 /\ 1 <= snd (rolled b) <= 6)) /\
  0 <= cube_in_logarithm b /\ drawable b.
(* the files a picture needs *)
Definition files (cs : list cmd) : list value := flat_map loads cs.
(* the sizes the style sheets are written for *)
Definition theme_sizes : list (string * (Z * Z)) :=
  [("deutsche"%string, (341, 262)); ("flower"%string, (341, 262)); ("kotobuki"%string, (341, 262)); ("matrix"%string, (1000, 800)); ("minimal"%string, (341, 262)); ("nature"%string, (341, 262)); ("neon"%string, (341, 262)); ("safari"%string, (341, 232))].
(* the theme of a name, with its size *)
Definition ships (name : string) (rs : list rule) (w h : Z) : Prop :=
  In (name, (w, h)) theme_sizes /\
  exists text, In (("bglib/image/resource/" ++ name ++ "/default.css")%string, text) theme_files /\
    theme (("bglib/image/resource/" ++ name ++ "/default.css")%string, text) = Ok rs.
(* a file of the package *)
Definition in_package (v : value) : Prop := exists path, v = VStr path /\ In path shipped.
(* the chequers of either player on the bar *)
Definition on_bar (b : board) : Z * Z := (nth 24 (fst (position b)) 0, nth 24 (snd (position b)) 0).
Definition missing_font : str := L "bglib/image/resource/matrix/DejaVuLGCSans-Bold.ttf"%string.
(* which files are there *)
Definition accounted (name : string) (b : board) (cs : list cmd) : Prop :=
  (name <> "matrix"%string -> name <> "safari"%string -> forall v, In v (files cs) -> in_package v) /\
  (name = "safari"%string -> ((forall v, In v (files cs) -> in_package v) <-> fst (on_bar b) < 8 /\ snd (on_bar b) < 8)) /\
  (name = "matrix"%string -> In (VStr missing_font) (files cs) /\ ~ in_package (VStr missing_font) /\ forall v, In v (files cs) -> v = VStr missing_font \/ in_package v).
