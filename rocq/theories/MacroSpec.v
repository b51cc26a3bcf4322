(* Calls of macros in wiki pages. *)
From Verif Require Import Py HtmlModel TreeSpec AnalysisSpec.
Open Scope string_scope.
Open Scope list_scope.

Definition word_char (c : ascii) : Prop := In c (L "ABCDEFGHIJKLMNOPQRSTUVWXYZabcdefghijklmnopqrstuvwxyz0123456789_").
Definition arg_char (c : ascii) : Prop := In c (L "ABCDEFGHIJKLMNOPQRSTUVWXYZabcdefghijklmnopqrstuvwxyz0123456789+, .=/#:").
Definition macro_name (s : str) : Prop := s <> [] /\ forall c, In c s -> word_char c.
Definition macro_args (s : str) : Prop := s <> [] /\ forall c, In c s -> arg_char c.
(* with or without arguments *)
Definition good_args (args : option str) : Prop := match args with Some a => macro_args a | None => True end.
(* the macros there are *)
Definition known : list string := ["BR"; "Timestamp"; "TableOfContent"; "Position"; "Analysis"].
Definition call (name : str) (args : option str) : str :=
  L "[[" ++ name ++ match args with Some a => L "(" ++ a ++ L ")" | None => [] end ++ L "]]".
Definition quoted (s : str) : str := [quote] ++ s ++ [quote].
(* a page that shows a message in an element *)
Definition page_of (inside : str) : str := L "<div>" ++ [newline] ++ inside ++ L "</div>" ++ [newline].
Definition error_page (message : str) : str := page_of (written_element "span" [("class", L "error")] (message ++ [newline])).
(* the arguments begin with the name of a position *)
Definition names_position (a : str) : Prop := exists g rest, a = g ++ rest /\ position_name g.
(* the request for a picture *)
Definition request (g width height format css : str) : list (string * str) :=
  [("gnubgid", g); ("width", width); ("height", height); ("format", format); ("css", css)].
(* what is asked of the image server if nothing is said *)
Definition plain_request (g : str) : list (string * str) :=
  request g (L "400") (L "300") (L "png") (L "minimal").
(* a page with this picture *)
Definition picture_page (urlencode : list (string * str) -> str) (r : list (string * str)) : str :=
  page_of (written_element "span" [("class", L "position")] (L "<img src=" ++ quoted (escape (L "/image?" ++ urlencode r)) ++ L " />" ++ [newline])).

(* ---- the options of Position ---- *)
(* an option as the pattern of the arguments wants it: a comma, blanks, the word and the value *)
Definition opt_text (word : string) (o : option (nat * str)) : str :=
  match o with Some (blanks, v) => L "," ++ repeat " "%char blanks ++ L word ++ v | None => [] end.
Definition opt_value (o : option (nat * str)) (default : str) : str := match o with Some (_, v) => v | None => default end.
Definition letters_only (o : option (nat * str)) : Prop :=
  match o with Some (_, v) => v <> [] /\ forall c, In c v -> In c (L "ABCDEFGHIJKLMNOPQRSTUVWXYZabcdefghijklmnopqrstuvwxyz") | None => True end.
Definition digits_only (o : option (nat * str)) : Prop :=
  match o with Some (_, v) => v <> [] /\ forall c, In c v -> In c (L "0123456789") | None => True end.
