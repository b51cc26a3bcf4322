(* Model of the comparison of HTML texts that the tests of the project use: bglib/doc/html.py 35-107.
   The order in which a Python dictionary lists its items is a parameter, and so is difflib. *)
From Verif Require Import Py Re Rx HtmlModel.
Open Scope string_scope.
Open Scope list_scope.

(* html.py:35-37 *)
Definition element_set : cset := Ranges false [xone "/"; ("a", "z"); ("A", "Z"); ("0", "9")]%char.
Definition attrname_set : cset := Ranges false [("a", "z"); ("A", "Z")]%char.
Definition attrvalue_set : cset := Ranges false [("a", "z"); ("A", "Z"); ("0", "9"); xone ":"; xone ";"; xone "."; xone "/"; xone "-"]%char.
(* html.py:41 *)
Definition text_set : cset := Ranges true [xone "<"; xone ">"; xone "&"]%char.

(* html.py:35-42, the same names *)
Definition ELEMENT : rx := XGroup "element" (xplus (XChr element_set)).
Definition ATTRNAME : rx := XGroup "attrname" (xplus (XChr attrname_set)).
Definition ATTRVALUE : rx := XGroup "attrvalue" (xplus (XChr attrvalue_set)).
Definition ATTRIBUTE : rx := XGroup "attribute" (xcats [ATTRNAME; XChr (One "="); XChr (One """"); ATTRVALUE; XChr (One """")]).
Definition ATTRIBUTE_LIST : rx := XGroup "attribute_list" (XStar (XCat ATTRIBUTE (XStar (XChr (One " "))))).
Definition TAG : rx := XGroup "tag" (xcats [XChr (One "<"); ELEMENT; xopt (XCat (XChr (One " ")) ATTRIBUTE_LIST); XChr (One ">")]).
Definition TEXT : rx := XGroup "text" (XStar (XChr text_set)).
Definition TAG_OR_TEXT : rx := XAlt TAG TEXT.

(* matchobj.groupdict(''): groups that took no part are '' *)
Definition group_or (g : list (string * str)) (name : string) : str := match group g name with Some s => s | None => [] end.

(* what tupdict puts into its tuple *)
Inductive token := Element (name : str) (attributes : list (str * str)) | Text (s : str).

Section Cmp.
(* dict.items() after the updates, in the order of the updates *)
Variable items : list (str * str) -> list (str * str).
(* the opcodes of difflib.SequenceMatcher that are not 'equal': name, part of the first, part of the second *)
Variable changes : list token -> list token -> list (str * list token * list token).

(* dictify_attr: html.py:55-60 *)
Definition dictify_attr (attr : str) : list (str * str) :=
  items (map (fun d => (group_or d "attrname", group_or d "attrvalue")) (find_all ATTRIBUTE attr)).
(* tupdict: html.py:72-80 *)
Definition tupdict (normalized : str) : list token :=
  flat_map (fun d =>
    match group_or d "element" with
    | [] => match group_or d "text" with
            | [] => []
            | t => [Text (strip t)]
            end
    | e => [Element e (dictify_attr (group_or d "attribute_list"))]
    end) (find_all TAG_OR_TEXT normalized).
(* cmp_tuple: html.py:82-94 *)
Definition cmp_tuple (html_a html_b : str) : list (str * list token * list token) :=
  if str_eqb html_a html_b then []
  else changes (tupdict (nomalize html_a)) (tupdict (nomalize html_b)).
(* HtmlTestCase.assertHtmlEqual: html.py:105-109; the differences are printed first *)
Definition assert_html_equal (html_a html_b : str) : res unit :=
  match cmp_tuple html_a html_b with [] => Ok tt | _ => Exc AssertionError end.
End Cmp.
