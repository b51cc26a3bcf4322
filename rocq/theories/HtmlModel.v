(* Model of bglib/doc/html.py: escape and nomalize.  re.sub with patterns of one
   character replaces every occurrence. *)
From Verif Require Import Py.

(* html.py:13-26; the question mark is replaced by itself *)
Definition escape_char (c : ascii) : str :=
  match c with
  | "<"%char => L "&lt;"
  | ">"%char => L "&gt;"
  | "&"%char => L "&amp;"
  | _ => [c]
  end.
Definition escape (s : str) : str := flat_map escape_char s.

(* html.py:28-32 *)
Definition newline : ascii := ascii_of_nat 10.
Definition nomalize (html : str) : str :=
  let crlfless := filter (fun c => negb (Ascii.eqb c newline)) html in
  flat_map (fun c => if Ascii.eqb c ">" then [">"%char; newline] else [c]) crlfless.
