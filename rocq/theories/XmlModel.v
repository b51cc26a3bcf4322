(* The XML form of the element tree: bglib/image/base.py 27-38, 236-247, 294-303 and
   688-698.  The order in which a dict lists its items is not fixed by Python, and str() of a
   float is not modelled: both are variables. *)
From Verif Require Import Py Dict ImageModel.
Open Scope string_scope.
Open Scope list_scope.
Open Scope Z_scope.

Definition newline : ascii := ascii_of_nat 10.
Definition spaces (n : nat) : str := repeat (ascii_of_nat 32) n.
(* '|'.join(l), '\n'.join(l) *)
Fixpoint join (sep : str) (l : list str) : str :=
  match l with [] => [] | [s] => s | s :: l => s ++ sep ++ join sep l end.
(* make_DTD_ELEMENT: 294-298; no class has an empty DTD_ELEMENT *)
Definition make_DTD_ELEMENT (k : ekind) : str :=
  L "<!ELEMENT " ++ ename k ++ L " (" ++ join (L "|") (dtd_element k) ++ L ")* >".

Section Xml.
Variable items : list (str * attr) -> list (str * attr).             (* self.attributes.items() *)
Variable keys_of : list (str * aclass) -> list (str * aclass).       (* cls.DTD_ATTLIST.items() *)
Variable float_str : Floats.SpecFloat.spec_float -> str.             (* str(f) *)
(* BaseAttribute.__str__: 62-63 *)
Definition show (v : value) : str :=
  match v with VInt z => py_str_int z | VStr s => s | VBool b => py_str_bool b | VFlt f => float_str f end.
(* 238-239 *)
Definition format_attr (na : str * attr) : str := L " " ++ fst na ++ L "=" ++ [quote] ++ show (a_value (snd na)) ++ [quote].
(* format: 236-247 *)
Fixpoint format (indent : nat) (e : elem) {struct e} : str :=
  let '(Elem h ks) := e in
  spaces indent ++ L "<" ++ ename (kind h) ++ flat_map format_attr (items (attrs h)) ++ L ">" ++ [newline] ++
  (fix each (ks : list (elem + str)) : str :=
     match ks with
     | [] => []
     | inl c :: ks => format (indent + 2) c ++ each ks
     | inr s :: ks => (spaces (indent + 2) ++ s ++ [newline]) ++ each ks
     end) ks ++
  spaces indent ++ L "</" ++ ename (kind h) ++ L ">" ++ [newline].
(* dec_xml, dec_doctype, xml: 691-698 *)
Definition dtd_url : str := L "http://dtd.wxpygammon.org/backgammon.dtd".
Definition dec_xml : str := L "<?xml version=""1.0"" encoding=""us-ascii"" ?>" ++ [newline].
Definition dec_doctype : str := L "<!DOCTYPE board SYSTEM """ ++ dtd_url ++ L """ >" ++ [newline].
Definition xml (t : elem) : str := dec_xml ++ dec_doctype ++ format 0 t.
(* make_DTD_ATTLIST: 300-303 *)
Definition make_DTD_ATTLIST (k : ekind) : list str := map (fun nc => L "   " ++ fst nc ++ L " CDATA #IMPLIED") (keys_of (attlist k)).
(* ElementFactory.make_dtd: 27-35, for the classes in the order of self.ec.values() *)
Definition make_dtd (classes : list ekind) : str :=
  flat_map (fun k => make_DTD_ELEMENT k ++ [newline] ++ L "<!ATTLIST " ++ ename k ++ L " " ++ [newline] ++
                     join [newline] (make_DTD_ATTLIST k) ++ [newline] ++ L ">" ++ [newline]) classes.
End Xml.
