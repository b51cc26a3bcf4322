(* What is said about the comparison of HTML texts *)
From Verif Require Import Py HtmlSpec.
From Verif Require CmpModel.
Open Scope string_scope.
Open Scope list_scope.

(* the characters of names and values that the comparison knows *)
Definition letters : str := L "abcdefghijklmnopqrstuvwxyzABCDEFGHIJKLMNOPQRSTUVWXYZ".
Definition of_chars (cs s : str) : Prop := s <> [] /\ forall c, In c s -> In c cs.
Definition tag_name : str -> Prop := of_chars (letters ++ L "0123456789/").
Definition key_name : str -> Prop := of_chars letters.
Definition key_value : str -> Prop := of_chars (letters ++ L "0123456789:;./-").
Definition bare (s : str) : Prop := forall c, In c s -> ~ special c.

(* a page: a text, then tags each followed by a text; end tags are tags whose name begins with / *)
Record tag := mktag { tname : str; tattrs : list (str * str) }.
Definition page : Type := str * list (tag * str).
Definition simple (d : page) : Prop :=
  bare (fst d) /\ forall t s, In (t, s) (snd d) ->
    tag_name (tname t) /\ (forall k v, In (k, v) (tattrs t) -> key_name k /\ key_value v) /\ bare s.
(* how it is written *)
Definition write_attrs (a : list (str * str)) : str := flat_map (fun kv => L " " ++ fst kv ++ L "=" ++ ["034"%char] ++ snd kv ++ ["034"%char]) a.
Definition write_tag (t : tag) : str := L "<" ++ tname t ++ write_attrs (tattrs t) ++ L ">".
Definition write (d : page) : str := fst d ++ flat_map (fun ts => write_tag (fst ts) ++ snd ts) (snd d).

(* k has the value v in the dictionary made of the list: the last one counts *)
Definition holds (l : list (str * str)) (k v : str) : Prop := exists a b, l = a ++ (k, v) :: b /\ ~ In k (map fst b).
Definition same_dict (l l' : list (str * str)) : Prop := forall k v, holds l k v <-> holds l' k v.
(* what is known about the items of a dictionary, and about difflib *)
Definition lists_dict (items : list (str * str) -> list (str * str)) : Prop :=
  forall l, NoDup (map fst (items l)) /\ forall k v, In (k, v) (items l) <-> holds l k v.
Definition settled (items : list (str * str) -> list (str * str)) : Prop := forall l l', same_dict l l' -> items l = items l'.
Definition finds (changes : list CmpModel.token -> list CmpModel.token -> list (str * list CmpModel.token * list CmpModel.token)) : Prop :=
  forall a b, changes a b = [] <-> a = b.

(* the same page: the same tags with attributes related by R, and texts that differ in line breaks and in
   blanks at their ends only; the first text is also looked at for being empty *)
Definition squeezed (s : str) : str := strip (unbroken s).
Definition alike (R : list (str * str) -> list (str * str) -> Prop) (d d' : page) : Prop :=
  (unbroken (fst d) = [] <-> unbroken (fst d') = []) /\ squeezed (fst d) = squeezed (fst d')
  /\ Forall2 (fun x y => tname (fst x) = tname (fst y) /\ R (tattrs (fst x)) (tattrs (fst y)) /\ squeezed (snd x) = squeezed (snd y)) (snd d) (snd d').
