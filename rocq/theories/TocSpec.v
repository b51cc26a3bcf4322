(* What is said about writing a document in the order it was built, and about tables of contents *)
From Verif Require Import Py HtmlModel HtmlSpec TreeModel TreeSpec TocModel.
Open Scope string_scope.
Open Scope list_scope.
Open Scope nat_scope.

(* ---- writing by hand: the tags and texts as they come ---- *)
Section Hand.
Variables (order : list string) (rst : str -> res str).
Definition opening (k : klass) (a : list (string * value)) : res str := open order (mknode k a [] None None []).
Definition closing (k : klass) (a : list (string * value)) : res str := close order rst (mknode k a [] None None []).
(* the elements that are open, the last one first, and the text on the line that is being written *)
Fixpoint by_hand (opened : list (klass * list (string * value))) (line : option str) (ops : list op) : option str :=
  let rest := match line with Some t => t ++ [newline] | None => [] end in
  let fits k := match opened with (h, _) :: _ => is_acceptable h k | [] => true end in
  let element k := match k with BgRoot | Text | Wrapping | MacroNode => false | _ => true end in
  match ops with
  | [] => match mapM (fun ka => closing (fst ka) (snd ka)) opened with Ok l => Some (rest ++ List.concat l) | Exc _ => None end
  | Enter k a :: ops =>
      if element k && fits k then
        match opening k a, by_hand ((k, a) :: opened) None ops with Ok o, Some s => Some (rest ++ o ++ s) | _, _ => None end
      else None
  | Append k a :: ops =>
      if element k && fits k then
        match opening k a, closing k a, by_hand opened None ops with Ok o, Ok c, Some s => Some (rest ++ o ++ c ++ s) | _, _, _ => None end
      else None
  | Leave ks :: ops =>
      match opened with
      | (k, a) :: opened =>
          if is_any k ks then match closing k a, by_hand opened None ops with Ok c, Some s => Some (rest ++ c ++ s) | _, _ => None end else None
      | [] => None
      end
  | AddText t :: ops => by_hand opened (Some (match line with Some u => u | None => [] end ++ t)) ops
  | _ => None
  end.
End Hand.

(* ---- tables of contents ---- *)
Definition depth (k : klass) : option nat := match k with H1 => Some 0 | H2 => Some 1 | H3 => Some 2 | _ => None end.
Definition titled (ns : list node) (i : nat) : bool :=
  match nth_error ns i with Some n => match cls n with Heading | H1 | H2 | H3 => true | _ => false end | None => false end.
(* the headings, in the order in which they are written *)
Definition titles (ns : list node) (l : list nat) : list nat := filter (titled ns) l.
(* what is shown of a child of a heading: a text itself, the texts of a link *)
Definition own_text (ns : list node) (i : nat) (s : str) : Prop :=
  exists n, nth_error ns i = Some n /\ ((cls n = Text /\ s = text n) \/ (cls n <> Text /\ s = [])).
Definition label (ns : list node) (i : nat) (s : str) : Prop :=
  exists n, nth_error ns i = Some n
    /\ ((cls n = Text /\ children n = [] /\ s = text n) \/ (cls n = Anchor /\ exists ss, Forall2 (own_text ns) (children n) ss /\ s = List.concat ss)).
Definition no_label (ns : list node) (i : nat) : Prop := exists n, nth_error ns i = Some n /\ cls n <> Text /\ cls n <> Anchor.
(* the depth and the labels of a heading *)
Definition entry (ns : list node) (i : nat) (e : nat * list str) : Prop :=
  exists n, nth_error ns i = Some n /\ depth (cls n) = Some (fst e) /\ Forall2 (label ns) (children n) (snd e).
(* a heading with and without labels *)
Definition listed (ns : list node) (i : nat) : Prop :=
  exists n, nth_error ns i = Some n /\ depth (cls n) <> None /\ forall c, In c (children n) -> no_label ns c \/ exists s, label ns c s.
Fixpoint lines (n : nat) (s : string) : str := match n with 0 => [] | S n => L s ++ [newline] ++ lines n s end.
Definition mark (k : nat) : str := L "fragment" ++ py_str_int (Z.of_nat k).
Fixpoint contents (d k : nat) (es : list (nat * list str)) : str :=
  match es with
  | [] => lines (S d) "</ol>"
  | (l, labels) :: es =>
      lines (l - d) "<ol>" ++ lines (d - l) "</ol>"
      ++ L "<li><a href=" ++ [quote] ++ L "#" ++ mark k ++ [quote] ++ L ">" ++ [newline]
      ++ List.concat (map (fun s => s ++ [newline]) labels)
      ++ L "</a>" ++ [newline] ++ L "</li>" ++ [newline] ++ contents l (S k) es
  end.
Definition contents_html (es : list (nat * list str)) : str := L "<ol>" ++ [newline] ++ contents 0 0 es.
(* the k-th heading has got its mark, and nothing else is different *)
Definition marked (n : node) (k : nat) : node := with_attrs n (set_key (attrs n) "id" (VStr (mark k))).
Definition only_marked (ns : list node) (hs : list nat) (ns' : list node) : Prop :=
  List.length ns' = List.length ns
  /\ (forall k i n, nth_error hs k = Some i -> nth_error ns i = Some n -> nth_error ns' i = Some (marked n k))
  /\ (forall i, ~ In i hs -> nth_error ns' i = nth_error ns i).
Definition is_contents (ns : list node) (i : nat) : Prop := exists n, nth_error ns i = Some n /\ cls n = MacroNode.
(* one text is part of another *)
Fixpoint starts (p s : str) : bool := match p, s with [], _ => true | x :: p, y :: s => Ascii.eqb x y && starts p s | _, [] => false end.
Fixpoint found (p s : str) : bool := starts p s || match s with [] => false | _ :: s => found p s end.
