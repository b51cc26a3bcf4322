(* What is said about documents and their HTML *)
From Verif Require Import Py HtmlModel HtmlSpec TreeModel.
Open Scope nat_scope.

(* ---- a reader of tags: everything between < and > ---- *)
Inductive tag := TOpen (name : str) | TClose (name : str) | TAlone (name : str).
Fixpoint word (s : str) : str :=
  match s with [] => [] | c :: s => if Ascii.eqb c " " then [] else c :: word s end.
Definition tag_of (inside : str) : tag :=
  match inside with
  | "/"%char :: n => TClose n
  | _ => match rev inside with "/"%char :: _ => TAlone (word inside) | _ => TOpen (word inside) end
  end.
(* [inside] is what has been read since the last <, backwards *)
Fixpoint tags_from (inside : option str) (s : str) : option (list tag) :=
  match s with
  | [] => match inside with None => Some [] | Some _ => None end
  | c :: s =>
      match inside with
      | None => if Ascii.eqb c "<" then tags_from (Some []) s else if Ascii.eqb c ">" then None else tags_from None s
      | Some w => if Ascii.eqb c "<" then None
                  else if Ascii.eqb c ">" then match tags_from None s with Some ts => Some (tag_of (rev w) :: ts) | None => None end
                  else tags_from (Some (c :: w)) s
      end
  end.
Definition tags : str -> option (list tag) := tags_from None.
(* every closing tag closes the last one that is open *)
Fixpoint nested (opened : list str) (ts : list tag) : bool :=
  match ts with
  | [] => match opened with [] => true | _ => false end
  | TAlone _ :: ts => nested opened ts
  | TOpen n :: ts => nested (n :: opened) ts
  | TClose n :: ts => match opened with m :: opened => str_eqb n m && nested opened ts | [] => false end
  end.
Definition balanced (s : str) : bool := match tags s with Some ts => nested [] ts | None => false end.
(* no angle brackets *)
Definition plain (s : str) : Prop := forall c, In c s -> c <> "<"%char /\ c <> ">"%char.

(* ---- a reader of the attributes of a tag ---- *)
Definition quote : ascii := ascii_of_nat 34.
Inductive reading := Name | Gap | Key (k : str) | Quote (k : str) | Value (k v : str).
Fixpoint read (st : reading) (s : str) : option (list (str * str)) :=
  match s with
  | [] => None
  | c :: s =>
      match st with
      | Name => if Ascii.eqb c " " then read Gap s else if Ascii.eqb c ">" then Some [] else read Name s
      | Gap => if Ascii.eqb c ">" then Some [] else if Ascii.eqb c " " then read Gap s else if Ascii.eqb c "/" then read Gap s else read (Key [c]) s
      | Key k => if Ascii.eqb c "=" then read (Quote k) s else read (Key (k ++ [c])) s
      | Quote k => if Ascii.eqb c quote then read (Value k []) s else None
      | Value k v => if Ascii.eqb c quote then match read Gap s with Some l => Some ((k, unescape v) :: l) | None => None end
                     else read (Value k (v ++ [c])) s
      end
  end.
Definition attributes : str -> option (list (str * str)) := read Name.
(* the name of an attribute: letters, digits, _ and - *)
Definition key_char (c : ascii) : bool :=
  let n := nat_of_ascii c in
  (Nat.leb 97 n && Nat.leb n 122) || (Nat.leb 65 n && Nat.leb n 90) || (Nat.leb 48 n && Nat.leb n 57) || Nat.eqb n 95 || Nat.eqb n 45.
Definition good_key (k : string) : Prop := k <> EmptyString /\ forall c, In c (L k) -> key_char c = true.
(* the classes that write the attributes they were given *)
Definition writes_attributes (k : klass) : Prop :=
  ~ In k [Underline; Monospace; Itemize; BlockQuote; CitationContent; Citation; ListEl; Text; Wrapping].
Definition strings (a : list (string * str)) : list (string * value) := map (fun kv => (fst kv, VStr (snd kv))) a.

(* ---- the shape of a document ---- *)
Definition holds (ns : list node) (i j : nat) : Prop := exists n, nth_error ns i = Some n /\ In j (children n).
Inductive below (ns : list node) (i : nat) : nat -> Prop :=
| below_self : below ns i i
| below_child : forall h j, below ns i h -> holds ns h j -> below ns i j.
(* a node, then what is below each of its children in turn *)
Inductive in_order (ns : list node) : nat -> list nat -> Prop :=
| order_node : forall i n ls, nth_error ns i = Some n -> Forall2 (in_order ns) (children n) ls -> in_order ns i (i :: List.concat ls).
Definition entered (l : list visit) : list nat := flat_map (fun v => match v with VEnter i => [i] | VLeave _ => [] end) l.

(* the operations that give the editor only text and names without angle brackets *)
Definition plain_attrs (a : list (string * value)) : Prop := forall k v, In (k, v) a -> plain (L k).
Definition plain_op (o : op) : Prop :=
  match o with
  | Enter _ a | Append _ a => plain_attrs a
  | AddText s => plain s
  | SetAttr _ k _ => plain (L k)
  | _ => True
  end.

(* the text of a document, in order *)
Definition text_of (ns : list node) (i : nat) : str :=
  match nth_error ns i with Some n => match cls n with Text => text n | _ => [] end | None => [] end.
Definition document_text (d : doc) : res str :=
  match accept (S (fuel d)) (nodes d) root with
  | Ok l => Ok (flat_map (text_of (nodes d)) (entered l))
  | Exc e => Exc e
  end.
(* the texts given to the editor that it took *)
Fixpoint added (d : doc) (ops : list op) : str :=
  match ops with
  | [] => []
  | o :: ops =>
      match o, snd (exec d o) with AddText s, Ok _ => s | _, _ => [] end ++ added (fst (exec d o)) ops
  end.
Definition removes (o : op) : Prop := match o with Remove _ => True | _ => False end.
(* nothing is entered that the current node would not hold, texts are not entered, and the current node is only moved to a node around it *)
Definition around (d : doc) (i : nat) : Prop := exists c, current d = Some c /\ below (nodes d) i c.
Fixpoint orderly (d : doc) (ops : list op) : Prop :=
  match ops with
  | [] => True
  | o :: ops =>
      match o with
      | Enter k _ => k <> Text /\ forall c n, current d = Some c -> nth_error (nodes d) c = Some n -> is_acceptable (cls n) k = true
      | GoTo i => around d i
      | Remove _ => False
      | _ => True
      end /\ orderly (fst (exec d o)) ops
  end.

(* ---- the content model: what may be in what, class by class ---- *)
Definition inline : list klass := [Span; BR; Bold; Italic; Underline; Strike; Subscript; Superscript; Monospace; Anchor; Img].
Definition blocks : list klass := [Box; Heading; H1; H2; H3; DefBody; Div; DefList; Table; BlockQuote; Citation; ListEl].
Definition every_class : list klass :=
  [BgNode; MacroNode; BgRoot; Line; TableCell; TableRow; TableHeader; Itemize; DefHeader; CitationContent; Text; Wrapping] ++ inline ++ blocks.
Definition content (k : klass) : list klass :=
  match k with
  | BgRoot => every_class
  | Div => inline ++ blocks
  | BgNode | Text | Wrapping => [MacroNode]
  | MacroNode => []
  | Table => MacroNode :: inline ++ [TableRow; TableHeader; TableCell]
  | TableRow => MacroNode :: inline ++ [TableHeader; TableCell]
  | ListEl => MacroNode :: inline ++ [ListEl; Itemize]
  | Itemize => MacroNode :: inline ++ [ListEl; Itemize; Table; TableRow; TableHeader; TableCell]
  | DefList => MacroNode :: inline ++ [DefHeader; DefBody; ListEl]
  | DefBody => MacroNode :: inline ++ [ListEl]
  | Citation | CitationContent => MacroNode :: inline ++ [Citation; CitationContent]
  | _ => MacroNode :: inline
  end.
