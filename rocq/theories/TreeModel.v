(* Model of bglib/doc/doctree.py: document nodes, the editor and the HTML writer,
   with the wrapping node of bglib/doc/bgwiki.py:74-143.
   Nodes are numbered in the order of their creation; [doc] is the heap and the
   editor.  The classes Node and Root on their own and the PDF writer are not modelled;
   the table of contents is in TocModel.v.
   Attributes are lists of pairs: Python's dict may list them in any order, and the
   theorems hold for every list. *)
From Verif Require Import Py HtmlModel.

(* ---- the classes, doctree.py:51-308 and bgwiki.py:74 ---- *)
Inductive klass :=
| BgNode | MacroNode | BgRoot | Line | Span | BR | Bold | Italic | Underline | Strike | Subscript | Superscript | Monospace
| TableCell | TableRow | TableHeader | Itemize | DefHeader | Anchor | Box | Heading | H1 | H2 | H3 | DefBody | Div | Img
| DefList | Table | BlockQuote | CitationContent | Citation | ListEl | Text | Wrapping.
Definition klass_eq_dec : forall a b : klass, {a = b} + {a <> b}.
Proof. decide equality. Defined.
Definition klass_eqb (a b : klass) : bool := if klass_eq_dec a b then true else false.
Definition base (k : klass) : option klass :=
  match k with
  | BgNode => None
  | MacroNode | BgRoot | Line | Box | Text | Wrapping => Some BgNode
  | Span | TableCell | TableRow | TableHeader | Itemize | DefHeader | CitationContent => Some Line
  | BR | Bold | Italic | Underline | Strike | Subscript | Superscript | Monospace | Anchor | Img => Some Span
  | Heading | DefBody | Div | DefList | Table | BlockQuote | Citation | ListEl => Some Box
  | H1 | H2 | H3 => Some Heading
  end.
(* issubclass; no class has more than three proper bases *)
Fixpoint is_a_upto (n : nat) (k l : klass) : bool :=
  klass_eqb k l ||
  match n with 0%nat => false | S n => match base k with Some b => is_a_upto n b l | None => false end end.
Definition is_a : klass -> klass -> bool := is_a_upto 3.
(* isinstance(node, (l1, l2, ...)) *)
Definition is_any (k : klass) (ls : list klass) : bool := existsb (is_a k) ls.
(* acceptables() and is_acceptable(), 58-62, 91-92, 99-100, 104-105, 145-147, 154-156, 176-177, 190-191, 195-196, 204-206,
   210-212, 223-225, 234-236, 255-257 *)
Definition acceptables (k : klass) : list klass :=
  match k with
  | MacroNode => []
  | Line | Span | BR | Bold | Italic | Underline | Strike | Subscript | Superscript | Monospace | Anchor | Img
  | TableCell | TableHeader | DefHeader => [MacroNode; Span]
  | TableRow => [MacroNode; Span; TableCell; TableHeader]
  | Itemize => [MacroNode; Span; ListEl; Itemize; Table; TableRow; TableHeader; TableCell]
  | Box | Heading | H1 | H2 | H3 | BlockQuote => [MacroNode; Span]
  | DefBody => [MacroNode; Span; ListEl]
  | Div => [Span; Box]
  | DefList => [MacroNode; Span; DefHeader; DefBody; ListEl]
  | Table => [MacroNode; Span; TableRow; TableHeader; TableCell]
  | CitationContent | Citation => [MacroNode; Span; Citation; CitationContent]
  | ListEl => [MacroNode; Span; ListEl; Itemize]
  | BgNode | BgRoot | Text | Wrapping => [MacroNode]
  end.
Definition is_acceptable (holder node : klass) : bool :=
  match holder with BgRoot => true | _ => is_any node (acceptables holder) end.
(* html_element and is_single *)
Definition html_element (k : klass) : option string :=
  match k with
  | Span | Underline | Monospace => Some "span" | BR => Some "br" | Bold => Some "strong" | Italic => Some "i" | Strike => Some "del"
  | Subscript => Some "sub" | Superscript => Some "sup" | TableCell => Some "td" | TableRow => Some "tr" | TableHeader => Some "th"
  | Itemize => Some "li" | DefHeader => Some "dt" | Anchor => Some "a" | H1 => Some "h1" | H2 => Some "h2" | H3 => Some "h3"
  | DefBody => Some "dd" | Div => Some "div" | Img => Some "img" | DefList => Some "dl" | Table => Some "table" | CitationContent => Some "p"
  | BgNode | MacroNode | BgRoot | Line | Box | Heading | BlockQuote | Citation | ListEl | Text | Wrapping => None
  end%string.
Definition is_single (k : klass) : bool := match k with BR | Img => true | _ => false end.

(* ---- nodes ---- *)
(* what an attribute can be: a string, None, the dictionary of ListElement._design['sign'], something else that is true *)
Inductive value := VStr (s : str) | VNone | VSign | VOther.
Definition truthy (v : value) : bool := match v with VStr [] | VNone => false | _ => true end.
Record node := mknode {
  cls : klass; attrs : list (string * value);
  text : str;                      (* Text.text, or the buf of a wrapping node *)
  processor : option string;       (* a wrapping node: the name given to prepare_formatter *)
  parent : option nat; children : list nat }.
Record doc := mkdoc { nodes : list node; current : option nat }.
Definition root : nat := 0%nat.
(* Editor() and start(BgWikiElementRoot()), 312-319 *)
Definition new_doc : doc := mkdoc [mknode BgRoot [] [] None None []] (Some root).

Definition set_node (ns : list node) (i : nat) (n : node) : list node := firstn i ns ++ n :: skipn (S i) ns.
Definition with_children (n : node) (c : list nat) : node := mknode (cls n) (attrs n) (text n) (processor n) (parent n) c.
Definition with_text (n : node) (s : str) : node := mknode (cls n) (attrs n) s (processor n) (parent n) (children n).
Definition with_attrs (n : node) (a : list (string * value)) : node := mknode (cls n) a (text n) (processor n) (parent n) (children n).
Definition with_processor (n : node) (p : option string) : node := mknode (cls n) (attrs n) (text n) p (parent n) (children n).
Definition update (d : doc) (i : nat) (f : node -> node) : doc :=
  match nth_error (nodes d) i with Some n => mkdoc (set_node (nodes d) i (f n)) (current d) | None => d end.
Definition goto (d : doc) (c : option nat) : doc := mkdoc (nodes d) c.
Definition fuel (d : doc) : nat := List.length (nodes d).

(* the first of a node and its parents with a property: the loops of 331-335, 343-344, 375-378 *)
Fixpoint climb (fuel : nat) (ns : list node) (p : node -> bool) (i : option nat) : res (option nat) :=
  match fuel with
  | 0%nat => Exc OutOfFuel
  | S fuel => match i with
              | None => Ok None
              | Some i => match nth_error ns i with
                          | None => Exc OutOfFuel
                          | Some n => if p n then Ok (Some i) else climb fuel ns p (parent n)
                          end
              end
  end.
Definition look (d : doc) (p : node -> bool) : res (option nat) := climb (S (fuel d)) (nodes d) p (current d).
(* ancestor, 373-379 *)
Definition ancestor (d : doc) (ks : list klass) : res (option nat) := look d (fun n => is_any (cls n) ks).
(* count_nesting, 360-367 *)
Fixpoint count_up (fuel : nat) (ns : list node) (p : node -> bool) (i : option nat) : res nat :=
  match fuel with
  | 0%nat => Exc OutOfFuel
  | S fuel => match i with
              | None => Ok 0%nat
              | Some i => match nth_error ns i with
                          | None => Exc OutOfFuel
                          | Some n => match count_up fuel ns p (parent n) with
                                      | Ok c => Ok (if p n then S c else c)
                                      | Exc e => Exc e
                                      end
                          end
              end
  end.
Definition count_nesting (d : doc) (ks : list klass) : res nat :=
  count_up (S (fuel d)) (nodes d) (fun n => is_any (cls n) ks) (current d).

(* ---- the editor ---- *)
(* append, 339-347.  The new node's parent is the current node, whichever node it is appended to. *)
Definition append (d : doc) (k : klass) (a : list (string * value)) : doc * res nat :=
  match k with
  | BgRoot => (d, Exc TypeError)   (* BgWikiElementRoot() takes no parent *)
  | _ =>
      let new := mknode k (match k with Wrapping => [] | _ => a end) [] None (current d) [] in
      let i := List.length (nodes d) in
      match look d (fun n => is_acceptable (cls n) k) with
      | Exc e => (d, Exc e)
      | Ok None => (d, Exc AttributeError)
      | Ok (Some c) =>
          let d := update d c (fun n => with_children n (children n ++ [i])) in
          (mkdoc (nodes d ++ [new]) (Some c), Ok i)
      end
  end.
(* enter, 325-327 *)
Definition enter (d : doc) (k : klass) (a : list (string * value)) : doc * res nat :=
  match append d k a with
  | (d, Ok i) => (goto d (Some i), Ok i)
  | (d, Exc e) => (d, Exc e)
  end.
(* leave, 329-337 *)
Definition leave (d : doc) (ks : list klass) : doc * res unit :=
  match look d (fun n => is_any (cls n) ks) with
  | Exc e => (d, Exc e)
  | Ok None => (d, Ok tt)
  | Ok (Some i) => (goto d (match nth_error (nodes d) i with Some n => parent n | None => None end), Ok tt)
  end.
(* append_text, 352-358 *)
Definition append_text (d : doc) (s : str) : doc * res unit :=
  match current d with
  | None => (d, Exc AttributeError)
  | Some c =>
      match nth_error (nodes d) c with
      | None => (d, Exc AttributeError)
      | Some n =>
          let new :=
            (mkdoc (set_node (nodes d) c (with_children n (children n ++ [List.length (nodes d)])) ++ [mknode Text [] s None (Some c) []]) (current d), Ok tt) in
          match rev (children n) with
          | i :: _ => match nth_error (nodes d) i with
                      | Some m => match cls m with Text => (update d i (fun m => with_text m (text m ++ s)), Ok tt) | _ => new end
                      | None => (d, Exc AttributeError)
                      end
          | [] => new
          end
      end
  end.
(* list.remove *)
Fixpoint remove_first (x : nat) (l : list nat) : list nat :=
  match l with [] => [] | y :: l' => if Nat.eqb y x then l' else y :: remove_first x l' end.
(* remove, 349-350 and 25-28 *)
Definition remove (d : doc) (i : nat) : doc * res unit :=
  match current d with
  | None => (d, Exc AttributeError)
  | Some c =>
      match nth_error (nodes d) c with
      | None => (d, Exc AttributeError)
      | Some n => if existsb (Nat.eqb i) (children n) then (update d c (fun n => with_children n (remove_first i (children n))), Ok tt)
                  else (d, Exc AssertionError)
      end
  end.
(* done, 321-323 *)
Definition done (d : doc) : doc := goto d (Some root).
(* AnchorElement.set_url 172-173, and attribute updates in general *)
Fixpoint set_key (a : list (string * value)) (k : string) (v : value) : list (string * value) :=
  match a with [] => [(k, v)] | (k', v') :: a => if String.eqb k' k then (k, v) :: a else (k', v') :: set_key a k v end.
Definition set_attr (d : doc) (i : nat) (k : string) (v : value) : doc := update d i (fun n => with_attrs n (set_key (attrs n) k v)).
(* self.buf += s and prepare_formatter(name) of a wrapping node, bgwiki.py:105-107, 119, 128, 130-132 *)
Definition add_line (d : doc) (i : nat) (s : str) : doc := update d i (fun n => with_text n (text n ++ s)).
Definition set_processor (d : doc) (i : nat) (p : string) : doc := update d i (fun n => with_processor n (Some p)).

(* ---- the writer ---- *)
Section Write.
Variable design_order : list string.   (* the order in which Python lists ListElement._design *)
Variable rst : str -> res str.         (* docutils *)

(* 69: key="value" with the value escaped; html.escape raises TypeError unless it gets a string *)
Definition attr_string (kv : string * value) : res str :=
  match snd kv with VStr s => Ok (L (fst kv) ++ L "=" ++ [ascii_of_nat 34] ++ escape s ++ [ascii_of_nat 34]) | _ => Exc TypeError end.
Fixpoint join_attrs (l : list str) : str := match l with [] => [] | [x] => x | x :: l => x ++ L " " ++ join_attrs l end.
(* BgWikiElementNode.open, 64-80 *)
Definition nl : str := [newline].
Definition generic_open (n : node) : res str :=
  match html_element (cls n) with
  | None => Ok []
  | Some e =>
      match mapM attr_string (attrs n) with
      | Exc x => Exc x
      | Ok l =>
          let a := join_attrs l in
          let gap := match a with [] => [] | _ => L " " ++ a end in
          Ok (L "<" ++ L e ++ gap ++ (if is_single (cls n) then L " />" else L ">") ++ nl)
      end
  end.
(* 82-88 *)
Definition generic_close (n : node) : str :=
  match html_element (cls n) with
  | None => []
  | Some e => if is_single (cls n) then [] else L "</" ++ L e ++ L ">" ++ nl
  end.
Definition get (a : list (string * value)) (k : string) : option value :=
  match find (fun kv => String.eqb (fst kv) k) a with Some (_, v) => Some v | None => None end.
(* get_design_name, 259-263 *)
Fixpoint design_name (order : list string) (a : list (string * value)) : res string :=
  match order with
  | [] => Ok "star"%string
  | k :: order => match get a k with
                  | None => Exc KeyError
                  | Some v => if truthy v then Ok k else design_name order a
                  end
  end.
(* the tag and its attribute, 243-254 and 265-266 *)
Definition design_tag (name : string) : res (string * option string) :=
  (if String.eqb name "star" then Ok ("ul", None)
  else if String.eqb name "sign" then Ok ("ul", Some "sign")
  else if String.eqb name "ordered_numeric" then Ok ("ol", None)
  else if String.eqb name "ordered_alpha" then Ok ("ol", Some "loweralpha")
  else if String.eqb name "ordered_roman" then Ok ("ol", Some "lowerroman")
  else Exc KeyError)%string.
(* get_style, 268-269 *)
Definition get_style (n : node) : res value :=
  match design_name design_order (attrs n) with
  | Exc e => Exc e
  | Ok name => match design_tag name with Exc e => Exc e | Ok _ => Ok (if String.eqb name "sign" then VSign else VNone) end
  end.
Definition class_attr (c : string) : str := L " class=" ++ [ascii_of_nat 34] ++ L c ++ [ascii_of_nat 34].
(* the classes of signed items, 245-250 *)
Definition sign_class (m : option value) : res string :=
  match m with
  | Some (VStr s) =>
      if str_eqb s (L "+") then Ok "plus" else if str_eqb s (L "++") then Ok "doubleplus" else if str_eqb s (L "+++") then Ok "tripleplus"
      else if str_eqb s (L "-") then Ok "minus" else if str_eqb s (L "--") then Ok "doubleminus" else if str_eqb s (L "---") then Ok "tripleminus"
      else Exc KeyError
  | _ => Exc KeyError
  end%string.
(* attrs.get('minus', None) or attrs.get('plus', None), 163 *)
Definition sign_of (a : list (string * value)) : option value :=
  match get a "minus" with
  | Some v => if truthy v then Some v else get a "plus"
  | None => get a "plus"
  end.
Definition list_tag (n : node) : res (string * option string) :=
  match design_name design_order (attrs n) with Exc e => Exc e | Ok name => design_tag name end.
Definition quoted (before : string) (c : string) (after : string) : str := L before ++ [ascii_of_nat 34] ++ L c ++ [ascii_of_nat 34] ++ L after.
(* open() of every class *)
Definition open (n : node) : res str :=
  match cls n with
  | Underline => Ok (quoted "<span class=" "underline" ">")            (* 122-123 *)
  | Monospace => Ok (quoted "<span class=" "monospace" ">")            (* 136-137 *)
  | Itemize =>                                                          (* 158-164 *)
      match get (attrs n) "style" with
      | None => Exc KeyError
      | Some VNone => Ok (L "<li>")
      | Some VSign => match sign_class (sign_of (attrs n)) with Exc e => Exc e | Ok c => Ok (quoted "<li class=" c ">") end
      | Some _ => Exc TypeError
      end
  | BlockQuote => Ok (L "<blockquote>" ++ nl ++ L "<p>" ++ nl)          (* 215-216 *)
  | CitationContent => Ok (L "<p>" ++ nl)                               (* 226-227 *)
  | Citation => Ok (quoted "<blockquote class=" "citation" ">" ++ nl)   (* 237-238 *)
  | ListEl =>                                                           (* 271-277 *)
      match list_tag n with
      | Exc e => Exc e
      | Ok (tag, None) => Ok (L "<" ++ L tag ++ L ">" ++ nl)
      | Ok (tag, Some c) => Ok (L "<" ++ L tag ++ class_attr c ++ L ">" ++ nl)
      end
  | Text => Ok (text n)                                                 (* 304-305 *)
  | Wrapping => Ok []                                                   (* bgwiki.py:93-94 *)
  | _ => generic_open n
  end.
(* close() of every class *)
Definition close (n : node) : res str :=
  match cls n with
  | BlockQuote => Ok (L "</p>" ++ nl ++ L "</blockquote>" ++ nl)        (* 217-218 *)
  | CitationContent => Ok (L "</p>" ++ nl)                              (* 228-229 *)
  | Citation => Ok (L "</blockquote>" ++ nl)                            (* 239-240 *)
  | ListEl => match list_tag n with Exc e => Exc e | Ok (tag, _) => Ok (L "</" ++ L tag ++ L ">" ++ nl) end   (* 279-281 *)
  | Text => Ok nl                                                       (* 307-308 *)
  | Wrapping =>                                                         (* bgwiki.py:96-100, 105-107, 136-143 *)
      match processor n with
      | Some "rst"%string => rst (text n)
      | _ => Ok (quoted "<pre class=" "wiki" ">" ++ escape (text n) ++ L "</pre>" ++ nl)
      end
  | _ => Ok (generic_close n)
  end.
(* Node.accept, 30-35: the calls of enter and leave that a visitor gets *)
Inductive visit := VEnter (i : nat) | VLeave (i : nat).
Fixpoint accept (fuel : nat) (ns : list node) (i : nat) : res (list visit) :=
  match fuel with
  | 0%nat => Exc OutOfFuel
  | S fuel =>
      match nth_error ns i with
      | None => Exc OutOfFuel
      | Some n => match mapM (accept fuel ns) (children n) with
                  | Exc e => Exc e
                  | Ok l => Ok (VEnter i :: List.concat l ++ [VLeave i])
                  end
      end
  end.
(* HtmlWriter, 404-413 *)
Definition write1 (ns : list node) (v : visit) : res str :=
  match v with
  | VEnter i => match nth_error ns i with Some n => open n | None => Exc OutOfFuel end
  | VLeave i => match nth_error ns i with Some n => close n | None => Exc OutOfFuel end
  end.
(* Editor.accept after done: bgwiki.py:31-36 *)
Definition render (d : doc) : res str :=
  match accept (S (fuel d)) (nodes d) root with
  | Exc e => Exc e
  | Ok l => match mapM (write1 (nodes d)) l with Exc e => Exc e | Ok ss => Ok (List.concat ss) end
  end.
End Write.

(* ---- what can be done with an editor ---- *)
Inductive op :=
| Enter (k : klass) (a : list (string * value))
| Append (k : klass) (a : list (string * value))
| Leave (ks : list klass)
| AddText (s : str)
| Remove (i : nat)
| Done
| GoTo (i : nat)                                    (* editor.current = node *)
| SetAttr (i : nat) (k : string) (v : value)
| AddLine (i : nat) (s : str)
| SetProcessor (i : nat) (p : string).
Definition exec (d : doc) (o : op) : doc * res unit :=
  let ok d := (d, Ok tt) in
  let forget (x : doc * res nat) := (fst x, match snd x with Ok _ => Ok tt | Exc e => Exc e end) in
  match o with
  | Enter k a => forget (enter d k a)
  | Append k a => forget (append d k a)
  | Leave ks => leave d ks
  | AddText s => append_text d s
  | Remove i => remove d i
  | Done => ok (done d)
  | GoTo i => if Nat.ltb i (List.length (nodes d)) then ok (goto d (Some i)) else (d, Exc NameError)
  | SetAttr i k v => ok (set_attr d i k v)
  | AddLine i s => match nth_error (nodes d) i with
                   | Some n => match cls n with Wrapping => ok (add_line d i s) | _ => (d, Exc AttributeError) end
                   | None => (d, Exc NameError) end
  | SetProcessor i p => match nth_error (nodes d) i with
                        | Some n => match cls n with Wrapping => ok (set_processor d i p) | _ => (d, Exc AttributeError) end
                        | None => (d, Exc NameError) end
  end.
(* a caller may go on after an exception *)
Definition edit (d : doc) (ops : list op) : doc := fold_left (fun d o => fst (exec d o)) ops d.
