(* Model of the table of contents: bglib/doc/macro.py:93-180.
   Every node of the class MacroNode is a TableOfContentNode that was appended to the
   document it lists: the class is only made by TableOfContent (macro.py:177-179), which
   gives it the editor of the document.  A text with nodes of its own in a heading raises
   [Unmodelled]: the editor never makes one unless it is told to enter a text. *)
From Verif Require Import Py HtmlModel TreeModel.
Open Scope list_scope.

(* TableOfContent, 177-179 *)
Definition table_of_contents : op := Append MacroNode [("editor", VOther)]%string.
(* nestingmap, 98-102; a heading of another class is a KeyError *)
Definition level (k : klass) : res nat :=
  match k with H1 => Ok 0%nat | H2 => Ok 1%nat | H3 => Ok 2%nat | _ => Exc KeyError end.
(* the arguments of 113-118 and 158-163 *)
Definition numbered : list (string * value) :=
  [("star", VNone); ("ordered_numeric", VOther); ("ordered_roman", VNone); ("ordered_alpha", VNone); ("sign", VNone)]%string.
(* TocVisitor, 103-107.  [lost]: a None is among the children of an anchor (135, 147). *)
Record toc := mktoc { sheet : doc; nesting : nat; fragments : nat; lost : bool }.
Definition fragment (n : nat) : str := L "fragment" ++ py_str_int (Z.of_nat n).

Section Toc.
Variable design_order : list string.
Variable rst : str -> res str.

(* editor.enter *)
Definition go_in (d : doc) (k : klass) (a : list (string * value)) : res doc :=
  match enter d k a with (d, Ok _) => Ok d | (_, Exc e) => Exc e end.
(* editor.leave *)
Definition go_out (d : doc) (k : klass) : res doc :=
  match leave d [k] with (d, Ok _) => Ok d | (_, Exc e) => Exc e end.
Fixpoint times (n : nat) (f : doc -> res doc) (d : doc) : res doc :=
  match n with 0%nat => Ok d | S n => let! d := f d in times n f d end.
(* match_nesting, 109-122 *)
Definition match_nesting (t : toc) (k : klass) : res toc :=
  let! n := level k in
  let! d := times (n - nesting t) (fun d => go_in d ListEl numbered) (sheet t) in
  let! d := times (nesting t - n) (fun d => go_out d ListEl) d in
  Ok (mktoc d n (fragments t) (lost t)).
(* 130-131 *)
Definition text_of_child (ns : list node) (i : nat) : str :=
  match nth_error ns i with Some n => match cls n with Text => text n | _ => [] end | None => [] end.
(* de_anchor, 124-135 *)
Definition de_anchor (ns : list node) (i : nat) : res (option str) :=
  match nth_error ns i with
  | None => Exc OutOfFuel
  | Some n => match cls n with
              | Text => match children n with [] => Ok (Some (text n)) | _ => Exc Unmodelled end
              | Anchor => Ok (Some (List.concat (map (text_of_child ns) (children n))))
              | _ => Ok None
              end
  end.
(* editor.current.children = [...], 146-147: the texts of the heading are shared, not copied; nothing changes them *)
Definition adopt1 (d : doc) (s : str) : res doc :=
  match current d with
  | None => Exc AttributeError
  | Some c => Ok (mkdoc (nodes (update d c (fun n => with_children n (children n ++ [List.length (nodes d)]))) ++ [mknode Text [] s None (Some c) []]) (Some c))
  end.
Fixpoint adopt (d : doc) (l : list (option str)) : res (doc * bool) :=
  match l with
  | [] => Ok (d, false)
  | None :: l => let! r := adopt d l in Ok (fst r, true)
  | Some s :: l => let! d := adopt1 d s in adopt d l
  end.
(* editor.current.get_style(), 143 *)
Definition current_style (d : doc) : res value :=
  match current d with
  | None => Exc AttributeError
  | Some c => match nth_error (nodes d) c with
              | None => Exc AttributeError
              | Some n => match cls n with ListEl => get_style design_order n | _ => Exc AttributeError end
              end
  end.
(* enter, 138-149, for a heading; its id is set after that, 150 *)
Definition toc_heading (ns : list node) (t : toc) (n : node) : res toc :=
  let! t := match_nesting t (cls n) in
  let! style := current_style (sheet t) in
  let! d := go_in (sheet t) Itemize [("style", style)]%string in
  let! d := go_in d Anchor [("href"%string, VStr (L "#" ++ fragment (fragments t)))] in
  let! l := mapM (de_anchor ns) (children n) in
  let! r := adopt d l in
  let! d := go_out (fst r) Anchor in
  let! d := go_out d Itemize in
  Ok (mktoc d (nesting t) (fragments t) (lost t || snd r)).
Definition set_id (ns : list node) (i : nat) (s : str) : list node :=
  match nth_error ns i with Some n => set_node ns i (with_attrs n (set_key (attrs n) "id" (VStr s))) | None => ns end.
(* root.accept(visitor), 165-167, and 140, 150-151.  The document's nodes are changed although an exception is raised. *)
Fixpoint toc_visit (vs : list visit) (ns : list node) (t : toc) : list node * res toc :=
  match vs with
  | [] => (ns, Ok t)
  | VLeave _ :: vs => toc_visit vs ns t
  | VEnter i :: vs =>
      match nth_error ns i with
      | None => (ns, Exc OutOfFuel)
      | Some n =>
          if is_a (cls n) Heading then
            match toc_heading ns t n with
            | Exc e => (ns, Exc e)
            | Ok t => toc_visit vs (set_id ns i (fragment (fragments t))) (mktoc (sheet t) (nesting t) (S (fragments t)) (lost t))
            end
          else toc_visit vs ns t
      end
  end.
(* TableOfContentNode.open, 154-174 *)
Definition toc_open (ns : list node) : list node * res str :=
  match go_in new_doc ListEl numbered with
  | Exc e => (ns, Exc e)
  | Ok d =>
      match accept (S (List.length ns)) ns root with
      | Exc e => (ns, Exc e)
      | Ok vs =>
          match toc_visit vs ns (mktoc d 0 0 false) with
          | (ns, Exc e) => (ns, Exc e)
          | (ns, Ok t) =>
              match go_out (sheet t) ListEl with
              | Exc e => (ns, Exc e)
              | Ok d => (ns, if lost t then Exc AttributeError else render design_order rst (done d))
              end
          end
      end
  end.
(* the writer of the document, doctree.py:404-413: opening a table of contents changes the nodes *)
Fixpoint write_all (vs : list visit) (ns : list node) : list node * res str :=
  match vs with
  | [] => (ns, Ok [])
  | v :: vs =>
      let (ns', r) :=
        match v with
        | VEnter i => match nth_error ns i with
                      | Some n => match cls n with MacroNode => toc_open ns | _ => (ns, open design_order n) end
                      | None => (ns, Exc OutOfFuel)
                      end
        | VLeave i => (ns, match nth_error ns i with Some n => close design_order rst n | None => Exc OutOfFuel end)
        end in
      match r with
      | Exc e => (ns', Exc e)
      | Ok s => match write_all vs ns' with (ns', Ok s') => (ns', Ok (s ++ s')) | (ns', Exc e) => (ns', Exc e) end
      end
  end.
Definition render_contents (d : doc) : doc * res str :=
  match accept (S (fuel d)) (nodes d) root with
  | Exc e => (d, Exc e)
  | Ok vs => let (ns, r) := write_all vs (nodes d) in (mkdoc ns (current d), r)
  end.
End Toc.
