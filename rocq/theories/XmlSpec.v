(* Vocabulary of the theorems about the XML of a board: a reader of XML documents and of
   document type definitions, written down from the XML recommendation as far as it
   matters here.  No CDATA sections, comments, references or apostrophes around values;
   a document with any of them is refused. *)
From Verif Require Import Py Dict UtilModel BoardModel ImageModel ImageSpec DrawnSpec XmlModel.
Open Scope string_scope.
Open Scope list_scope.
Open Scope Z_scope.

Definition among (l : string) (c : ascii) : bool := existsb (Ascii.eqb c) (L l).
(* space, tab, line feed, carriage return *)
Definition blank (c : ascii) : bool := existsb (fun n => Ascii.eqb c (ascii_of_nat n)) [32; 9; 10; 13]%nat.
(* the characters of a document in us-ascii *)
Definition legal (c : ascii) : bool := blank c || ((32 <=? nat_of_ascii c)%nat && (nat_of_ascii c <=? 126)%nat).
Definition name_char (c : ascii) : bool :=
  let n := nat_of_ascii c in
  ((65 <=? n)%nat && (n <=? 90)%nat) || ((97 <=? n)%nat && (n <=? 122)%nat) || ((48 <=? n)%nat && (n <=? 57)%nat) || among "_-.:" c.
Definition starts_name (c : ascii) : bool :=
  let n := nat_of_ascii c in ((65 <=? n)%nat && (n <=? 90)%nat) || ((97 <=? n)%nat && (n <=? 122)%nat) || among "_:" c.
Definition is_name (s : str) : bool := match s with c :: _ => starts_name c && forallb name_char s | [] => false end.
(* the longest beginning of such characters, and the rest *)
Fixpoint span (p : ascii -> bool) (s : str) : str * str :=
  match s with
  | c :: s' => if p c then (c :: fst (span p s'), snd (span p s')) else ([], s)
  | [] => ([], [])
  end.
Definition skip (s : str) : str := snd (span blank s).
(* the text without blanks around it *)
Definition trim (s : str) : str := rev (skip (rev (skip s))).
(* what follows the text, if the string begins with it *)
Fixpoint beginning (t s : str) : option str :=
  match t, s with
  | [], s => Some s
  | c :: t, d :: s => if Ascii.eqb c d then beginning t s else None
  | _ :: _, [] => None
  end.
(* what follows the first place of the text in the string *)
Fixpoint behind (t s : str) : option str :=
  match beginning t s with
  | Some r => Some r
  | None => match s with _ :: s => behind t s | [] => None end
  end.
Definition opt {X Y} (o : option X) (f : X -> option Y) : option Y := match o with Some x => f x | None => None end.
Notation "'let?' x := o 'in' f" := (opt o (fun x => f)) (at level 200, x name, f at level 200).
Notation "'need' b 'in' f" := (if b then f else None) (at level 200, f at level 200).
Fixpoint distinct (l : list str) : bool := match l with [] => true | s :: l => negb (existsb (str_eqb s) l) && distinct l end.

Inductive node := Node (name : str) (attributes : list (str * str)) (inside : list (node + str)).
Definition plain_char (c : ascii) : bool := negb (among "<&" c).
(* character data, as an application sees that does not care for blanks *)
Definition data (s : str) : list (node + str) := match trim s with [] => [] | t => [inr t] end.
(* the attributes of a tag, and what follows the tag *)
Fixpoint tag_rest (fuel : nat) (s : str) : option (list (str * str) * str) :=
  match fuel with
  | 0%nat => None
  | S fuel =>
      match beginning (L ">") (skip s) with
      | Some r => Some ([], r)
      | None =>
          need match s with d :: _ => blank d | [] => false end in
          let n := fst (span name_char (skip s)) in
          need is_name n in
          let? r := beginning [ascii_of_nat 61; quote] (snd (span name_char (skip s))) in
          let v := fst (span (fun c => negb (Ascii.eqb c quote)) r) in
          need forallb plain_char v in
          let? r := beginning [quote] (snd (span (fun c => negb (Ascii.eqb c quote)) r)) in
          let? rest := tag_rest fuel r in
          Some ((n, map (fun c => if blank c then ascii_of_nat 32 else c) v) :: fst rest, snd rest)
      end
  end.
(* an element; and what stands inside one, up to the tag that closes it *)
Fixpoint element (fuel : nat) (s : str) : option (node * str) :=
  match fuel with
  | 0%nat => None
  | S fuel =>
      let? r := beginning (L "<") s in
      let n := fst (span name_char r) in
      need is_name n in
      let r := snd (span name_char r) in
      let? at_ := tag_rest (List.length r) r in
      need distinct (map fst (fst at_)) in
      let? ks := content fuel (snd at_) in
      let? r := beginning (L "</" ++ n) (snd ks) in
      let? r := beginning (L ">") (skip r) in
      Some (Node n (fst at_) (fst ks), r)
  end
with content (fuel : nat) (s : str) : option (list (node + str) * str) :=
  match fuel with
  | 0%nat => None
  | S fuel =>
      let t := fst (span (fun c => negb (Ascii.eqb c "<")) s) in
      let r := snd (span (fun c => negb (Ascii.eqb c "<")) s) in
      need forallb plain_char t in
      match beginning (L "</") r with
      | Some _ => Some (data t, r)
      | None => let? e := element fuel r in
                let? ks := content fuel (snd e) in
                Some (data t ++ inl (fst e) :: fst ks, snd ks)
      end
  end.
(* the name of the document type and the element of a document *)
Definition read_document (s : str) : option (str * node) :=
  need forallb legal s in
  let? r := beginning (L "<?xml ") s in
  let? r := behind (L "?>") r in
  let? r := beginning (L "<!DOCTYPE ") (skip r) in
  let n := fst (span name_char r) in
  need is_name n in
  let? r := behind (L ">") (snd (span name_char r)) in
  let? e := element (List.length r) (skip r) in
  need match skip (snd e) with [] => true | _ => false end in
  Some (n, fst e).

(* ---- document type definitions ---- *)
Inductive decl := Contents (name : str) (of : list str) | Attributes (name : str) (of : list str).
(* the words of a text *)
Fixpoint words_from (acc s : str) : list str :=
  match s with
  | [] => match acc with [] => [] | _ => [rev acc] end
  | c :: s => if blank c then match acc with [] => words_from [] s | _ => rev acc :: words_from [] s end else words_from (c :: acc) s
  end.
Definition words_of (s : str) : list str := words_from [] s.
(* a choice: names between parentheses, with a star behind *)
Definition choice_of (w : str) : option (list str) :=
  let? r := beginning (L "(") w in
  let? r := beginning (rev (L ")*")) (rev r) in
  let l := split_on (ascii_of_nat 124) (rev r) in
  need match l with
       | first :: l => (str_eqb first (L "#PCDATA") || is_name first) && forallb is_name l && distinct (first :: l)
       | [] => false
       end in
  Some l.
(* name CDATA #IMPLIED, up to the word > *)
Fixpoint attdefs (ws : list str) : option (list str * list str) :=
  match ws with
  | w :: ws =>
      if str_eqb w (L ">") then Some ([], ws)
      else match ws with
           | t :: i :: ws =>
               need is_name w && str_eqb t (L "CDATA") && str_eqb i (L "#IMPLIED") in
               let? r := attdefs ws in
               Some (w :: fst r, snd r)
           | _ => None
           end
  | [] => None
  end.
Fixpoint decls (fuel : nat) (ws : list str) : option (list decl) :=
  match fuel with
  | 0%nat => None
  | S fuel =>
      match ws with
      | [] => Some []
      | w :: n :: ws =>
          need is_name n in
          if str_eqb w (L "<!ELEMENT") then
            match ws with
            | c :: e :: ws =>
                need str_eqb e (L ">") in
                let? l := choice_of c in
                let? ds := decls fuel ws in
                Some (Contents n l :: ds)
            | _ => None
            end
          else if str_eqb w (L "<!ATTLIST") then
            let? r := attdefs ws in
            let? ds := decls fuel (snd r) in
            Some (Attributes n (fst r) :: ds)
          else None
      | _ => None
      end
  end.
(* no element is declared twice *)
Definition declared (ds : list decl) : list str := flat_map (fun d => match d with Contents n _ => [n] | _ => [] end) ds.
Definition read_dtd (s : str) : option (list decl) :=
  need forallb legal s in
  let? ds := decls (S (List.length s)) (words_of s) in
  need distinct (declared ds) in
  Some ds.
(* a document that conforms *)
Fixpoint conforms (ds : list decl) (n : node) : Prop :=
  let '(Node name ats ks) := n in
  exists l, In (Contents name l) ds /\
    (forall a v, In (a, v) ats -> exists l, In (Attributes name l) ds /\ In a l) /\
    (fix each (ks : list (node + str)) : Prop :=
       match ks with
       | [] => True
       | inl (Node m ats' ks' as c) :: ks => In m l /\ conforms ds c /\ each ks
       | inr _ :: ks => In (L "#PCDATA") l /\ each ks
       end) ks.

(* ---- the document meant ---- *)
Section Meant.
Variable items : list (str * attr) -> list (str * attr).
Variable float_str : Floats.SpecFloat.spec_float -> str.
Fixpoint meant (e : elem) : node :=
  let '(Elem h ks) := e in
  Node (ename (kind h)) (map (fun na => (fst na, show float_str (a_value (snd na)))) (items (attrs h)))
    ((fix each (ks : list (elem + str)) : list (node + str) :=
        match ks with [] => [] | inl c :: ks => inl (meant c) :: each ks | inr s :: ks => inr s :: each ks end) ks).
End Meant.
(* texts that need no escaping *)
Definition bare_char (c : ascii) : bool := legal c && negb (among "<&" c) && (Ascii.eqb c " " || negb (blank c)).
Definition bare_value (s : str) : bool := forallb (fun c => bare_char c && negb (Ascii.eqb c quote)) s.
Definition bare_text (s : str) : bool := forallb bare_char s && str_eqb (trim s) s && match s with [] => false | _ => true end.
(* what the order of a dict may be *)
Definition listed {X} (items : list X -> list X) : Prop := forall l, Permutation.Permutation (items l) l.
(* elements whose attributes have different names and need no escaping and which hold one text at most *)
Definition neat_head (float_str : Floats.SpecFloat.spec_float -> str) (h : head) : Prop :=
  NoDup (map fst (attrs h)) /\
  forall n a, In (n, a) (attrs h) -> class_of (kind h) n <> None /\ bare_value (show float_str (a_value a)) = true.
Definition one_text (l : list str) : Prop := (List.length l <= 1)%nat /\ forall s, In s l -> bare_text s = true.
Definition neat (float_str : Floats.SpecFloat.spec_float -> str) (t : elem) : Prop :=
  forall e, In e (elements t) -> neat_head float_str (ehead e) /\ one_text (texts e).
(* style sheets whose values need no escaping; quotation marks may stand around the name of a file *)
Definition tame (r : rule) : Prop :=
  bare_value (r_path r) = true /\
  forall n v, In (n, v) (block r) -> if str_mem n [L "image"; L "font"] then forallb bare_char v = true else bare_value v = true.

(* a board that has been given a style, and perhaps a size *)
Definition in_style (css : list rule) (b : board) (t : elem) : Prop :=
  (exists t1, board_tree b = Ok t1 /\ style css t1 = Ok t) \/ (exists size, dressed css b size t).

(* ---- what of a board is shown ---- *)
Definition same_view (b c : board) : Prop :=
  position b = position c /\ score b = score c /\ match_length b = match_length c /\ crawford b = crawford c /\
  rolled b = rolled c /\ on_action b = on_action c /\
  (rolled b = (0, 0) -> doubled b = doubled c /\ on_inner_action b = on_inner_action c) /\
  (rolled b = (0, 0) -> doubled b = false -> on_inner_action b <> on_action b -> resign_offer b = resign_offer c) /\
  (offered b <-> offered c) /\
  (~ offered b -> cube_owner b = cube_owner c) /\
  (~ (offered b /\ rolled b <> (0, 0)) -> cube_in_logarithm b = cube_in_logarithm c).
