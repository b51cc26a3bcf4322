(* Model of bglib/image/base.py (attributes, elements, the element tree of a board),
   bglib/image/css.py (selectors, rules, the style sheet parser) and bglib/image/draw.py.
   Elements are values; the parent of an element is the element above it on the path
   from the root.  References shared between elements are modelled separately
   (the cells at the end of this file).  Python ints are unbounded here; sys.maxint is
   that of a 64-bit Python.  Floats are IEEE doubles (Coq's SpecFloat). *)
From Verif Require Import Py Dict Re Rx UtilModel BoardModel.
From Coq Require Import Floats.SpecFloat.
Open Scope string_scope.
Open Scope list_scope.
Open Scope Z_scope.

(* ---- attributes: base.py 44-173 ---- *)
Inductive value := VInt (z : Z) | VStr (s : str) | VBool (b : bool) | VFlt (f : spec_float).
Inductive aclass :=
| InheritInt | IntAttr | IntZero | InheritFloat | StringAttr | IdAttr | DieStyle | ColorAttr
| URIAttr | FontAttr | Flip | Fill | HideCount | Parity | Player | InitialCube.
(* is_inherit: 50-52, 70-73 *)
Definition is_inherit (c : aclass) : bool :=
  match c with InheritInt | InheritFloat | Flip | Fill | FontAttr => true | _ => false end.
(* the class attribute [default] *)
Definition default (c : aclass) : option value :=
  match c with
  | IntZero => Some (VInt 0)            (* 84 *)
  | DieStyle => Some (VStr (L "dot"))   (* 108 *)
  | Flip => Some (VBool false)          (* 141 *)
  | Fill => Some (VBool true)           (* 145 *)
  | HideCount => Some (VBool false)     (* 149 *)
  | _ => None
  end.
Definition maxint : Z := 9223372036854775807.
Definition PLAYER_STRING : list str := [L "you"; L "him"].   (* constants.py 12 *)
Definition str_mem (s : str) (l : list str) : bool := existsb (str_eqb s) l.
(* is_acceptable *)
Definition is_acceptable (c : aclass) (v : value) : bool :=
  match c, v with
  | (InheritInt | IntAttr | IntZero), VInt z => (- maxint - 1 <=? z) && (z <=? maxint)
  | (InheritInt | IntAttr | IntZero), VBool _ => true              (* bool is a subclass of int *)
  | InheritFloat, VFlt _ => true
  | (StringAttr | IdAttr | ColorAttr | URIAttr | FontAttr | InitialCube), VStr _ => true
  | DieStyle, VStr s => str_mem s [L "dot"; L "numeric"]
  | (Flip | Fill | HideCount), VBool _ => true
  | Parity, VStr s => str_mem s [L "even"; L "odd"]
  | Player, VStr s => str_mem s PLAYER_STRING
  | _, _ => false
  end.
(* os.path.dirname and os.path.join (posixpath) *)
Definition slash : ascii := "/".
Fixpoint drop_slashes (r : str) : str :=
  match r with c :: r' => if Ascii.eqb c slash then drop_slashes r' else r | [] => [] end.
Fixpoint to_slash (r : str) : str :=
  match r with c :: r' => if Ascii.eqb c slash then r else to_slash r' | [] => [] end.
Definition dirname (p : str) : str :=
  let head := rev (to_slash (rev p)) in
  if forallb (Ascii.eqb slash) head then head else rev (drop_slashes (rev head)).
Definition path_join (d f : str) : str :=
  match f with
  | c :: _ => if Ascii.eqb c slash then f
              else match rev d with
                   | [] => f
                   | e :: _ => if Ascii.eqb e slash then d ++ f else d ++ slash :: f
                   end
  | [] => match rev d with [] => f | e :: _ => if Ascii.eqb e slash then d ++ f else d ++ slash :: f end
  end.
Definition quote : ascii := ascii_of_nat 34.
(* parse; float() is not modelled *)
Definition parse (c : aclass) (css_path : option str) (s : str) : res value :=
  match c with
  | InheritInt | IntAttr | IntZero => let! z := py_int s in Ok (VInt z)                  (* 80 *)
  | InheritFloat => Exc Unmodelled                                                    (* 91 *)
  | URIAttr | FontAttr =>                                                             (* 129-132 *)
      match css_path with
      | None => Exc AttributeError                 (* os.path.dirname(None) *)
      | Some p => let! fn := pyget (split_on quote s) 1 in Ok (VStr (path_join (dirname p) fn))
      end
  | Flip | Fill | HideCount => Ok (VBool (match s with [] => false | _ => true end))  (* bool(s): 136, 152 *)
  | _ => Ok (VStr s)
  end.
Definition value_eqb (a b : value) : bool :=
  match a, b with
  | VInt x, VInt y => x =? y
  | VStr x, VStr y => str_eqb x y
  | VBool x, VBool y => Bool.eqb x y
  | VInt x, VBool y | VBool y, VInt x => x =? (if y then 1 else 0)
  | VFlt x, VFlt y => SFeqb x y
  | _, _ => false                           (* a float and a number: not used *)
  end.
(* an instance of an attribute class: 45-47 *)
Record attr := mkattr { a_class : aclass; a_path : option str; a_value : value }.
(* BaseAttribute.is_match: 64-65 *)
Definition attr_match (a : attr) (s : str) : res bool :=
  let! v := parse (a_class a) (a_path a) s in Ok (value_eqb v (a_value a)).

(* ---- elements: base.py 175-680 ---- *)
Inductive ekind :=
| EBoard | EMatch | EAction | ELength | ECrawford | EScore | EPosition | ETop | EBottom
| ECubeholder | EField | EDie | ECube | EResign | EHome | EChequer | EBar | EPoint.
Definition ename (k : ekind) : str :=
  L match k with
    | EBoard => "board" | EMatch => "match" | EAction => "action" | ELength => "length"
    | ECrawford => "crawford" | EScore => "score" | EPosition => "position" | ETop => "top_frame"
    | EBottom => "bottom_frame" | ECubeholder => "cubeholder" | EField => "field" | EDie => "die"
    | ECube => "cube" | EResign => "resign" | EHome => "home" | EChequer => "chequer"
    | EBar => "bar" | EPoint => "point"
    end.
Definition all_kinds : list ekind :=
  [EBoard; EMatch; EAction; ELength; ECrawford; EScore; EPosition; ETop; EBottom;
   ECubeholder; EField; EDie; ECube; EResign; EHome; EChequer; EBar; EPoint].
(* DTD_ELEMENT *)
Definition pcdata : str := L "#PCDATA".
Definition dtd_element (k : ekind) : list str :=
  map L match k with
  | EBoard => ["match"; "position"]                                                    (* 308 *)
  | EMatch => ["action"; "length"; "crawford"; "score"]                                (* 323 *)
  | EAction | ELength | ECrawford | EScore | ETop | EBottom | EDie | ECube | EResign | EChequer => ["#PCDATA"]
  | EPosition => ["cubeholder"; "field"; "home"; "bar"; "point"; "top_frame"; "bottom_frame"]  (* 401 *)
  | ECubeholder => ["#PCDATA"; "cube"]                                                 (* 416 *)
  | EField => ["#PCDATA"; "die"; "cube"; "resign"]                                     (* 422 *)
  | EHome => ["#PCDATA"; "cube"; "chequer"]                                            (* 569 *)
  | EBar | EPoint => ["#PCDATA"; "chequer"]                                            (* 633, 644 *)
  end.
(* DTD_ATTLIST *)
Definition base_attlist : list (str * aclass) :=                                       (* 178-188 *)
  [(L "x", InheritInt); (L "y", InheritInt); (L "width", InheritInt); (L "height", InheritInt);
   (L "image", URIAttr); (L "flip", Flip); (L "background", ColorAttr); (L "color", ColorAttr);
   (L "font", FontAttr); (L "mag", InheritFloat)].
Definition attlist (k : ekind) : list (str * aclass) :=
  base_attlist ++
  match k with
  | EAction | EScore | EBar => [(L "player", Player)]                                  (* 329, 384, 634 *)
  | EField => [(L "player", Player); (L "text", StringAttr)]                           (* 424-426 *)
  | EDie => [(L "backgammon", ColorAttr); (L "diestyle", DieStyle); (L "eyesize", IntAttr); (L "id", IdAttr)] (* 450-454 *)
  | ECube => [(L "initialCube", InitialCube)]                                          (* 515 *)
  | EResign => [(L "player", Player); (L "x_offset", IntZero); (L "y_offset", IntZero)] (* 542-545 *)
  | EHome => [(L "fill", Fill); (L "player", Player)]                                  (* 571-573 *)
  | EChequer => [(L "player", Player); (L "x_offset", IntZero); (L "y_offset", IntZero);
                 (L "x_offset2", IntZero); (L "y_offset2", IntZero); (L "hide_count", HideCount); (L "max_count", IntAttr)] (* 583-591 *)
  | EPoint => [(L "fill", Fill); (L "parity", Parity)]                                 (* 645-647 *)
  | _ => []
  end.
Definition class_of (k : ekind) (name : str) : option aclass := dget str_eqb (attlist k) name.

Record head := mkhead { kind : ekind; attrs : list (str * attr); css_lineno : list Z }.
Inductive elem := Elem (h : head) (children : list (elem + str)).
Definition ehead (e : elem) : head := let (h, _) := e in h.
Definition children (e : elem) : list (elem + str) := let (_, c) := e in c.
(* __init__: 190-194; the values given are not checked *)
Definition new_attrs (k : ekind) (kw : list (str * value)) : res (list (str * attr)) :=
  mapM (fun '(n, v) => match class_of k n with None => Exc KeyError | Some c => Ok (n, mkattr c None v) end) kw.
Definition new_elem (k : ekind) (kw : list (str * value)) : res elem :=
  let! a := new_attrs k kw in Ok (Elem (mkhead k a []) []).
(* append: 214-225 *)
Definition append_elem (e c : elem) : res elem :=
  if str_mem (ename (kind (ehead c))) (dtd_element (kind (ehead e)))
  then Ok (Elem (ehead e) (children e ++ [inl c])) else Exc TypeError.
Definition append_text (e : elem) (s : str) : res elem :=
  if str_mem pcdata (dtd_element (kind (ehead e)))
  then Ok (Elem (ehead e) (children e ++ [inr s])) else Exc TypeError.
(* __setattr__ of a plain value: 262-276 *)
Definition set_attr (h : head) (name : str) (v : value) : res head :=
  match class_of (kind h) name with
  | None => Exc Unmodelled                         (* an ordinary Python attribute: 275-276 *)
  | Some c =>
      let a := match dget str_eqb (attrs h) name with Some a => a | None => mkattr c None v end in
      if is_acceptable (a_class a) v
      then Ok (mkhead (kind h) (dset str_eqb (attrs h) name (mkattr (a_class a) (a_path a) v)) (css_lineno h))
      else Exc TypeError
  end.
(* __getattr__: 278-292; the path is given from the element up to the root *)
Fixpoint get_attr (up : list head) (name : str) : res value :=
  match up with
  | [] => Exc AttributeError
  | h :: above =>
      match class_of (kind h) name with
      | None => Exc AttributeError                                                       (* 292 *)
      | Some c =>
          match dget str_eqb (attrs h) name with
          | Some a => Ok (a_value a)                                                  (* 283-284 *)
          | None =>
              if is_inherit c && (match above with [] => false | _ => true end)
              then get_attr above name                                                (* 285-286 *)
              else match default c with Some v => Ok v | None => Exc AttributeError end (* 287-291 *)
          end
      end
  end.
(* apply: 227-234, the items of the block in some order *)
Definition apply_one (css_path : str) (h : head) (name value : str) : res head :=
  match class_of (kind h) name with
  | None => Exc KeyError
  | Some c =>
      let a := match dget str_eqb (attrs h) name with Some a => a | None => mkattr c (Some css_path) (VStr []) end in
      let! v := parse (a_class a) (a_path a) value in
      set_attr h name v
  end.
Fixpoint apply_block (css_path : str) (h : head) (items : list (str * str)) : res head :=
  match items with
  | [] => Ok h
  | (n, v) :: items => let! h := apply_one css_path h n v in apply_block css_path h items
  end.

(* ---- selectors and rules: css.py 68-142 ---- *)
Record selector := mksel { s_element : str; s_name : option str; s_value : option str; s_data : option str }.
Definition texts (e : elem) : list str :=
  flat_map (fun c => match c with inl _ => [] | inr s => [s] end) (children e).
(* Selector.is_match: 75-86 *)
Definition sel_match (s : selector) (e : elem) : res bool :=
  let ret := str_eqb (ename (kind (ehead e))) (s_element s) in
  let ret := match s_name s with
             | Some n => if ret then match dget str_eqb (attrs (ehead e)) n with Some _ => true | None => false end else false
             | None => ret
             end in
  let! ret := match s_value s with
              | Some v =>
                  if ret then
                    match s_name s with
                    | None => Exc KeyError                                       (* element.attributes[None] *)
                    | Some n => match dget str_eqb (attrs (ehead e)) n with
                                | None => Exc KeyError
                                | Some a => attr_match a v
                                end
                    end
                  else Ok false
              | None => Ok ret
              end in
  Ok match s_data s with Some d => if ret then str_mem d (texts e) else false | None => ret end.

Record rule := mkrule { r_path : str; r_lineno : Z; pattern : list selector; block : list (str * str) }.
(* the loop of Rule.is_match, 118-134: [rest] is reversed(path), [pat] the pattern reversed *)
Fixpoint match_up (first : bool) (pat : list selector) (rest : list elem) : res bool :=
  match rest with
  | [] => Ok false
  | e :: rest =>
      match pat with
      | [] => Exc IndexError
      | s :: pat' =>
          let! m := sel_match s e in
          if m then match pat' with [] => Ok true | _ => match_up false pat' rest end
          else if first then Ok false else match_up false pat rest
      end
  end.
Definition rule_match (r : rule) (path : list elem) : res bool :=
  let! _ := passert (match path with [] => false | _ => true end) in
  let! _ := passert (match pattern r with [] => false | _ => true end) in
  match_up true (rev (pattern r)) (rev path).
(* Rule.apply, 136-142: what becomes of the last element of the path *)
Definition last_head (path : list elem) : res head := let! e := pyget path (-1) in Ok (ehead e).
Definition rule_apply (r : rule) (path : list elem) : res head :=
  let! m := rule_match r path in
  let! h := last_head path in
  if m then
    let! h := apply_block (r_path r) h (block r) in
    Ok (mkhead (kind h) (attrs h) (css_lineno h ++ [r_lineno r]))
  else Ok h.
Definition set_head (e : elem) (h : head) : elem := Elem h (children e).
Definition set_last (path : list elem) (h : head) : list elem :=
  match rev path with [] => [] | e :: r => rev r ++ [set_head e h] end.
(* Binder.apply's callback, 162-164 *)
Fixpoint apply_rules (rs : list rule) (path : list elem) : res head :=
  match rs with
  | [] => last_head path
  | r :: rs => let! h := rule_apply r path in apply_rules rs (set_last path h)
  end.

(* ---- ElementTree.visit: base.py 700-709 ----
   The callback sees the path and may change the attributes of its last element.
   [visit] gives back the path, as the list object is after the call, and the state.
   An element on the path carries its children as they were when its turn came. *)
Section Visit.
Context {St : Type} (callback : list elem -> St -> res (head * St)).
Fixpoint visit (path : list elem) (e : elem) (s : St) {struct e} : res (list elem * St) :=
  let! hs := callback path s in
  let '(h, s) := hs in
  let '(Elem _ kids) := e in
  let! r := (fix each (ks : list (elem + str)) (done : list (elem + str)) (path : list elem) (s : St) {struct ks} :=
     match ks with
     | [] => Ok (path, done, s)
     | inr t :: ks => each ks (done ++ [inr t]) path s
     | inl c :: ks =>
         let! ps := visit (path ++ [c]) c s in
         let '(path, s) := ps in
         let! c' := pyget path (-1) in
         each ks (done ++ [inl c']) (removelast path) s
     end) kids [] (set_last path h) s in
  let '(path, done, s) := r in
  Ok (removelast path ++ [Elem h done], s).
End Visit.
(* visit(callback) or visit(callback, [self.board]) *)
Definition visit_tree {St} (callback : list elem -> St -> res (head * St)) (t : elem) (s : St) : res (elem * St) :=
  let! ps := visit callback [t] t s in
  let '(path, s) := ps in
  let! t := pyget path (-1) in Ok (t, s).
(* Binder.apply: css.py 160-165 *)
Definition style (rs : list rule) (t : elem) : res elem :=
  let! r := visit_tree (fun path (_ : unit) => let! h := apply_rules rs path in Ok (h, tt)) t tt in
  Ok (fst r).

(* ---- CSSParser and load: css.py 169-222 ---- *)
Definition open_brace : ascii := "{".
Definition close_bracket : ascii := "]".
Definition stars (r : rx) := XStar r.
Definition sp : rx := xset [xone " "%char].
(* 173 *)
Definition rule_rx : rx :=
  xcats [XBol; XStar sp; XGroup "pattern" (XStar (XChr (Ranges true [xone open_brace]))); XStar sp; xlit "{";
         XGroup "block" (XStar (XChr (Ranges true [xone close_bracket]))); xlit "}"].
Definition name_rx : rx := xplus (xset [xone "-"; xone "_"; ("0", "9"); ("a", "z"); ("A", "Z")]%char).
(* 189-193 *)
Definition selector_rx : rx :=
  xcats [XGroup "element" (xplus (xset [xone "_"; ("a", "z"); ("A", "Z")]%char));
         xopt (XGroup "attribute" (xcats [xlit "["; XGroup "name" name_rx; xlit "="; XGroup "value" name_rx; xlit "]"]));
         xopt (xcats [xlit ":data("; XGroup "data" (xplus (XChr (Ranges true [xone ")"%char]))); xlit ")"])].
(* 209 *)
Definition attribute_rx : rx :=
  xcats [XStar sp; XGroup "name" name_rx; XStar sp; xlit ":"; XStar sp;
         XGroup "value" (xplus (XChr (Ranges true [xone " "%char]))); XStar sp].
(* search: the first place at which the pattern matches *)
Definition search (r : rx) (s : str) : option (list (string * str)) :=
  match find_all r s with g :: _ => Some g | [] => None end.
(* 187-199 *)
Definition parse_selector (s : str) : list selector :=
  match search selector_rx s with
  | Some g => match group g "element" with
              | Some e => [mksel e (group g "name") (group g "value") (group g "data")]
              | None => []
              end
  | None => []
  end.
Definition nonempty {X} (l : list X) : bool := match l with [] => false | _ => true end.
(* 181-185 *)
Definition parse_pattern (s : str) : res (list selector) :=
  let! _ := passert (nonempty s) in
  Ok (flat_map parse_selector (filter nonempty (split_on " "%char s))).
(* 207-212 *)
Definition parse_attribute (b : list (str * str)) (s : str) : list (str * str) :=
  match search attribute_rx s with
  | Some g => match group g "name", group g "value" with Some n, Some v => dset str_eqb b n v | _, _ => b end
  | None => b
  end.
(* 201-205 *)
Definition parse_block (s : str) : res (list (str * str)) :=
  let! _ := passert (nonempty s) in
  Ok (fold_left parse_attribute (filter nonempty (split_on ";"%char s)) []).
(* 170-179 *)
Definition parse_rule (css_path : str) (lineno : Z) (s : str) : res (option rule) :=
  match s with
  | [] => Ok None
  | _ => match search rule_rx s with
         | None => Ok None
         | Some g =>
             match group g "pattern", group g "block" with
             | Some p, Some b =>
                 let! p := parse_pattern p in
                 let! b := parse_block b in
                 Ok (Some (mkrule css_path lineno p b))
             | _, _ => Ok None
             end
         end
  end.
(* load: 214-222, given the lines of the file, each with its newline *)
Fixpoint parse_lines (css_path : str) (no : Z) (lines : list str) : res (list rule) :=
  match lines with
  | [] => Ok []
  | l :: lines =>
      let! r := parse_rule css_path (no + 1) l in
      let! rs := parse_lines css_path (no + 1) lines in
      Ok (match r with Some r => r :: rs | None => rs end)
  end.
Definition load (css_path : str) (lines : list str) : res (list rule) := parse_lines css_path 0 lines.

(* ---- ElementTree: base.py 682-939 ----
   The elements that set() appends to, by role; [tree_of] puts them where create_tree put them. *)
Record etree := mketree {
  t_score : elem * elem; t_length : elem; t_crawford : elem; t_action : elem;
  t_points : list elem;                                    (* points[1..24] *)
  t_home : elem * elem; t_bar : elem * elem; t_field : elem * elem; t_cubeholder : elem }.
Definition player_kw (p : str) : list (str * value) := [(L "player", VStr p)].
Definition you : str := L "you".
Definition him : str := L "him".
Fixpoint mk_points (l : list Z) : res (list elem) :=                                (* 922-930 *)
  match l with
  | [] => Ok []
  | i :: l =>
      let! p := new_elem EPoint [(L "parity", VStr (if i mod 2 =? 0 then L "even" else L "odd"))] in
      let! p := append_text p (py_str_int i) in
      let! ps := mk_points l in Ok (p :: ps)
  end.
(* create_tree: 877-939, the elements *)
Definition create_tree : res etree :=
  let! s0 := new_elem EScore (player_kw you) in
  let! s1 := new_elem EScore (player_kw him) in
  let! len := new_elem ELength [] in
  let! cr := new_elem ECrawford [] in
  let! ac := new_elem EAction [] in
  let! h0 := new_elem EHome (player_kw you) in
  let! h1 := new_elem EHome (player_kw him) in
  let! b0 := new_elem EBar (player_kw you) in
  let! b1 := new_elem EBar (player_kw him) in
  let! f0 := new_elem EField (player_kw you) in
  let! f1 := new_elem EField (player_kw him) in
  let! ch := new_elem ECubeholder [] in
  let! ps := mk_points (zrange 1 25) in
  Ok (mketree (s0, s1) len cr ac ps (h0, h1) (b0, b1) (f0, f1) ch).
Fixpoint append_all (e : elem) (l : list elem) : res elem :=
  match l with [] => Ok e | c :: l => let! e := append_elem e c in append_all e l end.
(* create_tree: the appends, 889-894, 915-938 *)
Definition tree_of (t : etree) : res elem :=
  let! m := new_elem EMatch [] in
  let! m := append_all m [t_action t; t_length t; t_crawford t; fst (t_score t); snd (t_score t)] in
  let! top := new_elem ETop [] in
  let! bot := new_elem EBottom [] in
  let! p := new_elem EPosition [] in
  let! p := append_all p ([top; bot; t_cubeholder t; fst (t_field t); fst (t_home t); snd (t_bar t)]
                          ++ t_points t ++ [fst (t_bar t); snd (t_home t); snd (t_field t)]) in
  let! b := new_elem EBoard [] in
  append_all b [m; p].
(* Element('...', ...) with one text *)
Definition leaf (k : ekind) (kw : list (str * value)) (s : str) : res elem :=
  let! e := new_elem k kw in append_text e s.
(* a chequer element unless the count is zero: 731-765 *)
Definition add_chequers (e : elem) (p : str) (n : Z) : res elem :=
  if n =? 0 then Ok e
  else let! c := leaf EChequer (player_kw p) (py_str_int n) in append_elem e c.
Definition upd_point (pts : list elem) (i : Z) (p : str) (n : Z) : res (list elem) :=
  let! e := pyget pts i in
  let! e := add_chequers e p n in
  pyset pts i e.
(* the loop 730-741: point i is the element i - 1 here *)
Fixpoint set_points (l : list Z) (pos : list Z * list Z) (pts : list elem) : res (list elem) :=
  match l with
  | [] => Ok pts
  | i :: l =>
      let! n := pyget (fst pos) (i - 1) in
      let! pts := upd_point pts (i - 1) you n in
      let! n := pyget (snd pos) (i - 1) in
      let! pts := upd_point pts (25 - i - 1) him n in
      set_points l pos pts
  end.
(* reduce(lambda x, y: x+y, l) *)
Definition reduce_add (l : list Z) : res Z := match l with [] => Exc TypeError | x :: l => Ok (fold_left Z.add l x) end.
Definition py_str_bool (b : bool) : str := if b then L "True" else L "False".
(* self.action.player = ... ; self.action.append(...) *)
Definition say (t : etree) (p : str) (s : string) : res etree :=
  let! h := set_attr (ehead (t_action t)) (L "player") (VStr p) in
  let! a := append_text (set_head (t_action t) h) (L s) in
  Ok (mketree (t_score t) (t_length t) (t_crawford t) a (t_points t) (t_home t) (t_bar t) (t_field t) (t_cubeholder t)).
Definition put_home (t : etree) h := mketree (t_score t) (t_length t) (t_crawford t) (t_action t) (t_points t) h (t_bar t) (t_field t) (t_cubeholder t).
Definition put_field (t : etree) f := mketree (t_score t) (t_length t) (t_crawford t) (t_action t) (t_points t) (t_home t) (t_bar t) f (t_cubeholder t).
Definition put_holder (t : etree) c := mketree (t_score t) (t_length t) (t_crawford t) (t_action t) (t_points t) (t_home t) (t_bar t) (t_field t) c.
Definition home_add0 (t : etree) (e : elem) : res etree := let! h := append_elem (fst (t_home t)) e in Ok (put_home t (h, snd (t_home t))).
Definition home_add1 (t : etree) (e : elem) : res etree := let! h := append_elem (snd (t_home t)) e in Ok (put_home t (fst (t_home t), h)).
Definition field_add0 (t : etree) (e : elem) : res etree := let! h := append_elem (fst (t_field t)) e in Ok (put_field t (h, snd (t_field t))).
Definition field_add1 (t : etree) (e : elem) : res etree := let! h := append_elem (snd (t_field t)) e in Ok (put_field t (fst (t_field t), h)).
Definition holder_add (t : etree) (e : elem) : res etree := let! h := append_elem (t_cubeholder t) e in Ok (put_holder t h).
Definition the_cube (n : Z) : res elem := leaf ECube [] (py_str_int n).
Definition the_resign (n : Z) : res elem := leaf EResign [] (py_str_int n).
Definition the_die (where_ : string) (n : Z) : res elem := leaf EDie [(L "id", VStr (L where_))] (py_str_int n).
(* set: 725-765 *)
Definition set_counts (t : etree) (b : board) : res etree :=
  let! s0 := append_text (fst (t_score t)) (py_str_int (fst (score b))) in
  let! s1 := append_text (snd (t_score t)) (py_str_int (snd (score b))) in
  let! len := append_text (t_length t) (py_str_int (match_length b)) in
  let! cr := append_text (t_crawford t) (py_str_bool (crawford b)) in
  let! pts := set_points (zrange 1 25) (position b) (t_points t) in
  let! n := pyget (fst (position b)) 24 in
  let! b0 := add_chequers (fst (t_bar t)) you n in
  let! n := pyget (snd (position b)) 24 in
  let! b1 := add_chequers (snd (t_bar t)) him n in
  let! n := reduce_add (fst (position b)) in
  let! h0 := add_chequers (fst (t_home t)) you (15 - n) in
  let! n := reduce_add (snd (position b)) in
  let! h1 := add_chequers (snd (t_home t)) him (15 - n) in
  Ok (mketree (s0, s1) len cr (t_action t) pts (h0, h1) (b0, b1) (t_field t) (t_cubeholder t)).
(* 767-781 *)
Definition set_cube (t : etree) (b : board) : res etree :=
  if negb (doubled b) || (on_inner_action b =? on_action b) then
    let! c := the_cube (cube_in_logarithm b) in
    if cube_owner b =? YOU then home_add0 t c
    else if cube_owner b =? HIM then home_add1 t c
    else if cube_owner b =? CENTER then holder_add t c
    else Exc AssertionError
  else Ok t.
Definition not_rolled (b : board) : bool := zpair_eqb (rolled b) (0, 0).
Definition set_dice (add : etree -> elem -> res etree) (t : etree) (b : board) : res etree :=
  let! d := the_die "right" (fst (rolled b)) in
  let! t := add t d in
  let! d := the_die "left" (snd (rolled b)) in
  add t d.
(* 783-875 *)
Definition set_action (t : etree) (b : board) : res etree :=
  let resigning := zmem (resign_offer b) RESIGN_TYPES in
  let inner := on_inner_action b in
  if (on_action b =? YOU) && not_rolled b && negb (doubled b) && (inner =? YOU) then say t you "you to roll or double."
  else if (on_action b =? YOU) && not_rolled b && negb (doubled b) && (inner =? HIM) && resigning then
    let! t := say t him "him to accept your resignation or not." in
    let! r := the_resign (resign_offer b) in field_add1 t r
  else if (on_action b =? YOU) && not_rolled b && doubled b && (inner =? HIM) then
    let! c := the_cube (cube_in_logarithm b + 1) in
    let! t := field_add1 t c in
    say t you "you doubled. him to take or drop."
  else if (on_action b =? YOU) && not_rolled b && doubled b && (inner =? YOU) then say t you "you doubled. he took. you to roll."
  else if (on_action b =? YOU) && negb (not_rolled b) then
    let! t := say t you "you to move." in set_dice field_add0 t b
  else if (on_action b =? HIM) && not_rolled b && negb (doubled b) && (inner =? HIM) then say t him "him to roll or double."
  else if (on_action b =? HIM) && not_rolled b && negb (doubled b) && (inner =? YOU) && resigning then
    let! t := say t you "you to accept his resignation or not." in
    let! r := the_resign (resign_offer b) in field_add0 t r
  else if (on_action b =? HIM) && not_rolled b && doubled b && (inner =? YOU) then
    let! c := the_cube (cube_in_logarithm b + 1) in
    let! t := field_add0 t c in
    say t you "he doubled. you to take or drop."
  else if (on_action b =? HIM) && not_rolled b && doubled b && (inner =? HIM) then say t him "he doubled. you took. him to roll."
  else if (on_action b =? HIM) && negb (not_rolled b) then
    let! t := say t him "him to move." in set_dice field_add1 t b
  else Exc AssertionError.
Definition set_board (t : etree) (b : board) : res etree :=
  let! t := set_counts t b in
  let! t := set_cube t b in
  set_action t b.
(* ElementTree(board): 683-686; the result is self.board *)
Definition board_tree (b : board) : res elem :=
  let! t := create_tree in
  let! t := set_board t b in
  tree_of t.

(* ---- magnification: base.py 208-212, 310-317 ---- *)
Definition dbl (z : Z) : spec_float := binary_normalize 53 1024 z 0 false.
(* float(z): an int too large for a float *)
Definition to_float (z : Z) : res spec_float := match dbl z with S754_infinity _ => Exc OverflowError | f => Ok f end.
Definition fmul (a b : spec_float) : spec_float := SFmul 53 1024 a b.
Definition fdiv (a b : spec_float) : spec_float := SFdiv 53 1024 a b.
(* int(f) *)
Definition trunc (f : spec_float) : res Z :=
  match f with
  | S754_zero _ => Ok 0
  | S754_infinity _ => Exc OverflowError
  | S754_nan => Exc ValueError
  | S754_finite s m e =>
      let a := if 0 <=? e then Z.pos m * 2 ^ e else Z.pos m / 2 ^ (- e) in
      Ok (if s then - a else a)
  end.
(* f <= z, exactly *)
Definition fle_int (f : spec_float) (z : Z) : bool :=
  match f with
  | S754_zero _ => 0 <=? z
  | S754_infinity s => s
  | S754_nan => false
  | S754_finite s m e =>
      let a := if s then - Z.pos m else Z.pos m in
      if 0 <=? e then a * 2 ^ e <=? z else a <=? z * 2 ^ (- e)
  end.
Definition get_int (up : list head) (name : string) : res Z :=
  let! v := get_attr up (L name) in match v with VInt z => Ok z | VBool b => Ok (if b then 1 else 0) | _ => Exc Unmodelled end.
(* apply_mag: int(x * self.mag) *)
Definition apply_mag (up : list head) (x : Z) : res Z :=
  let! v := get_attr up (L "mag") in
  match v with VFlt m => let! f := to_float x in trunc (fmul f m) | _ => Exc Unmodelled end.
(* set_mag on the root: the magnification, 310-317 *)
Definition zero_f : spec_float := S754_zero false.
Definition mag_of (bx by_ w h : Z) : res spec_float :=
  let! fx := to_float bx in
  let! fw := to_float w in
  let! _ := (if w =? 0 then Exc ZeroDivisionError else Ok tt) in
  let xmag := fdiv fx fw in
  let! fy := to_float by_ in
  let! fh := to_float h in
  let! _ := (if h =? 0 then Exc ZeroDivisionError else Ok tt) in
  let ymag := fdiv fy fh in
  let! _ := passert (SFltb zero_f xmag) in
  let! _ := passert (SFltb zero_f ymag) in
  let m := if SFltb ymag xmag then ymag else xmag in         (* min(xmag, ymag) *)
  let! _ := passert (fle_int (fmul fw m) bx) in
  let! _ := passert (fle_int (fmul fh m) by_) in
  Ok m.
Definition set_mag (e : elem) (bound : Z * Z) : res elem :=
  let up := [ehead e] in
  let! w := get_int up "width" in
  let! h := get_int up "height" in
  let! m := mag_of (fst bound) (snd bound) w h in
  let! hd := set_attr (ehead e) (L "mag") (VFlt m) in
  Ok (set_head e hd).

(* ---- drawing: the draw methods of base.py and bglib/image/draw.py ---- *)
Definition xy := (Z * Z)%type.
Inductive cmd :=
| DrawText (position size : xy) (text : str) (font fill : value)
| DrawEllipse (position size : xy) (fill : value)
| DrawPolygon (points : list xy) (fill : option value)
| DrawRect (position size : xy) (fill : value)
| PasteImage (uri : value) (loaded_size : xy) (flip : option value) (position : xy).
(* getattr(self, name, None): only AttributeError is caught *)
Definition opt_attr (up : list head) (name : string) : res (option value) :=
  match get_attr up (L name) with Ok v => Ok (Some v) | Exc AttributeError => Ok None | Exc e => Exc e end.
Definition attr_or (up : list head) (name : string) (d : value) : res value :=
  let! o := opt_attr up name in Ok match o with Some v => v | None => d end.
Definition has_attr (up : list head) (name : string) : bool :=
  match get_attr up (L name) with Ok _ => true | Exc _ => false end.
Definition truthy (v : value) : bool :=
  match v with VInt z => negb (z =? 0) | VStr s => nonempty s | VBool b => b | VFlt f => negb (SFeqb f zero_f) end.
Definition otruthy (v : option value) : bool := match v with Some v => truthy v | None => false end.
Definition mag2 (up : list head) (a b : string) : res xy :=      (* self.calc_mag((self.a, self.b)) *)
  let! x := get_int up a in
  let! y := get_int up b in
  let! x := apply_mag up x in
  let! y := apply_mag up y in Ok (x, y).
(* self.children[0] as a text *)
Definition child0 (e : elem) : res str :=
  let! c := pyget (children e) 0 in match c with inr s => Ok s | inl _ => Exc Unmodelled end.
Definition paste (up : list head) (image : option value) (size position : xy) : res (list cmd) :=
  let! f := get_attr up (L "flip") in
  Ok [PasteImage (match image with Some v => v | None => VStr [] end) size (Some f) position].
(* bg_draw: 249-253 *)
Definition bg_draw (up : list head) : res (list cmd) :=
  let! bg := get_attr up (L "background") in
  let! size := mag2 up "width" "height" in
  let! position := mag2 up "x" "y" in
  Ok [DrawRect position size bg].
(* BaseElement.draw: 255-260 *)
Definition draw_base (up : list head) : res (list cmd) :=
  let! size := mag2 up "width" "height" in
  let! position := mag2 up "x" "y" in
  if has_attr up "image" then
    let! i := get_attr up (L "image") in
    paste up (Some i) size position
  else Ok [].
(* Action.draw 331-342, Length.draw 349-360, Score.draw 386-396 *)
Definition draw_text_elem (up : list head) (e : elem) : res (list cmd) :=
  let! size := mag2 up "width" "height" in
  let! position := mag2 up "x" "y" in
  let! image := opt_attr up "image" in
  let! font := opt_attr up "font" in
  if otruthy image then paste up image size position
  else if otruthy font then
    let! s := child0 e in
    let! f := get_attr up (L "font") in
    let! c := get_attr up (L "color") in
    Ok [DrawText position size s f c]
  else Ok [].
(* Crawford.draw: 367-378 *)
Definition draw_crawford (up : list head) (e : elem) : res (list cmd) :=
  let! size := mag2 up "width" "height" in
  let! position := mag2 up "x" "y" in
  let! image := opt_attr up "image" in
  let! font := opt_attr up "font" in
  if otruthy image then paste up image size position
  else if otruthy font then
    let! s := child0 e in
    if str_eqb s (L "True") then
      let! f := get_attr up (L "font") in
      let! c := get_attr up (L "color") in
      Ok [DrawText position size (L "*") f c]
    else Ok []
  else Ok [].
(* Field.draw: 428-440 *)
Definition draw_field (up : list head) : res (list cmd) :=
  let! size := mag2 up "width" "height" in
  let! position := mag2 up "x" "y" in
  let! image := opt_attr up "image" in
  let! color := attr_or up "color" (VStr (L "black")) in
  let! font := opt_attr up "font" in
  let! text := attr_or up "text" (VStr []) in
  let! flip := opt_attr up "flip" in
  if otruthy image then Ok [PasteImage (match image with Some v => v | None => VStr [] end) size flip position]
  else if truthy text && otruthy font then
    let! f := get_attr up (L "font") in
    Ok [DrawText position size (match text with VStr s => s | _ => [] end) f color]
  else Ok [].
(* Die.draw: 456-508 *)
Definition draw_die (up : list head) (e : elem) : res (list cmd) :=
  let! size := mag2 up "width" "height" in
  let! position := mag2 up "x" "y" in
  let! image := opt_attr up "image" in
  let! color := attr_or up "color" (VStr (L "black")) in
  let! font := opt_attr up "font" in
  let! style := get_attr up (L "diestyle") in
  if otruthy image then paste up image size position
  else if value_eqb style (VStr (L "numeric")) && otruthy font then
    let! s := child0 e in
    let! f := get_attr up (L "font") in
    Ok [DrawText position size s f color]
  else if value_eqb style (VStr (L "dot")) then
    let! dotsize := mag2 up "eyesize" "eyesize" in
    let at_ (a b : Z) : xy := (fst position + fst size * a / 4 - fst dotsize / 2, snd position + snd size * b / 4 - snd dotsize / 2) in
    let center : xy := (fst position + fst size / 2 - fst dotsize / 2, snd position + snd size / 2 - snd dotsize / 2) in
    let ltop := at_ 1 1 in let lmid := at_ 1 2 in let lbot := at_ 1 3 in
    let rtop := at_ 3 1 in let rmid := at_ 3 2 in let rbot := at_ 3 3 in
    let! s := child0 e in
    let dots := map (fun p => DrawEllipse p dotsize color) in
    if str_eqb s (L "1") then Ok (dots [center])
    else if str_eqb s (L "2") then Ok (dots [rtop; lbot])
    else if str_eqb s (L "3") then Ok (dots [rtop; center; lbot])
    else if str_eqb s (L "4") then Ok (dots [rtop; rbot; ltop; lbot])
    else if str_eqb s (L "5") then Ok (dots [rtop; rbot; ltop; lbot; center])
    else if str_eqb s (L "6") then Ok (dots [rtop; rmid; rbot; ltop; lmid; lbot])
    else Exc AssertionError
  else Exc AssertionError.
(* Cube.draw: 517-535 *)
Definition draw_cube (up : list head) (e : elem) : res (list cmd) :=
  let! size := mag2 up "width" "height" in
  let! position := mag2 up "x" "y" in
  let! image := opt_attr up "image" in
  let! color := attr_or up "color" (VStr (L "white")) in
  let! font := opt_attr up "font" in
  if otruthy image then paste up image size position
  else if otruthy font then
    let! s := child0 e in
    let! log := py_int s in
    let! v := pypow2 log in
    let! f := get_attr up (L "font") in
    if (v =? 1) && has_attr up "initialCube" then
      let! i := get_attr up (L "initialCube") in
      Ok [DrawText position size (match i with VStr s => s | _ => [] end) f color]
    else Ok [DrawText position size (py_str_int v) f color]
  else Exc AssertionError.
Definition RESIGN_STRINGS : list str := [L "none"; L "single"; L "gammon"; L "backgammon"].   (* constants.py 37 *)
(* the loop of Resign.draw: 556-558 *)
Fixpoint paste_row (n : nat) (image : value) (size position off : xy) : list cmd :=
  match n with
  | 0%nat => []
  | S n => let position := (fst position + fst off, snd position + snd off) in
           PasteImage image size (Some (VBool false)) position :: paste_row n image size position off
  end.
(* Resign.draw: 546-563 *)
Definition draw_resign (up : list head) (e : elem) : res (list cmd) :=
  let! size := mag2 up "width" "height" in
  let! position := mag2 up "x" "y" in
  let! image := opt_attr up "image" in
  let! color := attr_or up "color" (VStr (L "white")) in
  let! font := opt_attr up "font" in
  let! off := mag2 up "x_offset" "y_offset" in
  if otruthy image then
    let! s := child0 e in
    let! n := py_int s in
    Ok (paste_row (Z.to_nat n) (match image with Some v => v | None => VStr [] end) size position off)
  else if otruthy font then
    let! s := child0 e in
    let! n := py_int s in
    let! t := pyget RESIGN_STRINGS n in
    let! f := get_attr up (L "font") in
    Ok [DrawText position size t f color]
  else Exc AssertionError.
(* the loop of Chequer.draw: 610-623 *)
Fixpoint chequer_loop (n : nat) (up : list head) (image : option value) (color fill : value) (size position off : xy) : res (list cmd * xy) :=
  match n with
  | 0%nat => Ok ([], position)
  | S n =>
      let! c := (if otruthy image then paste up image size position
                 else Ok [DrawEllipse position size (if truthy fill then color else fill)]) in
      let position := (fst position + fst off, snd position + snd off) in
      let parent := tl up in
      let! px := get_int parent "x" in
      let! px := apply_mag up px in
      let! pw := get_int parent "width" in
      let! pw := apply_mag up pw in
      let! over :=
        (if fst position + fst size >? px + pw then Ok true
         else let! py := get_int parent "y" in
              let! py := apply_mag up py in
              let! ph := get_int parent "height" in
              let! ph := apply_mag up ph in
              Ok (snd position + snd size >? py + ph)) in
      let! position :=
        (if over then
           let! x2 := get_int up "x_offset2" in
           let! x2 := apply_mag up x2 in
           let! y2 := get_int up "y_offset2" in
           let! y2 := apply_mag up y2 in
           Ok (fst position + x2, snd position + y2)
         else Ok position) in
      let! r := chequer_loop n up image color fill size position off in
      Ok (c ++ fst r, snd r)
  end.
(* Chequer.draw: 595-626 *)
Definition draw_chequer (up : list head) (e : elem) : res (list cmd) :=
  let! s := child0 e in
  let! count := py_int s in
  let! h := get_int up "height" in
  let! h := apply_mag up h in
  let! w := get_int up "width" in
  let! w := apply_mag up w in
  let size := (w, h) in
  let! position := mag2 up "x" "y" in
  let! xoff := get_int up "x_offset" in
  let! xoff := apply_mag up xoff in
  let! yoff := get_int up "y_offset" in
  let! yoff := apply_mag up yoff in
  let! image := opt_attr up "image" in
  let! color := attr_or up "color" (VStr (L "white")) in
  let! font := opt_attr up "font" in
  let! hide := opt_attr up "hide_count" in
  let! fill := attr_or up "fill" (VBool true) in
  let! max_count := get_int up "max_count" in
  let! r := chequer_loop (Z.to_nat (Z.min count max_count)) up image color fill size position (xoff, yoff) in
  let font_set := match font with Some _ => true | None => false end in
  if font_set && negb (otruthy hide) && (count >? max_count) then
    let! f := get_attr up (L "font") in
    Ok (fst r ++ [DrawText (snd r) size (py_str_int count) f color])
  else Ok (fst r).
(* Point.draw: 651-678 *)
Definition draw_point (up : list head) : res (list cmd) :=
  let! position := mag2 up "x" "y" in
  let! size := mag2 up "width" "height" in
  let '(x, y) := position in
  let '(width, height) := size in
  let! image := opt_attr up "image" in
  let! color := attr_or up "color" (VStr (L "white")) in
  let! fill := attr_or up "fill" (VBool true) in
  if otruthy image then paste up image size position
  else if truthy color then
    let! flip := get_attr up (L "flip") in
    let '(pinacle, rbase, lbase) :=
      if truthy flip then ((x + width / 2, y + height), (x, y), (x + width, y))
      else ((x + width / 2, y), (x, y + height), (x + width, y + height)) in
    Ok [DrawPolygon [rbase; pinacle; lbase] (if truthy fill then Some color else None)]
  else Exc AssertionError.
Definition draw_method (up : list head) (e : elem) : res (list cmd) :=
  match kind (ehead e) with
  | EAction | ELength | EScore => draw_text_elem up e
  | ECrawford => draw_crawford up e
  | EField => draw_field up
  | EDie => draw_die up e
  | ECube => draw_cube up e
  | EResign => draw_resign up e
  | EChequer => draw_chequer up e
  | EPoint => draw_point up
  | _ => draw_base up
  end.
(* Draw.draw_element: draw.py 75-81 *)
Definition draw_element (path : list elem) : res (list cmd) :=
  let up := map ehead (rev path) in
  let! e := pyget path (-1) in
  let! bg := (if has_attr up "background" then bg_draw up else Ok []) in
  let! fg := (if has_attr up "image" || has_attr up "color" then draw_method up e else Ok []) in
  Ok (bg ++ fg).
(* Draw.draw: draw.py 30-47 *)
Definition draw_tree (t : elem) : res (list cmd) :=
  let! r := visit_tree (fun path dc => let! h := last_head path in let! c := draw_element path in Ok (h, dc ++ c)) t [] in
  Ok (snd r).
Definition draw (css : list rule) (b : board) (size : Z * Z) : res (list cmd) :=
  let! t := board_tree b in
  let! t := style css t in
  let! t := set_mag t size in
  let! dc := draw_tree t in
  let! _ := passert (nonempty dc) in
  Ok dc.

(* ---- elements as objects: append on shared references, base.py 214-225 ---- *)
Record cell := mkcell { c_kind : ekind; c_children : list (nat + str); c_parent : option nat }.
Inductive op := New (k : ekind) | AppendElem (p c : nat) | AppendText (p : nat) (s : str).
Definition eheap := list cell.
Definition step (h : eheap) (o : op) : eheap * res unit :=
  match o with
  | New k => (h ++ [mkcell k [] None], Ok tt)
  | AppendElem p c =>
      match nth_error h p, nth_error h c with
      | Some P, Some C =>
          if str_mem (ename (c_kind C)) (dtd_element (c_kind P)) then
            let h := list_set h c (mkcell (c_kind C) (c_children C) (Some p)) in
            match nth_error h p with
            | Some P => (list_set h p (mkcell (c_kind P) (c_children P ++ [inl c]) (c_parent P)), Ok tt)
            | None => (h, Ok tt)
            end
          else (h, Exc TypeError)
      | _, _ => (h, Exc NameError)                          (* no such object *)
      end
  | AppendText p s =>
      match nth_error h p with
      | Some P =>
          if str_mem pcdata (dtd_element (c_kind P))
          then (list_set h p (mkcell (c_kind P) (c_children P ++ [inr s]) (c_parent P)), Ok tt)
          else (h, Exc TypeError)
      | None => (h, Exc NameError)
      end
  end.
Fixpoint run_ops (h : eheap) (l : list op) : eheap := match l with [] => h | o :: l => run_ops (fst (step h o)) l end.
