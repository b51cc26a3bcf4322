(* Vocabulary of the theorems about pictures of boards. *)
From Verif Require Import Py Dict ImageModel.
Open Scope string_scope.
Open Scope list_scope.
Open Scope Z_scope.

(* ---- style sheets ---- *)
(* the text read as a value of the attribute equals the attribute *)
Definition says (a : attr) (text : str) : Prop :=
  exists v, parse (a_class a) (a_path a) text = Ok v /\ value_eqb v (a_value a) = true.
(* the element has the name, the attribute itself (not an inherited one) and the text asked for *)
Definition selects (s : selector) (e : elem) : Prop :=
  ename (kind (ehead e)) = s_element s /\
  (forall n, s_name s = Some n ->
     exists a, dget str_eqb (attrs (ehead e)) n = Some a /\ forall v, s_value s = Some v -> says a v) /\
  (forall d, s_data s = Some d -> In (inr d) (children e)).
(* the selectors pick elements of the list in order, with any gaps *)
Inductive in_order {X Y} (P : X -> Y -> Prop) : list X -> list Y -> Prop :=
| io_nil : forall l, in_order P [] l
| io_take : forall x y xs ys, P x y -> in_order P xs ys -> in_order P (x :: xs) (y :: ys)
| io_skip : forall y xs ys, in_order P xs ys -> in_order P xs (y :: ys).
Definition rule_selects (r : rule) (path : list elem) : Prop :=
  exists ss s es e, pattern r = ss ++ [s] /\ path = es ++ [e] /\ selects s e /\ in_order selects ss es.

(* of the rules marked, the last one that mentions the name *)
Fixpoint marked {X} (mask : list bool) (l : list X) : list X :=
  match mask, l with
  | true :: mask, x :: l => x :: marked mask l
  | false :: mask, _ :: l => marked mask l
  | _, _ => []
  end.
Fixpoint last_word (rs : list rule) (n : str) : option (rule * str) :=
  match rs with
  | [] => None
  | r :: rs => match last_word rs n with
               | Some w => Some w
               | None => match dget str_eqb (block r) n with Some v => Some (r, v) | None => None end
               end
  end.
(* what the attributes are after the given rules took effect on an element *)
Definition after_rules (rs : list rule) (h h' : head) : Prop :=
  kind h' = kind h /\ css_lineno h' = css_lineno h ++ map r_lineno rs /\
  forall n, match last_word rs n with
            | None => dget str_eqb (attrs h') n = dget str_eqb (attrs h) n
            | Some (r, text) =>
                exists c a, class_of (kind h) n = Some c /\ dget str_eqb (attrs h') n = Some a /\
                            a_class a = c /\ parse c (Some (r_path r)) text = Ok (a_value a)
            end.
(* attributes as the library makes them *)
Definition plain (h : head) : Prop :=
  forall n a, dget str_eqb (attrs h) n = Some a -> class_of (kind h) n = Some (a_class a) /\ a_path a = None.
Definition sheet_ok (rs : list rule) : Prop := forall r, In r rs -> NoDup (keys (block r)).
(* the sheet turns the last element of the path into h' : a rule takes effect exactly if it
   selects the path as the rules before it left its last element, and the later ones win *)
Definition cascades (rs : list rule) (anc : list elem) (e : elem) (h' : head) : Prop :=
  exists mask, List.length mask = List.length rs /\ after_rules (marked mask rs) (ehead e) h' /\
    forall k r m, nth_error rs k = Some r -> nth_error mask k = Some m ->
      exists hk, after_rules (marked (firstn k mask) (firstn k rs)) (ehead e) hk /\
                 (m = true <-> rule_selects r (anc ++ [set_head e hk])).
(* the same for a whole tree, below the given ancestors *)
Fixpoint styled (rs : list rule) (anc : list elem) (e e' : elem) {struct e} : Prop :=
  let '(Elem h ks) := e in let '(Elem h' ks') := e' in
  cascades rs anc e h' /\
  (fix each (l l' : list (elem + str)) : Prop :=
     match l, l' with
     | [], [] => True
     | inl c :: l, inl c' :: l' => styled rs (anc ++ [Elem h' ks]) c c' /\ each l l'
     | inr s :: l, inr s' :: l' => s = s' /\ each l l'
     | _, _ => False
     end) ks ks'.
Fixpoint all_plain (e : elem) : Prop :=
  let '(Elem h ks) := e in
  plain h /\ (fix each (ks : list (elem + str)) : Prop :=
                match ks with [] => True | inl c :: ks => all_plain c /\ each ks | inr _ :: ks => each ks end) ks.

(* ---- inherited attributes ---- *)
(* the nearest element of the list, from the inside, that has the attribute itself *)
Fixpoint nearest (up : list head) (n : str) : option value :=
  match up with
  | [] => None
  | h :: up => match dget str_eqb (attrs h) n with Some a => Some (a_value a) | None => nearest up n end
  end.

(* ---- walking the tree ---- *)
(* the paths from the given ancestors to every element, parents first, in document order *)
Fixpoint paths (anc : list elem) (e : elem) {struct e} : list (list elem) :=
  let '(Elem h ks) := e in
  (anc ++ [e]) :: (fix each (l : list (elem + str)) : list (list elem) :=
                     match l with
                     | [] => []
                     | inl c :: l => paths (anc ++ [e]) c ++ each l
                     | inr _ :: l => each l
                     end) ks.
Fixpoint run_all {X St} (f : X -> St -> res St) (l : list X) (s : St) : res St :=
  match l with [] => Ok s | x :: l => let! s := f x s in run_all f l s end.
(* the same tree but for the attributes *)
Fixpoint same_shape (a b : elem) : Prop :=
  let '(Elem h ks) := a in let '(Elem h' ks') := b in
  (fix each (l l' : list (elem + str)) : Prop :=
     match l, l' with
     | [], [] => True
     | inl c :: l, inl c' :: l' => same_shape c c' /\ each l l'
     | inr s :: l, inr s' :: l' => s = s' /\ each l l'
     | _, _ => False
     end) ks ks'.

(* ---- the picture of a board ---- *)
From Verif Require Import UtilModel BoardModel.
(* every element of a tree *)
Fixpoint elements (e : elem) : list elem :=
  let '(Elem _ ks) := e in
  e :: (fix each (l : list (elem + str)) : list elem :=
          match l with [] => [] | inl c :: l => elements c ++ each l | inr _ :: l => each l end) ks.
Definition own (e : elem) (n : string) : option value :=
  option_map a_value (dget str_eqb (attrs (ehead e)) (L n)).
Definition of_kind (k : ekind) (e : elem) : bool := str_eqb (ename (kind (ehead e))) (ename k).
Definition of_player (p : str) (e : elem) : bool := match own e "player" with Some (VStr s) => str_eqb s p | _ => false end.
(* the point numbered i, the bar and the home of a player, whatever stands there *)
Definition is_point (i : Z) (e : elem) : bool := of_kind EPoint e && str_mem (py_str_int i) (texts e).
Definition is_bar (p : str) (e : elem) : bool := of_kind EBar e && of_player p e.
Definition is_home (p : str) (e : elem) : bool := of_kind EHome e && of_player p e.
Definition is_field (p : str) (e : elem) : bool := of_kind EField e && of_player p e.
(* the elements directly inside *)
Definition inside (e : elem) : list elem := flat_map (fun c => match c with inl c => [c] | inr _ => [] end) (children e).
(* the numbers written on the chequers of a player directly inside an element *)
Definition chequers (p : str) (e : elem) : list str :=
  flat_map texts (filter (fun c => of_kind EChequer c && of_player p c) (inside e)).
Definition number (n : Z) : list str := if n =? 0 then [] else [py_str_int n].
Definition read (s : str) : Z := match py_int s with Ok n => n | Exc _ => 0 end.
(* what is written on the elements of a kind directly inside *)
Definition shown (k : ekind) (e : elem) : list str := flat_map texts (filter (of_kind k) (inside e)).
Definition sides_ok (b : board) : Prop := List.length (fst (position b)) = 25%nat /\ List.length (snd (position b)) = 25%nat.
(* a double is being offered *)
Definition offered (b : board) : Prop := doubled b = true /\ on_inner_action b <> on_action b.
Definition player_no (z : Z) : Prop := z = YOU \/ z = HIM.
(* the boards that can be shown *)
Definition drawable (b : board) : Prop :=
  player_no (on_action b) /\
  (offered b \/ cube_owner b = YOU \/ cube_owner b = HIM \/ cube_owner b = CENTER) /\
  (rolled b = (0, 0) -> player_no (on_inner_action b) /\
     (doubled b = true \/ on_inner_action b = on_action b \/ 1 <= resign_offer b <= 3)).
(* boards in which whoever has to decide has something to decide *)
Definition in_play (b : board) : Prop :=
  sides_ok b /\ (cube_owner b = YOU \/ cube_owner b = HIM \/ cube_owner b = CENTER) /\
  player_no (on_action b) /\ player_no (on_inner_action b) /\
  (on_inner_action b = on_action b \/ doubled b = true \/ 1 <= resign_offer b <= 3).
(* everything written on elements of a kind, anywhere in the tree *)
Definition written_on (k : ekind) (t : elem) : list str := flat_map texts (filter (of_kind k) (elements t)).
Definition all_chequers (p : str) (t : elem) : list str :=
  flat_map texts (filter (fun e => of_kind EChequer e && of_player p e) (elements t)).
Definition name_of (z : Z) : str := if z =? YOU then you else him.
Definition cube_place (owner : Z) : elem -> bool :=
  if owner =? YOU then is_home you else if owner =? HIM then is_home him else of_kind ECubeholder.
(* exactly one element of the tree is such, and it is as told *)
Definition the_one (t : elem) (which : elem -> bool) (what : elem -> Prop) : Prop :=
  exists e, filter which (elements t) = [e] /\ what e.
Definition half (b : board) (z : Z) : list Z := if z =? YOU then fst (position b) else snd (position b).
Definition shows_chequers (b : board) (t : elem) : Prop :=
  (forall i, 1 <= i <= 24 -> the_one t (is_point i) (fun e =>
     chequers you e = number (nth (Z.to_nat (i - 1)) (half b YOU) 0) /\
     chequers him e = number (nth (Z.to_nat (24 - i)) (half b HIM) 0))) /\
  (forall p, player_no p ->
     the_one t (is_bar (name_of p)) (fun e => chequers (name_of p) e = number (nth 24 (half b p) 0) /\ chequers (name_of (1 - p)) e = []) /\
     the_one t (is_home (name_of p)) (fun e => chequers (name_of p) e = number (15 - zsum (half b p)) /\ chequers (name_of (1 - p)) e = []) /\
     zsum (map read (all_chequers (name_of p) t)) = 15).
Definition shows_cube (b : board) (t : elem) : Prop :=
  (~ offered b -> written_on ECube t = [py_str_int (cube_in_logarithm b)] /\
     the_one t (cube_place (cube_owner b)) (fun e => shown ECube e = [py_str_int (cube_in_logarithm b)])) /\
  (offered b -> rolled b = (0, 0) -> written_on ECube t = [py_str_int (cube_in_logarithm b + 1)] /\
     the_one t (is_field (name_of (on_inner_action b))) (fun e => shown ECube e = [py_str_int (cube_in_logarithm b + 1)])) /\
  (offered b -> rolled b <> (0, 0) -> written_on ECube t = []).
Definition shows_dice (b : board) (t : elem) : Prop :=
  (rolled b = (0, 0) -> written_on EDie t = []) /\
  (rolled b <> (0, 0) -> written_on EDie t = [py_str_int (fst (rolled b)); py_str_int (snd (rolled b))] /\
     the_one t (is_field (name_of (on_action b))) (fun e => shown EDie e = [py_str_int (fst (rolled b)); py_str_int (snd (rolled b))])).
(* a resignation is shown to whoever has to answer it, unless dice are on the table or the cube was doubled *)
Definition shows_resign (b : board) (t : elem) : Prop :=
  (rolled b = (0, 0) -> doubled b = false -> on_inner_action b <> on_action b ->
     1 <= resign_offer b <= 3 /\ written_on EResign t = [py_str_int (resign_offer b)] /\
     the_one t (is_field (name_of (on_inner_action b))) (fun e => shown EResign e = [py_str_int (resign_offer b)])) /\
  (rolled b <> (0, 0) \/ doubled b = true \/ on_inner_action b = on_action b -> written_on EResign t = []).
Definition shows_match (b : board) (t : elem) : Prop :=
  written_on EScore t = [py_str_int (fst (score b)); py_str_int (snd (score b))] /\
  written_on ELength t = [py_str_int (match_length b)] /\
  written_on ECrawford t = [L (if crawford b then "True" else "False")].
(* where a game starts: nothing is on offer *)
Definition at_rest (b : board) : Prop :=
  in_play b /\ (doubled b = false -> 1 <= resign_offer b <= 3 -> on_inner_action b <> on_action b).
(* a visitor that looks but does not touch *)
Definition watching {St} (f : list elem -> St -> res St) (path : list elem) (s : St) : res (head * St) :=
  let! h := last_head path in let! s := f path s in Ok (h, s).

(* ---- elements as objects ---- *)
Definition may_hold (p c : ekind) : Prop := In (ename c) (dtd_element p).
Definition may_hold_text (p : ekind) : Prop := In (L "#PCDATA") (dtd_element p).
Definition same_but (i : nat) (j : nat) (h h' : eheap) : Prop :=
  List.length h' = List.length h /\ forall k, k <> i -> k <> j -> nth_error h' k = nth_error h k.
(* every element holds only what it may hold, and only elements that exist *)
Definition valid (h : eheap) : Prop :=
  forall p P x, nth_error h p = Some P -> In x (c_children P) ->
    match x with
    | inl c => exists C, nth_error h c = Some C /\ may_hold (c_kind P) (c_kind C) /\ c_parent C <> None
    | inr _ => may_hold_text (c_kind P)
    end.
(* the parent of an element holds it *)
Definition parents_hold (h : eheap) : Prop :=
  forall c C p, nth_error h c = Some C -> c_parent C = Some p -> exists P, nth_error h p = Some P /\ In (inl c) (c_children P).
Inductive within (h : eheap) : nat -> nat -> Prop :=
| within_child : forall p P c, nth_error h p = Some P -> In (inl c) (c_children P) -> within h p c
| within_deeper : forall p q c, within h p q -> within h q c -> within h p c.
