(* What a wiki text with lists shows *)
From Verif Require Import Py HtmlModel HtmlSpec TreeSpec TocSpec WikiSpec ShowSpec.
Open Scope string_scope.
Open Scope list_scope.
Open Scope nat_scope.

(* ---- what is written ---- *)
(* star; one to three plus or minus signs; a digit, a letter or a roman numeral, with or without a dot *)
Inductive bullet := Star | Plus (n : nat) | Minus (n : nat) | Number (c : ascii) (dot : bool) | Letter (c : ascii) (dot : bool) | Roman (s : str) (dot : bool).
Definition dotted (s : str) (dot : bool) : str := s ++ if dot then L "." else [].
Definition bullet_text (b : bullet) : str :=
  match b with
  | Star => L "*" | Plus n => repeat "+"%char n | Minus n => repeat "-"%char n
  | Number c dot | Letter c dot => dotted [c] dot | Roman s dot => dotted s dot
  end.
Definition good_bullet (b : bullet) : Prop :=
  match b with
  | Star => True | Plus n | Minus n => 1 <= n <= 3
  | Number c _ => In c (L "12345678") | Letter c _ => In c (L "abcdefgh")
  | Roman s _ => s <> [] /\ forall c, In c s -> In c (L "iv")
  end.
(* a line of text, or an item: its indentation, its bullet and its text *)
Inductive line := Plain (l : list token) | Item (indent : nat) (b : bullet) (l : list token).
Definition written (x : line) : str :=
  match x with Plain l => line_text l | Item i b l => repeat " "%char i ++ bullet_text b ++ L " " ++ line_text l end.
Definition good (x : line) : Prop :=
  match x with
  | Plain l => good_line l
  | Item i b l => 1 <= i /\ good_bullet b /\ all_stand l /\ (forall s, line_text l <> s ++ L "::") /\ one_line (line_text l)
  end.

(* ---- what is shown ---- *)
Definition list_name (b : bullet) : str := match b with Star | Plus _ | Minus _ => L "ul" | _ => L "ol" end.
Definition list_class (b : bullet) : str :=
  match b with
  | Star | Number _ _ => [] | Plus _ | Minus _ => tag_attr "class" (L "sign")
  | Letter _ _ => tag_attr "class" (L "loweralpha") | Roman _ _ => tag_attr "class" (L "lowerroman")
  end.
Definition list_open (b : bullet) : str := L "<" ++ list_name b ++ list_class b ++ L ">" ++ nl.
Definition list_close (b : bullet) : str := L "</" ++ list_name b ++ L ">" ++ nl.
Definition times (n : nat) : str := match n with 1 => [] | 2 => L "double" | _ => L "triple" end.
(* an item with the bullet [b] in a list that [first] began; an item without a sign has no place in a list with signs *)
Definition item_open (first b : bullet) : option str :=
  match first with
  | Plus _ | Minus _ =>
      match b with
      | Plus n => Some (L "<li" ++ tag_attr "class" (times n ++ L "plus") ++ L ">")
      | Minus n => Some (L "<li" ++ tag_attr "class" (times n ++ L "minus") ++ L ">")
      | _ => None
      end
  | _ => Some (L "<li>")
  end.
Definition item_close : str := L "</li>" ++ nl.
Definition lists_end (ls : list bullet) : str := flat_map (fun b => item_close ++ list_close b) ls.
Definition no_headings (l : list token) : bool := forallb (fun t => match t with Mark m => negb (is_heading m) | _ => true end) l.
(* [ls]: the first bullets of the lists that are open, the innermost first; in each of them an item is open.
   An item goes on in one of these lists, or begins a list in the item before; nothing may be switched on *)
Definition item_shown (ls : list bullet) (i : nat) (b : bullet) : option (str * list bullet) :=
  let n := List.length ls in
  if Nat.eqb i (S n) then match item_open b b with Some o => Some (list_open b ++ o, b :: ls) | None => None end
  else if Nat.leb i n then
    match skipn (n - i) ls with
    | first :: ls' => match item_open first b with Some o => Some (lists_end (firstn (n - i) ls) ++ item_close ++ o, first :: ls') | None => None end
    | [] => None
    end
  else None.
Definition list_state : Set := option (list bullet * list mark * option str).
Definition all_ended (st : list_state) : str :=
  match st with Some (ls, o, pend) => settled pend ++ flat_map mark_close o ++ lists_end ls ++ L "</div>" ++ nl | None => [] end.
Definition line_begun (st : list_state) : str := match st with Some _ => [] | None => L "<div>" ++ nl end.
Definition in_div (st : list_state) : list bullet * list mark * option str := match st with Some x => x | None => ([], [], None) end.
Fixpoint list_page (wikipath : str) (st : list_state) (xs : list line) : option str :=
  match xs with
  | [] => Some (all_ended st)
  | Plain [] :: xs => match list_page wikipath None xs with Some s => Some (all_ended st ++ s) | None => None end
  | Plain l :: xs =>
      let '(ls, o, pend) := in_div st in
      if match ls with [] => true | _ => no_headings l end then
        match line_shown wikipath o pend l with
        | Some (out, o, pend) => match list_page wikipath (Some (ls, o, pend)) xs with Some s => Some (line_begun st ++ out ++ s) | None => None end
        | None => None
        end
      else None
  | Item i b l :: xs =>
      match in_div st with
      | (ls, [], pend) =>
          match item_shown ls i b with
          | Some (out1, ls) =>
              if no_headings l then
                match line_shown wikipath [] None l with
                | Some (out2, o, pend2) =>
                    match list_page wikipath (Some (ls, o, pend2)) xs with Some s => Some (line_begun st ++ settled pend ++ out1 ++ out2 ++ s) | None => None end
                | None => None
                end
              else None
          | None => None
          end
      | _ => None
      end
  end.

(* ---- how deep a place in a page is ---- *)
Fixpoint occurrences (p s : str) : nat := (if starts p s then 1 else 0) + match s with [] => 0 | _ :: r => occurrences p r end.
Definition lists_around (before : str) : nat := occurrences (L "<ul>") before - occurrences (L "</ul>") before.
