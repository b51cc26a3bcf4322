(* The part of Python's re used by the wiki formatter: backtracking search with
   named groups.  Unlike Re.v this says which of several matches is found: the
   first one in the order of the alternatives, with greedy repetition. *)
From Verif Require Import Py Re.

Inductive rx : Type :=
| XEps : rx                         (* the empty string *)
| XChr : cset -> rx                 (* one character of a class *)
| XCat : rx -> rx -> rx
| XAlt : rx -> rx -> rx             (* the left one first *)
| XStar : rx -> rx                  (* as often as possible first *)
| XGroup : string -> rx -> rx       (* (?P<name>...) *)
| XBol : rx                         (* ^ *)
| XEol : rx.                        (* $ : at the end, or before a newline at the end *)

(* where the matcher is: has anything gone by, what is left, and the groups set so far, the latest first *)
Record spot := mkspot { fresh : bool; left : str; caps : list (string * str) }.
Definition newline_char : ascii := ascii_of_nat 10.
Definition at_eol (s : str) : bool := match s with [] => true | [c] => Ascii.eqb c newline_char | _ => false end.
(* the characters between two spots *)
Definition between (a b : str) : str := firstn (List.length a - List.length b) a.

Fixpoint run (r : rx) (k : spot -> option spot) (st : spot) : option spot :=
  match r with
  | XEps => k st
  | XChr p => match left st with
              | c :: s => if inset p c then k (mkspot false s (caps st)) else None
              | [] => None
              end
  | XCat a b => run a (run b k) st
  | XAlt a b => match run a k st with Some x => Some x | None => run b k st end
  | XStar a =>
      (fix loop (n : nat) (st : spot) {struct n} : option spot :=
         match n with
         | 0%nat => k st
         | S n =>
             match run a (fun st' => if Nat.ltb (List.length (left st')) (List.length (left st)) then loop n st' else None) st with
             | Some x => Some x
             | None => k st
             end
         end) (List.length (left st)) st
  | XGroup name a => run a (fun st' => k (mkspot (fresh st') (left st') ((name, between (left st) (left st')) :: caps st'))) st
  | XBol => if fresh st then k st else None
  | XEol => if at_eol (left st) then k st else None
  end.

(* finditer: from left to right, without overlap; a character at which nothing matches is passed over.
   Each match is its groups. *)
Fixpoint finditer (n : nat) (r : rx) (fresh0 : bool) (s : str) : list (list (string * str)) :=
  match n with
  | 0%nat => []
  | S n =>
      match run r Some (mkspot fresh0 s []) with
      | Some st =>
          if Nat.ltb (List.length (left st)) (List.length s) then caps st :: finditer n r false (left st)
          else caps st :: match s with [] => [] | _ :: s' => finditer n r false s' end
      | None => match s with [] => [] | _ :: s' => finditer n r false s' end
      end
  end.
Definition find_all (r : rx) (s : str) : list (list (string * str)) := finditer (S (List.length s)) r true s.
(* matchobj.groupdict()[name]; None if the group took no part in the match *)
Definition group (g : list (string * str)) (name : string) : option str :=
  match find (fun kv => String.eqb (fst kv) name) g with Some (_, s) => Some s | None => None end.

(* abbreviations *)
Definition xlit (s : string) : rx := fold_right (fun c r => XCat (XChr (One c)) r) XEps (L s).
Fixpoint xcats (l : list rx) : rx := match l with [] => XEps | [r] => r | r :: l => XCat r (xcats l) end.
Fixpoint xalts (l : list rx) : rx := match l with [] => XEps | [r] => r | r :: l => XAlt r (xalts l) end.
Definition xopt (r : rx) : rx := XAlt r XEps.
Definition xplus (r : rx) : rx := XCat r (XStar r).
Definition xset (l : list (ascii * ascii)) : rx := XChr (Ranges false l).
Definition xone (c : ascii) : ascii * ascii := (c, c).
