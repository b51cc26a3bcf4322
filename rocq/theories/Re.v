(* The part of Python's re used by the modelled code: does a pattern match at
   the start of a string?  Only the answer is modelled, not which of several
   matches is found (captured groups are computed separately where needed). *)
From Verif Require Import Py.

(* a set of characters: one, or those in (or outside) a list of ranges *)
Inductive cset := One (c : ascii) | Ranges (neg : bool) (l : list (ascii * ascii)).
(* order of characters, highest bit first *)
Definition bit_leb (x y : bool) (rest : bool) : bool := if x then if y then rest else false else if y then true else rest.
Definition chr_leb (a b : ascii) : bool :=
  match a, b with
  | Ascii a0 a1 a2 a3 a4 a5 a6 a7, Ascii b0 b1 b2 b3 b4 b5 b6 b7 =>
      bit_leb a7 b7 (bit_leb a6 b6 (bit_leb a5 b5 (bit_leb a4 b4 (bit_leb a3 b3 (bit_leb a2 b2 (bit_leb a1 b1 (bit_leb a0 b0 true)))))))
  end.
Definition in_range (a b c : ascii) : bool := if chr_leb a c then chr_leb c b else false.
Definition inset (k : cset) (c : ascii) : bool :=
  match k with
  | One d => Ascii.eqb d c
  | Ranges neg l => xorb neg (existsb (fun '(a, b) => in_range a b c) l)
  end.
Inductive re : Type :=
| Emp : re                        (* nothing *)
| Eps : re                        (* the empty string *)
| Chr : cset -> re     (* one character of a class *)
| Cat : re -> re -> re
| Alt : re -> re -> re
| Star : re -> re.
Definition plus (r : re) : re := Cat r (Star r).
Definition opt (r : re) : re := Alt r Eps.
Definition char (c : ascii) : re := Chr (One c).
Fixpoint lit (s : str) : re := match s with [] => Eps | c :: s' => Cat (char c) (lit s') end.
Fixpoint cats (l : list re) : re := match l with [] => Eps | r :: l' => Cat r (cats l') end.
Definition any : re := Chr (Ranges true [(ascii_of_nat 10, ascii_of_nat 10)]).
Definition digit_set : cset := Ranges false [("0", "9")]%char.
Definition digit (c : ascii) : bool := inset digit_set c.
(* \s for byte strings: blank, \t \n \v \f \r *)
Definition space (c : ascii) : bool := Ascii.eqb c " " || in_range (ascii_of_nat 9) (ascii_of_nat 13) c.

(* matching by derivatives *)
Definition mkcat (r s : re) : re := match r, s with Emp, _ | _, Emp => Emp | Eps, _ => s | _, _ => Cat r s end.
Definition mkalt (r s : re) : re := match r, s with Emp, _ => s | _, Emp => r | _, _ => Alt r s end.
Fixpoint nullable (r : re) : bool :=
  match r with
  | Emp => false | Eps => true | Chr _ => false
  | Cat r s => nullable r && nullable s
  | Alt r s => nullable r || nullable s
  | Star _ => true
  end.
Fixpoint deriv (c : ascii) (r : re) : re :=
  match r with
  | Emp => Emp | Eps => Emp
  | Chr p => if inset p c then Eps else Emp
  | Cat r s => let d := mkcat (deriv c r) s in if nullable r then mkalt d (deriv c s) else d
  | Alt r s => mkalt (deriv c r) (deriv c s)
  | Star r' => mkcat (deriv c r') r
  end.
(* re.match(r, s) is not None *)
Fixpoint starts (r : re) (s : str) : bool :=
  nullable r || match s with [] => false | c :: s' => starts (deriv c r) s' end.
(* the same for r followed by $: at the end or before a final newline *)
Fixpoint ends (r : re) (s : str) : bool :=
  match s with
  | [] => nullable r
  | [c] => (nullable r && Ascii.eqb c (ascii_of_nat 10)) || nullable (deriv c r)
  | c :: s' => ends (deriv c r) s'
  end.
