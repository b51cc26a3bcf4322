(* Python 2 runtime fragments used by every model file.
   Sources: the Python 2.7 language reference; nothing here is from /repo. *)
From Coq Require Export ZArith List Bool Ascii String Lia.
From Coq Require Import DecimalFacts DecimalZ.
Export ListNotations.
Open Scope Z_scope.

(* Exceptions as values.  [Unmodelled] marks a branch where Python carries on
   with a value outside the model (for example a float from pow(2, -1)); no
   theorem relies on it.  [OutOfFuel] is returned by fuelled loops. *)
Inductive exn : Set :=
| AssertionError | IOError | IndexError | TypeError | ValueError | KeyError
| AttributeError | NameError | UnboundLocalError | DecodeError
| InconsistentData | StopIteration | OverflowError | ZeroDivisionError
| UndefinedTurn | Unmodelled | OutOfFuel.

Inductive res (A : Type) : Type := Ok (a : A) | Exc (e : exn).
Arguments Ok {A} a.
Arguments Exc {A} e.

Definition bind {A B} (m : res A) (k : A -> res B) : res B :=
  match m with Ok a => k a | Exc e => Exc e end.
Notation "'let!' x ':=' m 'in' k" := (bind m (fun x => k))
  (at level 200, x name, m at level 100, k at level 200, right associativity).

(* assert b *)
Definition passert (b : bool) : res unit := if b then Ok tt else Exc AssertionError.

(* strings are lists of 8-bit characters (py2 str) *)
Definition str := list ascii.
Definition L (s : string) : str := list_ascii_of_string s.
Fixpoint str_eqb (a b : str) : bool :=
  match a, b with
  | [], [] => true
  | x :: a', y :: b' => Ascii.eqb x y && str_eqb a' b'
  | _, _ => false
  end.

(* sequence length, indexing with negative indices, item assignment *)
Definition zlen {A} (l : list A) : Z := Z.of_nat (List.length l).
Definition pyix {A} (l : list A) (i : Z) : option nat :=
  if (0 <=? i) && (i <? zlen l) then Some (Z.to_nat i)
  else if (- zlen l <=? i) && (i <? 0) then Some (Z.to_nat (zlen l + i))
  else None.
Definition pyget {A} (l : list A) (i : Z) : res A :=
  match pyix l i with
  | None => Exc IndexError
  | Some k => match nth_error l k with Some a => Ok a | None => Exc IndexError end
  end.
Fixpoint list_set {A} (l : list A) (k : nat) (a : A) : list A :=
  match l, k with
  | [], _ => []
  | _ :: l', O => a :: l'
  | x :: l', S k' => x :: list_set l' k' a
  end.
Definition pyset {A} (l : list A) (i : Z) (a : A) : res (list A) :=
  match pyix l i with
  | None => Exc IndexError
  | Some k => Ok (list_set l k a)
  end.
(* l[i] += d *)
Definition pyadd (l : list Z) (i d : Z) : res (list Z) :=
  let! v := pyget l i in pyset l i (v + d).

(* range(a, b) *)
Definition zrange (a b : Z) : list Z :=
  map (fun k => a + Z.of_nat k) (seq 0 (Z.to_nat (b - a))).
(* range(a, b, -1) *)
Definition zrange_down (a b : Z) : list Z :=
  map (fun k => a - Z.of_nat k) (seq 0 (Z.to_nat (a - b))).
Definition zmem (x : Z) (l : list Z) : bool := existsb (Z.eqb x) l.
Definition zsum (l : list Z) : Z := fold_right Z.add 0 l.

Definition zpair_eqb (a b : Z * Z) : bool := (fst a =? fst b) && (snd a =? snd b).
Fixpoint zlist_eqb (a b : list Z) : bool :=
  match a, b with
  | [], [] => true
  | x :: a', y :: b' => (x =? y) && zlist_eqb a' b'
  | _, _ => false
  end.

(* pow(2, k) on ints; a negative exponent gives a float, outside the model *)
Definition pypow2 (k : Z) : res Z := if k <? 0 then Exc Unmodelled else Ok (2 ^ k).

(* str(n) and int(s) *)
Fixpoint chars_of_uint (u : Decimal.uint) : str :=
  match u with
  | Decimal.Nil => []
  | Decimal.D0 u => "0"%char :: chars_of_uint u
  | Decimal.D1 u => "1"%char :: chars_of_uint u
  | Decimal.D2 u => "2"%char :: chars_of_uint u
  | Decimal.D3 u => "3"%char :: chars_of_uint u
  | Decimal.D4 u => "4"%char :: chars_of_uint u
  | Decimal.D5 u => "5"%char :: chars_of_uint u
  | Decimal.D6 u => "6"%char :: chars_of_uint u
  | Decimal.D7 u => "7"%char :: chars_of_uint u
  | Decimal.D8 u => "8"%char :: chars_of_uint u
  | Decimal.D9 u => "9"%char :: chars_of_uint u
  end.
Definition py_str_int (n : Z) : str :=
  match Z.to_int n with
  | Decimal.Pos u => chars_of_uint u
  | Decimal.Neg u => "-"%char :: chars_of_uint u
  end.

Definition digit_val (c : ascii) : option (Decimal.uint -> Decimal.uint) :=
  match c with
  | "0"%char => Some Decimal.D0 | "1"%char => Some Decimal.D1
  | "2"%char => Some Decimal.D2 | "3"%char => Some Decimal.D3
  | "4"%char => Some Decimal.D4 | "5"%char => Some Decimal.D5
  | "6"%char => Some Decimal.D6 | "7"%char => Some Decimal.D7
  | "8"%char => Some Decimal.D8 | "9"%char => Some Decimal.D9
  | _ => None
  end.
Fixpoint uint_of_chars (s : str) : option Decimal.uint :=
  match s with
  | [] => Some Decimal.Nil
  | c :: s' => match digit_val c, uint_of_chars s' with
               | Some d, Some u => Some (d u)
               | _, _ => None
               end
  end.
(* isspace in the C locale: \t \n \v \f \r and space *)
Definition is_space (c : ascii) : bool :=
  let n := nat_of_ascii c in Nat.eqb n 32 || (Nat.leb 9 n && Nat.leb n 13).
Fixpoint lstrip (s : str) : str :=
  match s with
  | c :: s' => if is_space c then lstrip s' else s
  | [] => []
  end.
Definition rstrip (s : str) : str := rev (lstrip (rev s)).
Definition strip (s : str) : str := rstrip (lstrip s).
(* int(s), base 10: surrounding white space, one optional sign, one or more
   decimal digits; anything else raises ValueError *)
Definition py_int (s : str) : res Z :=
  let digits (sgn : Z) (t : str) :=
    match t with
    | [] => Exc ValueError
    | _ => match uint_of_chars t with
           | Some u => Ok (sgn * Z.of_uint u)
           | None => Exc ValueError
           end
    end in
  match strip s with
  | "-"%char :: t => digits (-1) t
  | "+"%char :: t => digits 1 t
  | t => digits 1 t
  end.

(* [f(x) for x in l] where f may raise *)
Fixpoint mapM {A B} (f : A -> res B) (l : list A) : res (list B) :=
  match l with
  | [] => Ok []
  | x :: l' => let! y := f x in let! r := mapM f l' in Ok (y :: r)
  end.
(* ord(c), and chr(n) for 0 <= n < 256 (ValueError otherwise) *)
Definition zord (c : ascii) : Z := Z.of_N (N_of_ascii c).
Definition pychr (n : Z) : res ascii :=
  if (0 <=? n) && (n <? 256) then Ok (ascii_of_N (Z.to_N n)) else Exc ValueError.

(* s.split(c) for one character *)
Fixpoint split_on (c : ascii) (s : str) : list str :=
  match s with
  | [] => [[]]
  | x :: r =>
      if Ascii.eqb x c then [] :: split_on c r
      else match split_on c r with
           | h :: t => (x :: h) :: t
           | [] => [[x]]
           end
  end.
