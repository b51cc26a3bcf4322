(* What is said about escaping and about normalised documents *)
From Verif Require Import Py.

(* reading the three entities back *)
Fixpoint unescape (s : str) : str :=
  match s with
  | [] => []
  | ("&" :: "l" :: "t" :: ";" :: r)%char => "<"%char :: unescape r
  | ("&" :: "g" :: "t" :: ";" :: r)%char => ">"%char :: unescape r
  | ("&" :: "a" :: "m" :: "p" :: ";" :: r)%char => "&"%char :: unescape r
  | c :: r => c :: unescape r
  end.
Definition special (c : ascii) : Prop := c = "<"%char \/ c = ">"%char \/ c = "&"%char.
Definition line_break : ascii := ascii_of_nat 10.
Definition unbroken (s : str) : str := filter (fun c => negb (Ascii.eqb c line_break)) s.
