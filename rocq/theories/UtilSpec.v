(* Specification vocabulary for point names; independent of the model. *)
From Verif Require Import Py.

(* value of a run of decimal digits, most significant first *)
Definition digit (c : ascii) : Z := Z.of_N (N_of_ascii c) - 48.
Definition dec_digit (c : ascii) : Prop := 0 <= digit c <= 9.
Definition horner (ds : str) : Z := fold_left (fun a c => 10 * a + digit c) ds 0.
(* blanks accepted around a number: tab, newline, vertical tab, form feed,
   carriage return, space *)
Definition blank (c : ascii) : Prop :=
  In (nat_of_ascii c) [9; 10; 11; 12; 13; 32]%nat.

(* [denotes s z]: s is a decimal numeral for z, with optional surrounding
   blanks and one optional sign *)
Definition denotes (s : str) (z : Z) : Prop :=
  exists l ds r,
    Forall blank l /\ Forall blank r /\ ds <> [] /\ Forall dec_digit ds /\
    ((s = l ++ ds ++ r /\ z = horner ds) \/
     (s = l ++ "+"%char :: ds ++ r /\ z = horner ds) \/
     (s = l ++ "-"%char :: ds ++ r /\ z = - horner ds)).
