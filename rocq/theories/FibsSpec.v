(* Vocabulary for C42, C43 and C77-C79: the FIBS board line
   (fibs.com/fibs_interface.html) and the messages. *)
From Verif Require Import Py UtilModel UtilSpec BoardModel BoardSpec XgidSpec.

(* a line whose fields 3..42 are numerals for v 3 .. v 42 *)
Definition fibs_line (s : str) (v : nat -> Z) : Prop :=
  exists fs, s = join colon fs /\ Forall (fun f => ~ In colon f) fs /\ (43 <= List.length fs)%nat /\
    forall i, (3 <= i <= 42)%nat -> denotes (nth i fs []) (v i).
(* field 6+j is the j-th number of the board, 0 and 25 the bars.  A player
   moving down (direction -1) calls entry k+1 their point k and the bar 25;
   the other way round entry 24-k, with the bar 0. *)
Definition entry (v : nat -> Z) (down : bool) (k : nat) : Z := if down then v (6 + (k + 1))%nat else v (6 + (24 - k))%nat.
Definition line_position (v : nat -> Z) (p : list Z * list Z) : Prop :=
  List.length (fst p) = 25%nat /\ List.length (snd p) = 25%nat /\
  forall k, (k < 25)%nat ->
    nth k (fst p) 0 = (let x := entry v (v 42%nat <? 0) k in if 0 <? v 41%nat * x then Z.abs x else 0) /\
    nth k (snd p) 0 = (let x := entry v (negb (v 42%nat <? 0)) k in if v 41%nat * x <? 0 then Z.abs x else 0).
(* cube owner and Crawford flag from the two may-double flags *)
Definition line_owner (v : nat -> Z) : Z :=
  if (v 38%nat =? 0) && negb (v 39%nat =? 0) then 1 else if negb (v 38%nat =? 0) && (v 39%nat =? 0) then 0 else 3.
Definition line_crawford (v : nat -> Z) : bool := (v 38%nat =? 0) && (v 39%nat =? 0).
(* the board of a line in which you are on turn *)
Definition line_board (v : nat -> Z) (old new : board) : Prop :=
  line_position v (position new) /\ cube_in_logarithm new = Z.log2 (v 37%nat) /\
  cube_owner new = line_owner v /\ crawford new = line_crawford v /\
  on_action new = 0 /\ on_inner_action new = (if v 40%nat =? 0 then 0 else 1) /\
  rolled new = (v 33%nat, v 34%nat) /\ game_state new = 1 /\
  doubled new = negb (v 40%nat =? 0) || doubled old /\ resign_offer new = 0 /\
  match_length new = v 3%nat /\ score new = (v 4%nat, v 5%nat).

(* characters *)
Definition code (c : ascii) : Z := Z.of_nat (nat_of_ascii c).
Definition die_digit (c : ascii) : Prop := 49 <= code c <= 54.
Definition name_char (c : ascii) : Prop :=
  65 <= code c <= 90 \/ 97 <= code c <= 122 \/ c = "_"%char \/ c = "<"%char \/ c = ">"%char.
Definition no_digit (s : str) : Prop := Forall (fun c => ~ dec_digit c) s.
Definition numeral (s : str) : Prop := s <> [] /\ Forall dec_digit s.
Definition stops (s : str) : Prop := forall c r, s = c :: r -> ~ dec_digit c.
