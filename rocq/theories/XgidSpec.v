(* Vocabulary for C39-C41 and C74-C76: the published XGID notation. *)
From Verif Require Import Py UtilModel UtilSpec BoardModel BoardSpec.

(* chequers meant by a character: A is one, B two, ... O fifteen *)
Definition upper (c : ascii) : Z := let n := Z.of_nat (nat_of_ascii c) in if (65 <=? n) && (n <=? 79) then n - 64 else 0.
Definition lower (c : ascii) : Z := let n := Z.of_nat (nat_of_ascii c) in if (97 <=? n) && (n <=? 111) then n - 96 else 0.

Fixpoint join (c : ascii) (l : list str) : str :=
  match l with
  | [] => []
  | [s] => s
  | s :: l' => s ++ c :: join c l'
  end.
Definition colon : ascii := ":"%char.
Definition ten_fields (s : str) (fs : list str) : Prop :=
  s = join colon fs /\ List.length fs = 10%nat /\ Forall (fun f => ~ In colon f) fs.

Definition not_numeral (s : str) : Prop := forall z, ~ denotes s z.

(* the numbers of an XGID *)
Record xg := mkXg { x_pos : str; x_cube : Z; x_owner : Z; x_turn : Z; x_r1 : Z; x_r2 : Z;
                    x_your : Z; x_his : Z; x_flag : Z; x_len : Z }.
Definition reads (s : str) (x : xg) : Prop :=
  exists cube owner turn d1 d2 your his flag len max,
    ten_fields s [x_pos x; cube; owner; turn; [d1; d2]; your; his; flag; len; max] /\
    denotes cube (x_cube x) /\ denotes owner (x_owner x) /\ denotes turn (x_turn x) /\
    denotes [d1] (x_r1 x) /\ denotes [d2] (x_r2 x) /\ denotes your (x_your x) /\ denotes his (x_his x) /\
    denotes flag (x_flag x) /\ denotes len (x_len x).
Definition x_accepted (x : xg) : Prop :=
  List.length (x_pos x) = 26%nat /\ (x_owner x = -1 \/ x_owner x = 0 \/ x_owner x = 1) /\
  (x_turn x = -1 \/ x_turn x = 1) /\ (x_flag x = 0 \/ x_flag x = 1) /\ 0 <= x_len x.

(* player -1 is the library's player 0 and owns the lower-case letters *)
Definition x_seat (v : Z) : Z := if v =? -1 then 0 else if v =? 1 then 1 else 3.
Definition reads_position (s : str) (p : list Z * list Z) : Prop :=
  List.length (fst p) = 25%nat /\ List.length (snd p) = 25%nat /\
  forall k, (k < 25)%nat -> nth k (fst p) 0 = lower (nth (24 - k) s "-"%char) /\
                            nth k (snd p) 0 = upper (nth (k + 1) s "-"%char).
(* the board an accepted XGID stands for; two flags are not in the notation *)
Definition x_board (x : xg) (old new : board) : Prop :=
  reads_position (x_pos x) (position new) /\ cube_in_logarithm new = x_cube x /\
  cube_owner new = x_seat (x_owner x) /\ on_action new = x_seat (x_turn x) /\
  on_inner_action new = x_seat (x_turn x) /\ rolled new = (x_r1 x, x_r2 x) /\
  score new = (x_his x, x_your x) /\ match_length new = x_len x /\
  crawford new = ((0 <? x_len x) && (x_flag x =? 1)) /\ game_state new = 1 /\
  doubled new = doubled old /\ resign_offer new = resign_offer old.

(* writing a board in the notation *)
Definition letter (base : nat) (n : Z) : ascii := if n =? 0 then "-"%char else ascii_of_nat (base + Z.to_nat n).
Definition x_char (p : list Z * list Z) (k : nat) : ascii :=
  if (1 <=? k)%nat && (0 <? nth (k - 1) (snd p) 0) then letter 64 (nth (k - 1) (snd p) 0)
  else if (k <=? 24)%nat && (0 <? nth (24 - k) (fst p) 0) then letter 96 (nth (24 - k) (fst p) 0)
  else "-"%char.
Definition x_sign (seat : Z) : str := if seat =? 0 then L "-1" else if seat =? 1 then L "1" else L "0".
Definition x_digit (n : Z) : ascii := ascii_of_nat (48 + Z.to_nat n).
Definition x_text (b : board) (max : str) : str :=
  join colon
    [map (x_char (position b)) (seq 0 26); py_str_int (cube_in_logarithm b); x_sign (cube_owner b);
     x_sign (on_action b); [x_digit (fst (rolled b)); x_digit (snd (rolled b))];
     py_str_int (snd (score b)); py_str_int (fst (score b)); (if crawford b then L "1" else L "0");
     py_str_int (match_length b); max].
(* boards the notation can express: no point held by both players *)
Definition x_expressible (b : board) : Prop :=
  (List.length (fst (position b)) = 25%nat /\ List.length (snd (position b)) = 25%nat) /\
  (Forall (fun n => 0 <= n <= 15) (fst (position b)) /\ Forall (fun n => 0 <= n <= 15) (snd (position b))) /\
  (forall k, (k < 24)%nat -> nth k (snd (position b)) 0 = 0 \/ nth (23 - k) (fst (position b)) 0 = 0) /\
  (cube_owner b = 0 \/ cube_owner b = 1 \/ cube_owner b = 3) /\ player (on_action b) /\
  on_inner_action b = on_action b /\ (0 <= fst (rolled b) <= 9 /\ 0 <= snd (rolled b) <= 9) /\
  0 <= match_length b /\ (crawford b = true -> 0 < match_length b) /\ game_state b = 1.
