(* Properties C52-C54 and C84: Snowie text records *)
From Verif Require Import Py UtilModel UtilSpec SnowieModel SnowieSpec SnowieProofs.

(* C52 *)
Theorem C52_order_refuted : exists lines, (exists h, validates None lines = Ok h) /\
  (exists g, In g lines /\ kind_of g = GameHeader) /\ (forall m, In m lines -> kind_of m <> MatchLength).
Proof. exact order_refuted. Qed.
Print Assumptions C52_order_refuted.

(* C52 *)
Theorem C52_order_partial : forall lines,
  (validates None lines = Ok (List.concat lines) <-> well_ordered lines) /\
  (~ well_ordered lines -> validates None lines = Exc ValueError) /\
  (well_ordered lines -> forall x rest, lines = x :: rest -> kind_of x <> Results -> kind_of x <> Empty -> kind_of x = MatchLength).
Proof. exact order_partial. Qed.
Print Assumptions C52_order_partial.
Definition two_games : list str := map L [" 5 point match
"; "
"; " Game 1
"; " white,0 : 0              black : 0
"; "  1)                             52: 13/11 13/8
"; "  2) 11: 8/7 8/7 6/5 6/5         Doubles => 2
"; "  3) Drops                       Wins 1 point
"; "
"; " Game 2
"; " white,0 : 0              black : 1
"; "  1) 31: 8/5 6/5
"]%string.
(* a record of two games is in order; with its second move missing it is not *)
Example C52_case : validates None two_games = Ok (List.concat two_games) /\ well_ordered two_games /\
  map kind_of two_games = [MatchLength; Empty; GameHeader; PlayerHeader; Moves; Moves; Moves; Empty; GameHeader; PlayerHeader; Moves] /\
  validates None (firstn 5 two_games ++ skipn 6 two_games) = Exc ValueError.
Proof.
  assert (V : validates None two_games = Ok (List.concat two_games)) by (vm_compute; reflexivity).
  split; [exact V|]. split; [exact (proj1 (proj1 (order_partial two_games)) V)|]. split; vm_compute; reflexivity.
Qed.

(* C53 *)
Theorem C53_size_limit : forall max lines,
  (forall h, validates max lines = Ok h <-> h = List.concat lines /\ well_ordered lines /\ limit_ok max lines) /\
  (forall e, validates max lines = Exc e -> e = ValueError) /\
  (exists k, consumed max lines = List.concat (firstn k lines) /\
             forall j, (0 < j < k)%nat -> limit_ok max (firstn j lines)).
Proof. exact size_limit. Qed.
Print Assumptions C53_size_limit.
Example C53_case : zlen (List.concat two_games) = 262 /\
  validates (Some 263) two_games = Ok (List.concat two_games) /\
  validates (Some 262) two_games = Exc ValueError /\
  validates (Some 30) two_games = Exc ValueError /\ consumed (Some 30) two_games = List.concat (firstn 4 two_games).
Proof. vm_compute. repeat split. Qed.

(* C54: a line of results after an empty line is lost *)
Theorem C54_chop_refuted : exists txt cs l,
  validates None (splitlines txt []) = Ok txt /\ chop txt = Ok cs /\
  In l (splitlines txt []) /\ kind_of l <> Empty /\ kind_of l <> MatchLength /\
  (forall c, In c cs -> ~ In l (splitlines c [])).
Proof. exact chop_refuted. Qed.
Print Assumptions C54_chop_refuted.

(* C54: an accepted record that chop refuses *)
Theorem C54_chop_raises_refuted : exists txt, validates None (splitlines txt []) = Ok txt /\ chop txt = Exc TypeError.
Proof. exact chop_raises. Qed.
Print Assumptions C54_chop_raises_refuted.

(* C54 *)
Theorem C54_chop_partial : forall txt,
  List.concat (splitlines txt []) = txt /\
  (forall cs, chop txt = Ok cs -> well_ordered (splitlines txt [])) /\
  (forall ml rest, splitlines txt [] = ml :: rest -> kind_of ml = MatchLength ->
     well_ordered (ml :: rest) -> results_after_moves (ml :: rest) ->
     exists games,
       chop txt = Ok (map (fun g => ml ++ [LF] ++ List.concat g) games) /\
       List.concat games = filter not_empty rest /\
       (games = [[]] \/ Forall game games)).
Proof. exact chop_partial. Qed.
Print Assumptions C54_chop_partial.
Example C54_case :
  splitlines (List.concat two_games) [] = two_games /\
  chop (List.concat two_games) = Ok [L " 5 point match
" ++ [LF] ++ List.concat (firstn 5 (skipn 2 two_games)); L " 5 point match
" ++ [LF] ++ List.concat (skipn 8 two_games)].
Proof. split; vm_compute; reflexivity. Qed.

(* C84 *)
Theorem C84_layout : forall b ds rest, spaces b -> numeral ds ->
  kind_of (L " " ++ ds ++ L " point match" ++ rest) = MatchLength /\
  kind_of (b ++ L "Game " ++ ds ++ rest) = GameHeader /\
  (~ has_score (b ++ ds ++ L ") " ++ rest) ->
     kind_of (b ++ ds ++ L ") " ++ rest) = Moves /\ nthmove (b ++ ds ++ L ") " ++ rest) = Ok (UtilSpec.horner ds)) /\
  (~ has_score (b ++ L "Wins " ++ ds ++ L " point" ++ rest) -> kind_of (b ++ L "Wins " ++ ds ++ L " point" ++ rest) = Results).
Proof. exact layout. Qed.
Print Assumptions C84_layout.
Example C84_case : spaces (L "  ") /\ numeral (L "120") /\ ~ has_score (L "  120) 31: 8/5 6/5") /\
  kind_of (L "  120) 31: 8/5 6/5") = Moves /\ nthmove (L "  120) 31: 8/5 6/5") = Ok 120.
Proof.
  split; [repeat constructor|]. split; [split; [discriminate|repeat (constructor; [vm_compute; tauto|]); constructor]|].
  split; [|split; reflexivity]. intros (a & b & E).
  repeat (destruct a as [|? a]; [vm_compute in E; discriminate|vm_compute in E; first [discriminate|injection E as _ E]]).
Qed.
