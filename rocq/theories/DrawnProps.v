(* Properties C109 to C112: what the drawing of a board consists of *)
From Verif Require Import Py UtilModel BoardModel BoardSpec ImageModel ImageSpec DrawnSpec DrawnTree DrawnProofs.
Open Scope string_scope.
Open Scope list_scope.
Open Scope Z_scope.

(* the sheet of the examples, with as many chequers shown as told and dice of the style told *)
Definition plain_sheet (most style_ : string) : list rule :=
  match load (L "t/default.css") [L "board {x: 0; y: 0; width: 400; height: 300}";
      L "chequer {x: 10; y: 10; width: 5; height: 5; x_offset: 6; color: red; font: url(""a.ttf""); max_count: " ++ L most ++ L "}";
      L "die {x: 100; y: 50; width: 20; height: 20; eyesize: 4; color: blue; font: url(""a.ttf""); diestyle: " ++ L style_ ++ L "}";
      L "length {color: red; font: url(""a.ttf"")}"; L "score {color: red; font: url(""a.ttf"")}"; L "crawford {color: red; font: url(""a.ttf"")}";
      L "cube {color: red; font: url(""a.ttf""); initialCube: 64}"; L "resign {color: red; font: url(""a.ttf"")}"] with Ok rs => rs | Exc _ => [] end.
(* after 2, 1 for an opening move *)
Definition rolling : board := set_rolled (2, 1) ongoing.
Definition plain_drawn (most style_ : string) : elem := match plain_tree (plain_sheet most style_) rolling (800, 600) with Ok t => t | Exc _ => Elem (mkhead EBoard [] []) [] end.

(* C109 *)
Theorem C109_chequers : forall css b size t p cs, sides_ok b -> dressed css b size t -> In p (paths [] t) -> ends EChequer p = true -> draw_element p = Ok cs ->
  (visible p -> exists s n m fg, writing p = [s] /\ py_int s = Ok n /\ seen p "max_count" (VInt m) /\ on_ground p cs fg /\ stack p n m fg) /\
  (~ visible p -> on_ground p cs []).
Proof. exact chequers_drawn. Qed.
Print Assumptions C109_chequers.
(* a stack of five of which three are shown, and its number behind them *)
Example C109_case : sides_ok rolling /\ exists p, In p (paths [] (plain_drawn "3" "dot")) /\ ends EChequer p = true /\ visible p /\ writing p = [L "5"] /\
  draw_element p = Ok [DrawEllipse (20, 20) (10, 10) (VStr (L "red")); DrawEllipse (32, 20) (10, 10) (VStr (L "red")); DrawEllipse (44, 20) (10, 10) (VStr (L "red"));
                       DrawText (56, 20) (10, 10) (L "5") (VStr (L "t/a.ttf")) (VStr (L "red"))].
Proof.
  split; [split; reflexivity|]. exists (nth 24 (paths [] (plain_drawn "3" "dot")) []).
  split; [apply nth_In; vm_compute; lia|]. split; [vm_compute; reflexivity|]. split; [exists (VStr (L "red")); right; vm_compute; reflexivity|]. split; vm_compute; reflexivity.
Qed.
Example C109_dressed : dressed (plain_sheet "3" "dot") rolling (800, 600) (plain_drawn "3" "dot").
Proof. apply plain_dressed. vm_compute. reflexivity. Qed.

Theorem C109_thirty : forall css b size cs, fair b -> draw css b size = Ok cs ->
  exists t ds, dressed css b size t /\ pieces t ds /\ cs = List.concat ds /\ (all_roomy t -> discs (part EChequer (paths [] t) ds) = 30).
Proof. exact thirty_discs. Qed.
Print Assumptions C109_thirty.
Example C109_thirty_case : fair rolling /\ dressed (plain_sheet "15" "numeric") rolling (800, 600) (plain_drawn "15" "numeric") /\ all_roomy (plain_drawn "15" "numeric") /\
  match draw (plain_sheet "15" "numeric") rolling (800, 600) with Ok cs => discs cs = 30 | Exc _ => False end.
Proof.
  split. { intros side [->| ->]; (split; [reflexivity|]); (split; [intros n I; vm_compute in I; repeat (destruct I as [<-|I]; [lia|]); destruct I|vm_compute; discriminate]). }
  split; [apply plain_dressed; vm_compute; reflexivity|]. split; [apply roomy_check; vm_compute; reflexivity|]. vm_compute. reflexivity.
Qed.

(* C110 *)
Theorem C110_dice : forall css b size t p cs, sides_ok b -> dressed css b size t -> In p (paths [] t) -> ends EDie p = true -> draw_element p = Ok cs ->
  (visible p -> exists s fg, writing p = [s] /\ on_ground p cs fg /\ die p s fg) /\ (~ visible p -> on_ground p cs []).
Proof. exact dice_drawn. Qed.
Print Assumptions C110_dice.
(* the two eyes of a two in a die of forty by forty at (200, 100) *)
Example C110_case : exists p, In p (paths [] (plain_drawn "15" "dot")) /\ ends EDie p = true /\ visible p /\ writing p = [L "2"] /\
  draw_element p = Ok [DrawEllipse (226, 106) (8, 8) (VStr (L "blue")); DrawEllipse (206, 126) (8, 8) (VStr (L "blue"))].
Proof.
  exists (nth 13 (paths [] (plain_drawn "15" "dot")) []).
  split; [apply nth_In; vm_compute; lia|]. split; [vm_compute; reflexivity|]. split; [exists (VStr (L "blue")); right; vm_compute; reflexivity|]. split; vm_compute; reflexivity.
Qed.

Theorem C110_eyes : forall css b size cs, sides_ok b -> draw css b size = Ok cs ->
  exists t ds, dressed css b size t /\ pieces t ds /\ cs = List.concat ds /\
    (rolled b = (0, 0) -> part EDie (paths [] t) ds = []) /\
    (rolled b <> (0, 0) -> all_styled "dot" t -> discs (part EDie (paths [] t) ds) = fst (rolled b) + snd (rolled b)) /\
    (rolled b <> (0, 0) -> all_styled "numeric" t -> words (part EDie (paths [] t) ds) = [py_str_int (fst (rolled b)); py_str_int (snd (rolled b))]).
Proof. exact dice_eyes. Qed.
Print Assumptions C110_eyes.
Example C110_eyes_case : rolled rolling = (2, 1) /\ all_styled "dot" (plain_drawn "15" "dot") /\ all_styled "numeric" (plain_drawn "15" "numeric") /\
  match draw (plain_sheet "15" "dot") rolling (800, 600) with Ok cs => discs cs = 33 | Exc _ => False end.
Proof. split; [reflexivity|]. split; [apply styled_check; vm_compute; reflexivity|]. split; [apply styled_check; vm_compute; reflexivity|]. vm_compute. reflexivity. Qed.

(* C111 *)
Theorem C111_match : forall css b size cs, sides_ok b -> draw css b size = Ok cs ->
  exists t ds, dressed css b size t /\ pieces t ds /\ cs = List.concat ds /\
    (all_lettered EScore t -> words (part EScore (paths [] t) ds) = [py_str_int (fst (score b)); py_str_int (snd (score b))]) /\
    (all_lettered ELength t -> words (part ELength (paths [] t) ds) = [py_str_int (match_length b)]) /\
    (all_lettered ECrawford t -> words (part ECrawford (paths [] t) ds) = if crawford b then [L "*"] else []) /\
    (all_lettered EAction t -> words (part EAction (paths [] t) ds) = [sentence b]).
Proof. exact match_words. Qed.
Print Assumptions C111_match.
Example C111_case : all_lettered EScore (plain_drawn "15" "dot") /\ all_lettered ELength (plain_drawn "15" "dot") /\ all_lettered ECrawford (plain_drawn "15" "dot").
Proof. split; [|split]; apply lettered_check; vm_compute; reflexivity. Qed.

Theorem C111_stakes : forall css b size cs, sides_ok b -> draw css b size = Ok cs ->
  exists t ds, dressed css b size t /\ pieces t ds /\ cs = List.concat ds /\
    (~ offered b -> all_lettered ECube t -> exists w, words (part ECube (paths [] t) ds) = [w] /\ cube_says t (cube_in_logarithm b) w) /\
    (offered b -> rolled b = (0, 0) -> all_lettered ECube t -> exists w, words (part ECube (paths [] t) ds) = [w] /\ cube_says t (cube_in_logarithm b + 1) w) /\
    (rolled b = (0, 0) -> doubled b = false -> on_inner_action b <> on_action b -> all_lettered EResign t ->
       words (part EResign (paths [] t) ds) = [resign_word (resign_offer b)]).
Proof. exact stake_words. Qed.
Print Assumptions C111_stakes.
Example C111_stakes_case : ~ offered rolling /\ all_lettered ECube (plain_drawn "15" "dot") /\
  match draw (plain_sheet "15" "numeric") rolling (800, 600) with Ok cs => words cs = [py_str_int (match_length rolling); py_str_int (fst (score rolling)); py_str_int (snd (score rolling)); L "64"; L "2"; L "1"] | Exc _ => False end.
Proof. split; [intros (X & _); discriminate|]. split; [apply lettered_check; vm_compute; reflexivity|]. vm_compute. reflexivity. Qed.

(* C112 *)
Theorem C112_action_partial : forall b t, sides_ok b -> board_tree b = Ok t ->
  written_on EAction t = [sentence b] /\ player_no (decider b) /\
  (~ (offered b /\ rolled b = (0, 0) /\ on_action b = YOU) -> action_names t (decider b)).
Proof. exact action_partial. Qed.
Print Assumptions C112_action_partial.
Example C112_case : exists t, board_tree rolling = Ok t /\ sides_ok rolling /\ sentence rolling = L "you to move." /\ decider rolling = YOU /\ rolled rolling <> (0, 0).
Proof.
  destruct (board_tree rolling) as [t|] eqn:E; [|vm_compute in E; discriminate]. exists t. split; [reflexivity|]. split; [split; reflexivity|]. split; [reflexivity|]. split; [reflexivity|discriminate].
Qed.

Theorem C112_action_refuted : exists b t, in_play b /\ board_tree b = Ok t /\ sentence b = L "you doubled. him to take or drop." /\ decider b = HIM /\ ~ action_names t (decider b) /\ action_names t YOU.
Proof. exact action_refuted. Qed.
Print Assumptions C112_action_refuted.

