(* Property C160: boards in wiki pages by their identifiers *)
From Verif Require Import Py UtilModel BoardModel BoardSpec GnuModel GnuSpec HtmlModel TreeModel TreeSpec WikiModel AnalysisSpec MacroSpec NamedSpec NamedPage.
Open Scope string_scope.
Open Scope list_scope.
Open Scope Z_scope.

(* C160: what is expected is the picture of the board *)
Theorem C160_refuted : exists m, fits m /\ wf_side (fst (position m)) /\ wf_side (snd (position m)) /\ chequers (position m) <= 30 /\
  forall design_order wikipath now urlencode analysis rst ov, exists pid mid, encode ov m = Ok (pid, mid) /\
    html design_order wikipath now urlencode analysis rst (call (L "Position") (Some (board_name pid mid)))
    = Ok (error_page (L "Bad args " ++ quoted (board_name pid mid) ++ L " for " ++ L "Position" ++ [newline])).
Proof. exact board_refused. Qed.
Print Assumptions C160_refuted.

(* C160: which boards have a picture; the picture asked for is that of the board, and the others are refused *)
Theorem C160_boards_partial : forall design_order wikipath now urlencode analysis rst ov m pid mid,
  fits m -> wf_side (fst (position m)) -> wf_side (snd (position m)) -> chequers (position m) <= 30 -> encode ov m = Ok (pid, mid) ->
  let g := board_name pid mid in
  let page name := html design_order wikipath now urlencode analysis rst (call (L name) (Some g)) in
  (~ short_name (position m) -> page "Position" = Ok (picture_page urlencode (plain_request g)) /\
     forall od x fuel, (3 <= fuel)%nat -> ~ scored_money m -> decode od fuel x (firstn 14 g) (firstn 12 (skipn 15 g)) = (m, Ok tt)) /\
  (short_name (position m) -> forall name, name = "Position" \/ name = "Analysis" ->
     page name = Ok (error_page (L "Bad args " ++ quoted g ++ L " for " ++ L name ++ [newline]))).
Proof. exact board_pages. Qed.
Print Assumptions C160_boards_partial.
(* the opening position, with a picture, and six chequers, without *)
Example C160_case : forall ov,
  (fits default_board /\ chequers (position default_board) <= 30 /\ ~ short_name (position default_board) /\ ~ scored_money default_board /\
   exists pid mid, encode ov default_board = Ok (pid, mid) /\ firstn 15 (board_name pid mid) = L "4HPwATDgc/ABMA:") /\
  short_name (position race) /\ exists pid mid, encode ov race = Ok (pid, mid) /\ List.length (board_name pid mid) = 25%nat.
Proof.
  intros ov. split; [split; [unfold fits, player; vm_compute; repeat match goal with |- _ /\ _ => split end; auto; discriminate|]|].
  - split; [vm_compute; discriminate|]. split; [unfold short_name; vm_compute; intuition discriminate|]. split; [intros (H & _); discriminate|].
    eexists; eexists. split; vm_compute; reflexivity.
  - split; [left; reflexivity|]. eexists; eexists. split; vm_compute; reflexivity.
Qed.
