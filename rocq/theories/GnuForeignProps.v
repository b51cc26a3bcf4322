(* Property C159: characters outside of the alphabet in GNU identifiers *)
From Verif Require Import Py UtilModel BoardModel BoardSpec GnuModel GnuSpec GnuForeignSpec GnuForeign.
Open Scope string_scope.
Open Scope list_scope.

(* C159: the decoder sees the symbols of base64 only, so identifiers copied with other characters in them give the board they were made of *)
Theorem C159_foreign :
  (forall od fuel x pid mid pid' mid', ~ In EQ pid -> ~ In EQ mid -> ~ In EQ pid' -> ~ In EQ mid' ->
     same_symbols pid pid' -> same_symbols mid mid' -> decode od fuel x pid' mid' = decode od fuel x pid mid) /\
  (forall ov od m x fuel pid mid pid' mid', fits m -> wf_side (fst (position m)) -> wf_side (snd (position m)) -> (3 <= fuel)%nat ->
     ~ scored_money m -> encode ov m = Ok (pid, mid) -> ~ In EQ pid' -> ~ In EQ mid' ->
     same_symbols pid pid' -> same_symbols mid mid' -> decode od fuel x pid' mid' = (m, Ok tt)).
Proof. exact foreign_ignored. Qed.
Print Assumptions C159_foreign.
(* identifiers of the board of C38 with blanks, a colon and dashes in them *)
Example C159_case : forall ov od, let m := set_score (2, 4) (set_match_length 9 (set_rolled (5, 2) (set_game_state 1 default_board))) in
  exists pid mid, encode ov m = Ok (pid, mid) /\
    let pid' := L " " ++ firstn 5 pid ++ L "- -" ++ skipn 5 pid ++ L ":" in
    let mid' := firstn 3 mid ++ L "  " ++ skipn 3 mid ++ L "." in
    pid' <> pid /\ mid' <> mid /\ same_symbols pid pid' /\ same_symbols mid mid' /\ ~ In EQ pid' /\ ~ In EQ mid' /\
    decode od 3 default_board pid' mid' = (m, Ok tt).
Proof.
  intros ov od. cbv zeta. eexists; eexists. split; [vm_compute; reflexivity|].
  split; [vm_compute; discriminate|]. split; [vm_compute; discriminate|]. split; [vm_compute; reflexivity|]. split; [vm_compute; reflexivity|].
  split; [vm_compute; intuition discriminate|]. split; [vm_compute; intuition discriminate|]. vm_compute. reflexivity.
Qed.
(* a symbol of the alphabet is not ignored *)
Example C159_symbol : decode_position 3 (L "4HPwATDgc/ABMA") <> decode_position 3 (L "4HPwATDgd/ABMA").
Proof. vm_compute. discriminate. Qed.
