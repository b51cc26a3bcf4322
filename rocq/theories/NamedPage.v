(* C160: the name of a board in a wiki page *)
From Coq Require Import Lia.
From Verif Require Import Py UtilModel BoardModel BoardSpec GnuModel GnuSpec GnuProofs GnuMatchProofs HtmlModel TreeModel TreeSpec WikiModel AnalysisSpec MacroSpec MacroProofs OptionProofs OptionMore NamedSpec.
Open Scope string_scope.
Open Scope list_scope.
Open Scope Z_scope.

Lemma b64_id c : is_b64 c = true -> id_char c.
Proof.
  intros H. assert (A : forall c, implb (is_b64 c) (existsb (Ascii.eqb c) (L "ABCDEFGHIJKLMNOPQRSTUVWXYZabcdefghijklmnopqrstuvwxyz0123456789+/")) = true) by (apply all_ascii; vm_compute; reflexivity).
  specialize (A c). rewrite H in A. cbn [implb] in A. apply existsb_exists in A. destruct A as (y & I & E). apply Ascii.eqb_eq in E. rewrite E. exact I.
Qed.
Lemma id_arg c : id_char c -> arg_char c.
Proof.
  intros H. assert (A : forall c, implb (existsb (Ascii.eqb c) (L "ABCDEFGHIJKLMNOPQRSTUVWXYZabcdefghijklmnopqrstuvwxyz0123456789+/")) (existsb (Ascii.eqb c) (L "ABCDEFGHIJKLMNOPQRSTUVWXYZabcdefghijklmnopqrstuvwxyz0123456789+, .=/#:")) = true) by (apply all_ascii; vm_compute; reflexivity).
  specialize (A c). replace (existsb (Ascii.eqb c) (L "ABCDEFGHIJKLMNOPQRSTUVWXYZabcdefghijklmnopqrstuvwxyz0123456789+/")) with true in A.
  - cbn [implb] in A. apply existsb_exists in A. destruct A as (y & I & E). apply Ascii.eqb_eq in E. rewrite E. exact I.
  - symmetry. apply existsb_exists. exists c. split; [exact H|apply Ascii.eqb_refl].
Qed.
Lemma colon_not_id : ~ id_char ":"%char.
Proof. intros H. cbn in H. intuition discriminate. Qed.

(* what encode gives *)
Lemma encoded ov m pid mid : fits m -> wf_side (fst (position m)) -> wf_side (snd (position m)) -> chequers (position m) <= 30 -> encode ov m = Ok (pid, mid) ->
  (forall c, In c (pid ++ mid) -> id_char c) /\ List.length mid = 12%nat /\
  List.length pid = (if (chequers (position m) mod 8 =? 6) && negb (chequers (position m) =? 30) then 12%nat else 14%nat).
Proof.
  intros F A B N E. destruct (match_id ov (fun _ => Exc TypeError) m 3 F (le_n 3)) as (d & Ed & Dd & Ld & Fd & _).
  rewrite encode_fits in E by exact F. injection E as <- <-. rewrite <- Dd.
  set (p := if on_action m =? 0 then (snd (position m), fst (position m)) else position m) in *.
  assert (W : wf_side (fst p) /\ wf_side (snd p) /\ chequers p = chequers (position m)).
  { unfold p, chequers. destruct (on_action m =? 0); cbn [fst snd]; repeat split; try apply A; try apply B; lia. }
  destruct W as (W1 & W2 & W3). split; [|split; [exact Ld|]].
  - intros c I. apply b64_id. apply in_app_or in I. destruct I as [I|I].
    + pose proof (proj2 (proj2 (proj2 position_id)) p) as Q. rewrite Forall_forall in Q. apply Q, I.
    + rewrite Forall_forall in Fd. apply Fd, I.
  - pose proof (id_length p W1 W2 ltac:(lia)) as Q. rewrite W3 in Q. unfold zlen in Q. destruct (_ && _); lia.
Qed.

Lemma short_test p : 0 <= chequers p <= 30 -> (chequers p mod 8 =? 6) && negb (chequers p =? 30) = true <-> short_name p.
Proof.
  intros H. unfold short_name. split.
  - intros T. apply andb_prop in T. destruct T as [T U]. apply Z.eqb_eq in T. apply Bool.negb_true_iff, Z.eqb_neq in U.
    pose proof (Z.div_mod (chequers p) 8 ltac:(lia)) as D. rewrite T in D. lia.
  - intros [->|[->| ->]]; reflexivity.
Qed.
Lemma total_nonneg l : wf_side l -> 0 <= total l.
Proof.
  intros [_ F]. unfold total. induction F as [|x l Hx F IH]; [cbn; lia|]. cbn [fold_right] in *. cbn in *. lia.
Qed.
Lemma too_short pid mid : List.length pid = 12%nat -> (forall c, In c (pid ++ mid) -> id_char c) -> ~ names_position (board_name pid mid).
Proof.
  intros Lp I (g & rest & E & a & b & -> & La & Lb & Ia). unfold board_name in E.
  (* the colon is the character 12 of the one and an identifier character of the other *)
  assert (Q : nth_error (pid ++ L ":" ++ mid) 12 = Some ":"%char).
  { rewrite nth_error_app2 by lia. rewrite Lp. reflexivity. }
  rewrite E in Q. rewrite <- app_assoc in Q. rewrite nth_error_app1 in Q by lia. apply nth_error_In in Q.
  apply colon_not_id, Ia, in_or_app. left. exact Q.
Qed.

Lemma board_pages : forall design_order wikipath now urlencode analysis rst ov m pid mid,
  fits m -> wf_side (fst (position m)) -> wf_side (snd (position m)) -> chequers (position m) <= 30 -> encode ov m = Ok (pid, mid) ->
  let g := board_name pid mid in
  let page name := html design_order wikipath now urlencode analysis rst (call (L name) (Some g)) in
  (~ short_name (position m) -> page "Position" = Ok (picture_page urlencode (plain_request g)) /\
     forall od x fuel, (3 <= fuel)%nat -> ~ scored_money m -> decode od fuel x (firstn 14 g) (firstn 12 (skipn 15 g)) = (m, Ok tt)) /\
  (short_name (position m) -> forall name, name = "Position" \/ name = "Analysis" ->
     page name = Ok (error_page (L "Bad args " ++ quoted g ++ L " for " ++ L name ++ [newline]))).
Proof.
  intros design_order wikipath now urlencode analysis rst ov m pid mid F A B N E g page.
  destruct (encoded ov m pid mid F A B N E) as (I & Lm & Lp).
  assert (C : 0 <= chequers (position m) <= 30) by (unfold chequers in *; pose proof (total_nonneg _ A); pose proof (total_nonneg _ B); lia).
  pose proof (short_test (position m) C) as T.
  pose proof (macro_pages design_order wikipath now urlencode analysis rst) as (_ & P2 & P3 & _). cbv zeta in P2, P3. split; intros S.
  - assert (Q : (chequers (position m) mod 8 =? 6) && negb (chequers (position m) =? 30) = false).
    { destruct (_ && _); [|reflexivity]. exfalso. apply S, T. reflexivity. }
    rewrite Q in Lp. split.
    + apply P3. exists pid, mid. repeat split; assumption.
    + intros od x fuel Hf Hs. destruct (full_board ov od m x fuel F A B Hf) as (a & b & E' & K & _). rewrite E in E'. injection E' as <- <-.
      specialize (K Hs). unfold g, board_name. rewrite (firstn_app 14), Lp. rewrite firstn_all2 by lia. rewrite app_nil_r.
      rewrite (skipn_app 15), Lp. rewrite skipn_all2 by lia. cbn [app]. change (skipn (15 - 14) (L ":" ++ mid)) with mid. rewrite firstn_all2 by lia. exact K.
  - intros name Hn. apply T in S. rewrite S in Lp. apply (P2 (L name) g).
    + destruct Hn as [->| ->]; [left|right]; reflexivity.
    + split; [unfold g, board_name; destruct pid; discriminate|]. intros c Ic. unfold g, board_name in Ic. apply in_app_or in Ic. destruct Ic as [Ic|[<-|Ic]].
      * apply id_arg, I, in_or_app. left. exact Ic.
      * unfold arg_char. cbn. tauto.
      * apply id_arg, I, in_or_app. right. exact Ic.
    + apply too_short; assumption.
Qed.
(* six chequers left *)
Definition race : board := set_position six_left default_board.
Lemma board_refused : exists m, fits m /\ wf_side (fst (position m)) /\ wf_side (snd (position m)) /\ chequers (position m) <= 30 /\
  forall design_order wikipath now urlencode analysis rst ov, exists pid mid, encode ov m = Ok (pid, mid) /\
    html design_order wikipath now urlencode analysis rst (call (L "Position") (Some (board_name pid mid)))
    = Ok (error_page (L "Bad args " ++ quoted (board_name pid mid) ++ L " for " ++ L "Position" ++ [newline])).
Proof.
  exists race. assert (F : fits race) by (unfold fits, player; vm_compute; repeat match goal with |- _ /\ _ => split end; auto; discriminate).
  assert (A : wf_side (fst (position race))) by (split; [reflexivity|repeat constructor; discriminate]).
  assert (B : wf_side (snd (position race))) by (split; [reflexivity|repeat constructor; discriminate]).
  assert (N : chequers (position race) <= 30) by (vm_compute; discriminate).
  split; [exact F|]. split; [exact A|]. split; [exact B|]. split; [exact N|].
  intros design_order wikipath now urlencode analysis rst ov.
  destruct (full_board ov (fun _ => Exc TypeError) race race 3 F A B (le_n 3)) as (pid & mid & E & _). exists pid, mid. split; [exact E|].
  apply (proj2 (board_pages design_order wikipath now urlencode analysis rst ov race pid mid F A B N E)); [left; reflexivity|left; reflexivity].
Qed.
