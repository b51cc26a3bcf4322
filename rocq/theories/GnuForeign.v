(* C159: characters outside of the alphabet of base64 in a GNU identifier *)
From Coq Require Import Lia.
From Verif Require Import Py UtilModel BoardModel BoardSpec GnuModel GnuSpec GnuProofs GnuMatchProofs GnuForeignSpec.

Lemma eq_in s : existsb (Ascii.eqb EQ) s = true <-> In EQ s.
Proof.
  rewrite existsb_exists. split; [intros (c & I & Q); apply Ascii.eqb_eq in Q; subst; exact I|intros I; exists EQ; split; [exact I|apply Ascii.eqb_refl]].
Qed.
Lemma eq_out s : ~ In EQ s -> existsb (Ascii.eqb EQ) s = false.
Proof. intros H. destruct (existsb (Ascii.eqb EQ) s) eqn:Q; [|reflexivity]. apply eq_in in Q. contradiction. Qed.
Lemma feed_filter s : forall q lc lb, feed (filter is_b64 s) q lc lb = feed s q lc lb.
Proof.
  induction s as [|c s IH]; intros q lc lb; [reflexivity|]. cbn [filter]. pose proof (is_b64_val c) as B. cbn [feed].
  destruct (b64val c) as [v|] eqn:V; rewrite B; [|apply IH]. cbn [feed]. rewrite V. cbv zeta. rewrite !IH. reflexivity.
Qed.
Lemma payload_same s t : same_symbols s t -> payload s = payload t.
Proof. intros H. unfold payload. rewrite <- (feed_filter s), <- (feed_filter t). rewrite H. reflexivity. Qed.
Lemma loop_same s t fuel : same_symbols s t -> ~ In EQ s -> ~ In EQ t -> b64_loop fuel s = b64_loop fuel t.
Proof.
  intros H S T.
  pose proof (b64_loop_eqs s (proj1 (existsb_noeq s) (eq_out s S)) fuel 0) as A. pose proof (b64_loop_eqs t (proj1 (existsb_noeq t) (eq_out t T)) fuel 0) as B.
  cbn [repeat] in A, B. rewrite app_nil_r in A, B. rewrite A, B. rewrite (payload_same s t H).
  replace (significant t) with (significant s) by (unfold significant; rewrite H; reflexivity). reflexivity.
Qed.
Lemma position_same s t fuel : same_symbols s t -> ~ In EQ s -> ~ In EQ t -> decode_position fuel s = decode_position fuel t.
Proof. intros H S T. unfold decode_position. rewrite (eq_out s S), (eq_out t T), (loop_same s t fuel H S T). reflexivity. Qed.
Lemma match_same od s t fuel : same_symbols s t -> ~ In EQ s -> ~ In EQ t -> decode_match od fuel s = decode_match od fuel t.
Proof. intros H S T. unfold decode_match. rewrite (eq_out s S), (eq_out t T), (loop_same s t fuel H S T). reflexivity. Qed.
Lemma decode_same od fuel x pid mid pid' mid' : ~ In EQ pid -> ~ In EQ mid -> ~ In EQ pid' -> ~ In EQ mid' ->
  same_symbols pid pid' -> same_symbols mid mid' -> decode od fuel x pid' mid' = decode od fuel x pid mid.
Proof.
  intros A B C D P M. unfold decode. rewrite (match_same od mid mid' fuel M B D). rewrite (position_same pid pid' fuel P A C). reflexivity.
Qed.
Lemma decoded_clean od fuel x pid mid m : decode od fuel x pid mid = (m, Ok tt) -> ~ In EQ pid /\ ~ In EQ mid.
Proof.
  intros H. split; intros I; apply eq_in in I; revert H; unfold decode.
  - destruct (decode_match od fuel mid) as [d|e]; [|discriminate]. cbv zeta. match goal with |- context[if ?b then _ else _] => destruct b end; [discriminate|].
    unfold decode_position. rewrite I. discriminate.
  - unfold decode_match. rewrite I. discriminate.
Qed.

Lemma foreign_ignored :
  (forall od fuel x pid mid pid' mid', ~ In EQ pid -> ~ In EQ mid -> ~ In EQ pid' -> ~ In EQ mid' ->
     same_symbols pid pid' -> same_symbols mid mid' -> decode od fuel x pid' mid' = decode od fuel x pid mid) /\
  (forall ov od m x fuel pid mid pid' mid', fits m -> wf_side (fst (position m)) -> wf_side (snd (position m)) -> (3 <= fuel)%nat ->
     ~ scored_money m -> encode ov m = Ok (pid, mid) -> ~ In EQ pid' -> ~ In EQ mid' ->
     same_symbols pid pid' -> same_symbols mid mid' -> decode od fuel x pid' mid' = (m, Ok tt)).
Proof.
  split; [exact decode_same|]. intros ov od m x fuel pid mid pid' mid' F W1 W2 N S E C D P M.
  destruct (full_board ov od m x fuel F W1 W2 N) as (a & b & E' & K & _). rewrite E in E'. injection E' as <- <-. specialize (K S).
  destruct (decoded_clean _ _ _ _ _ _ K) as [A B]. rewrite (decode_same od fuel x pid mid pid' mid' A B C D P M). exact K.
Qed.
