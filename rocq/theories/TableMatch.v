(* How bars are read *)
From Verif Require Import Py PyFacts Re Rx RxFacts HtmlModel HtmlSpec TreeSpec TocSpec WikiModel WikiSpec WikiMatch WikiLink CmpProofs AnalysisPage ShowSpec ShowRead ShowMatch ListSpec ListMatch TableSpec.
Open Scope string_scope.
Open Scope list_scope.
Open Scope nat_scope.

Definition space_set : cset := Ranges false [xone " "; (ascii_of_nat 9, ascii_of_nat 13)]%char.
Definition end_rx : rx := xcats [xlit "||"; spaces; XEol].
Lemma blank_same : forall c, inset space_set c = is_blank c.
Proof. apply same_chars. vm_compute. reflexivity. Qed.
Lemma bar_before : forall j q s, j < 19 -> nth_error inside j = Some q -> forall f, dead f q ("|"%char :: s).
Proof.
  intros j q s Lj Hj f.
  assert (X : forallb (fun r => negb (empty_too r) && negb (can r "|")) (firstn 19 inside) = true) by (vm_compute; reflexivity).
  assert (I : In q (firstn 19 inside)).
  { apply nth_error_In with (n := j). rewrite <- Hj. clear - Lj. do 19 (destruct j as [|j]; [reflexivity|]). lia. }
  rewrite forallb_forall in X. specialize (X q I). apply andb_prop in X. destruct X as [X1 X2]. apply negb_true_iff in X1, X2. apply dead_head; assumption.
Qed.
Lemma not_end : forall f rest, one_line rest -> forallb is_blank rest = false -> dead f end_rx (L "||" ++ rest).
Proof.
  intros f rest O N k c. destruct (run _ _ _) as [z|] eqn:E; [|reflexivity]. exfalso. apply run_steps in E. destruct E as (w & st' & E & _). pose proof (steps_left _ _ _ _ E) as Lf. cbn [left] in Lf.
  unfold end_rx in E. cbn [xcats] in E. apply inv_cat in E. destruct E as (u & st1 & v & -> & S1 & S2). apply inv_lit in S1. destruct S1 as [-> _]. apply inv_cat in S2. destruct S2 as (b & st2 & e & -> & S2 & S3).
  apply inv_eol in S3. destruct S3 as (-> & -> & Ee). rewrite app_nil_r, <- app_assoc in Lf. apply app_inv_head in Lf.
  assert (B : forallb is_blank b = true).
  { apply forallb_forall. intros x I. pose proof (steps_allows _ _ _ _ S2 x I) as A. unfold spaces, xset in A. cbn [allows] in A. rewrite <- blank_same. exact A. }
  destruct (left st2) as [|x [|y t]] eqn:El; [|cbn [at_eol] in Ee|discriminate Ee].
  - rewrite app_nil_r in Lf. subst rest. congruence.
  - apply Ascii.eqb_eq in Ee. subst x. destruct (O newline_char) as [X _]; [rewrite Lf; apply in_or_app; right; left; reflexivity|]. apply X. reflexivity.
Qed.
Lemma bar_reads : forall rest, one_line rest -> forallb is_blank rest = false -> reads (L "||") rest "_pattern_table_cell" [].
Proof.
  intros rest O N. apply find_way with (i := 20) (r := xlit "||"); [lia|reflexivity|reflexivity|reflexivity| |].
  - intros j q Lj Hj f. assert (J : j < 19 \/ j = 19) by lia. destruct J as [J| ->]; [exact (bar_before j q _ J Hj f)|]. injection Hj as <-. apply not_end; assumption.
  - intros k f x K. rewrite run_lit by discriminate. exact K.
Qed.
Lemma shut_reads : forall n, reads (L "||" ++ repeat " "%char n) [] "_pattern_table_end" [].
Proof.
  intros n. apply find_way with (i := 19) (r := end_rx); [lia|reflexivity|reflexivity|reflexivity| |].
  - intros j q Lj Hj f. exact (bar_before j q _ Lj Hj f).
  - intros k f x K. unfold end_rx. cbn [xcats]. rewrite run_cat, app_nil_r. rewrite run_lit by discriminate. rewrite run_cat.
    rewrite <- (app_nil_r (repeat " "%char n)). unfold spaces, xset. apply star_chars.
    + intros c I. apply repeat_spec in I. subst c. reflexivity.
    + exact Logic.I.
    + cbn [run at_eol left]. destruct n; exact K.
Qed.
Definition piece_caps (p : piece) : list (string * str) := match p with Tok t => token_caps t | Bar => [("_pattern_table_cell", L "||")] | OffBar => [("_pattern_table_cell", L "!||")] end.
Definition shut_caps (e : option nat) : list (list (string * str)) := match e with Some n => [[("_pattern_table_end", L "||" ++ repeat " "%char n)]] | None => [] end.
Lemma piece_run : forall f p rest, piece_stands p rest -> one_line (piece_text p ++ rest) -> (f = true -> head_is (fun c => Ascii.eqb c " " || Ascii.eqb c ">") (piece_text p ++ rest) = false) ->
  piece_text p ++ rest <> L "::" -> run (regexp line_patterns) Some (mkspot f (piece_text p ++ rest) []) = Some (mkspot false rest (piece_caps p)).
Proof.
  intros f [t| |] rest H O Hf Nd; cbn [piece_text piece_stands piece_caps] in *; [apply token_run; assumption| |].
  - apply bar_reads; [|exact H]. intros c I. apply O. apply in_or_app. right. exact I.
  - apply (bar_reads rest); [|exact H]. intros c I. apply O. apply in_or_app. right. exact I.
Qed.
Lemma piece_some : forall p rest, piece_stands p rest -> piece_text p <> [].
Proof. intros [t| |] rest H; [exact (token_some t rest H)|discriminate|discriminate]. Qed.
Lemma find_pieces : forall ps e n f, pieces_stand ps (shut_text e) -> one_line (pieces_text ps ++ shut_text e) -> (f = true -> head_is (fun c => Ascii.eqb c " " || Ascii.eqb c ">") (pieces_text ps ++ shut_text e) = false) ->
  (forall s, pieces_text ps ++ shut_text e <> s ++ L "::") -> List.length (pieces_text ps ++ shut_text e) < n -> finditer n (regexp line_patterns) f (pieces_text ps ++ shut_text e) = map piece_caps ps ++ shut_caps e.
Proof.
  induction ps as [|p ps IH]; intros e n f A O Hf Nd Ln.
  - cbn [pieces_text flat_map map app] in *. assert (E0 : forall n f, finditer n (regexp line_patterns) f [] = []).
    { intros [|m] f'; [reflexivity|]. cbn [finditer]. destruct f'; (match goal with |- match ?r with _ => _ end = _ => replace r with (@None spot) by (vm_compute; reflexivity) end; reflexivity). }
    destruct e as [m|]; [|apply E0]. cbn [shut_text shut_caps] in *. destruct n as [|n]; [lia|]. cbn [finditer]. destruct (shut_reads m) as [R _]. rewrite app_nil_r in R. rewrite (R f). cbn [left caps]. cbn [List.length L list_ascii_of_string app Nat.ltb Nat.leb]. rewrite E0. reflexivity.
  - destruct A as [St A]. pose proof (piece_some p _ St) as N. change (pieces_text (p :: ps)) with (piece_text p ++ pieces_text ps) in *. rewrite <- app_assoc in *. destruct n as [|n]; [lia|]. cbn [finditer].
    rewrite (piece_run f p _ St O Hf (Nd [])). cbn [left caps map app]. set (r := pieces_text ps ++ shut_text e) in *.
    assert (Lt : List.length r < List.length (piece_text p ++ r)) by (rewrite app_length; destruct (piece_text p); [congruence|cbn; lia]).
    destruct (Nat.ltb_spec (List.length r) (List.length (piece_text p ++ r))); [|lia]. f_equal. apply IH; [exact A| | | |].
    + intros c I. apply O. apply in_or_app. right. exact I.
    + discriminate.
    + intros s E. apply (Nd (piece_text p ++ s)). unfold r. rewrite E, app_assoc. reflexivity.
    + unfold r in *. lia.
Qed.
Lemma row_matches : forall r, row_good r -> matches (row_text r) = map piece_caps (pieces r) ++ shut_caps (shut r).
Proof. intros [ps e] (A & H & Nd & O). unfold matches, find_all, row_text in *. cbn [pieces shut] in *. apply find_pieces; auto. Qed.
