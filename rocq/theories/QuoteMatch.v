(* How citations and indented lines are read *)
From Verif Require Import Py PyFacts Re Rx RxFacts HtmlModel HtmlSpec TreeSpec TocSpec WikiModel WikiSpec WikiMatch WikiLink CmpProofs AnalysisPage ShowSpec ShowRead ShowMatch ListSpec ListMatch QuoteSpec.
Open Scope string_scope.
Open Scope list_scope.
Open Scope nat_scope.

(* ---- citations ---- *)
Definition cite_start (n : nat) : str := repeat ">"%char n ++ L " ".
Lemma dead_inside : forall c, forallb (fun r => negb (empty_too r) && negb (can r c)) inside = true -> Ascii.eqb c "!" = false ->
  forall f s j q, j < 25 -> nth_error ways j = Some q -> forall k g, run q k (mkspot f (c :: s) g) = None.
Proof.
  intros c X Nb f s j q Lj Hj k g. destruct (ways_inside j q Lj Hj) as (n & r & Hr & ->). apply way_none.
  assert (D : forall f, dead f r (c :: s)).
  { intro f'. assert (I : In r inside) by (eapply nth_error_In; exact Hr). rewrite forallb_forall in X. specialize (X r I). apply andb_prop in X. destruct X as [X1 X2]. apply negb_true_iff in X1, X2. apply dead_head; assumption. }
  destruct (Nat.eqb j 15); [apply D|]. apply dead_bang; [apply D|]. intros s' E. injection E as -> _. discriminate Nb.
Qed.
Lemma cite_run : forall n rest, 1 <= n -> run (regexp line_patterns) Some (mkspot true (cite_start n ++ rest) []) = Some (mkspot false rest [("_pattern_citation", cite_start n)]).
Proof.
  intros n rest Hn. rewrite ways_are. apply run_first with (i := 26) (r := XGroup "_pattern_citation" (xcats [XBol; xplus (xset [xone ">"%char]); blank])); [reflexivity| |].
  - intros j q Lj Hj. destruct n as [|n]; [lia|]. change (cite_start (S n) ++ rest) with (">"%char :: cite_start n ++ rest).
    assert (J : j < 25 \/ j = 25) by lia. destruct J as [J| ->].
    + apply (dead_inside ">"%char) with (j := j); [vm_compute; reflexivity|reflexivity|exact J|exact Hj].
    + injection Hj as <-. apply way_none. apply dead_bol. apply dead_head; reflexivity.
  - apply group_then with (g' := []); [|reflexivity]. intros k' K'. cbn [xcats]. rewrite run_cat. change (run XBol ?k (mkspot true ?s ?g)) with (k (mkspot true s g)). rewrite run_cat.
    unfold cite_start. rewrite <- app_assoc. apply plus_chars.
    + destruct n; [lia|discriminate].
    + intros c I. apply repeat_spec in I. subst c. reflexivity.
    + reflexivity.
    + exact K'.
Qed.
Lemma cite_matches : forall n l, 1 <= n -> all_stand l -> (forall s, line_text l <> s ++ L "::") -> one_line (line_text l) ->
  matches (q_written (Cited n l)) = [("_pattern_citation", cite_start n)] :: map token_caps l.
Proof.
  intros n l Hn A Nd O. unfold matches, find_all. cbn [q_written]. replace (repeat ">"%char n ++ L " " ++ line_text l) with (cite_start n ++ line_text l) by (unfold cite_start; rewrite <- app_assoc; reflexivity).
  cbn [finditer]. rewrite cite_run by assumption. cbn [left caps].
  assert (Lt : List.length (line_text l) < List.length (cite_start n ++ line_text l)) by (rewrite app_length; destruct n; [lia|cbn; lia]).
  destruct (Nat.ltb_spec (List.length (line_text l)) (List.length (cite_start n ++ line_text l))); [|lia]. f_equal. apply find_tokens; auto. discriminate.
Qed.
(* ---- indented lines ---- *)
Lemma in_bullets : forall l s c, forallb (fun n => implb (inset (Ranges false l) (ascii_of_nat n)) (existsb (Ascii.eqb (ascii_of_nat n)) s)) (seq 0 256) = true -> inset (Ranges false l) c = true -> In c s.
Proof.
  intros l s c G H. rewrite forallb_forall in G. specialize (G (nat_of_ascii c)). rewrite ascii_nat_embedding, H in G. cbn [implb] in G.
  assert (X : existsb (Ascii.eqb c) s = true) by (apply G; apply in_seq; pose proof (nat_ascii_bounded c); lia). apply existsb_exists in X. destruct X as (d & I & E). apply Ascii.eqb_eq in E. subst d. exact I.
Qed.
Lemma inv_dot : forall st w st', steps (xopt (xlit ".")) st w st' -> exists dot : bool, w = if dot then L "." else [].
Proof.
  intros st w st' H. apply inv_alt in H. destruct H as [H|H]; [apply inv_lit in H; destruct H as [-> _]; exists true; reflexivity|apply inv_eps in H; destruct H as [-> _]; exists false; reflexivity].
Qed.
Lemma mark_bullet : forall st w st', steps item_mark st w st' -> exists b, good_bullet b /\ bullet_text b = w.
Proof.
  intros st w st' H. unfold item_mark in H. cbn [xalts] in H.
  apply inv_alt in H. destruct H as [H|H].
  { apply inv_group in H. destruct H as (? & H & _). apply inv_chr in H. destruct H as (c & -> & I & _). exists Star. split; [exact Logic.I|]. apply (in_bullets _ (L "*")) in I; [|vm_compute; reflexivity]. destruct I as [<-|[]]. reflexivity. }
  apply inv_alt in H. destruct H as [H|H].
  { apply inv_group in H. destruct H as (st1 & H & _). apply inv_alt in H. destruct H as [H|H]; apply inv_group in H; destruct H as (st2 & H & _);
      (apply inv_marks in H; [|reflexivity|apply one_only]); destruct H as [H _].
    - destruct H as [->|[->| ->]]; [exists (Plus 1)|exists (Plus 2)|exists (Plus 3)]; (split; [cbn; lia|reflexivity]).
    - destruct H as [->|[->| ->]]; [exists (Minus 1)|exists (Minus 2)|exists (Minus 3)]; (split; [cbn; lia|reflexivity]). }
  apply inv_alt in H. destruct H as [H|H].
  { apply inv_group in H. destruct H as (? & H & _). apply inv_cat in H. destruct H as (u & st1 & v & -> & H1 & H2). apply inv_chr in H1. destruct H1 as (c & -> & I & _). apply inv_dot in H2. destruct H2 as [dot ->].
    exists (Number c dot). split; [|reflexivity]. apply (in_bullets _ (L "12345678")) in I; [exact I|vm_compute; reflexivity]. }
  apply inv_alt in H. destruct H as [H|H].
  { apply inv_group in H. destruct H as (? & H & _). apply inv_cat in H. destruct H as (u & st1 & v & -> & H1 & H2). apply inv_chr in H1. destruct H1 as (c & -> & I & _). apply inv_dot in H2. destruct H2 as [dot ->].
    exists (Letter c dot). split; [|reflexivity]. apply (in_bullets _ (L "abcdefgh")) in I; [exact I|vm_compute; reflexivity]. }
  apply inv_group in H. destruct H as (? & H & _). apply inv_cat in H. destruct H as (u & st1 & v & -> & H1 & H2). apply inv_dot in H2. destruct H2 as [dot ->].
  exists (Roman u dot). split; [|reflexivity]. split; [exact (cat_nonempty _ _ _ _ _ H1)|]. intros c I. pose proof (steps_allows _ _ _ _ H1 c I) as Q.
  assert (G : forallb (fun n => implb (allows (xplus (xset [xone "i"; xone "v"]%char)) (ascii_of_nat n)) (existsb (Ascii.eqb (ascii_of_nat n)) (L "iv"))) (seq 0 256) = true) by (vm_compute; reflexivity).
  rewrite forallb_forall in G. specialize (G (nat_of_ascii c)). rewrite ascii_nat_embedding, Q in G. cbn [implb] in G.
  assert (X : existsb (Ascii.eqb c) (L "iv") = true) by (apply G; apply in_seq; pose proof (nat_ascii_bounded c); lia). apply existsb_exists in X. destruct X as (d & J & E). apply Ascii.eqb_eq in E. subst d. exact J.
Qed.
Lemma blanks_split : forall n m x y s t, (repeat " "%char n ++ x :: s = repeat " "%char m ++ y :: t)%list -> x <> " "%char -> y <> " "%char -> n = m /\ x :: s = y :: t.
Proof.
  induction n as [|n IH]; intros [|m] x y s t E Hx Hy; cbn [repeat app] in E.
  - auto.
  - injection E as -> _. congruence.
  - injection E as <- _. congruence.
  - injection E as E. destruct (IH m x y s t E Hx Hy) as [-> ->]. auto.
Qed.
Lemma not_item : forall n t f, head_is (Ascii.eqb " ") t = false -> no_item t -> dead f (xcats [XBol; xplus blank; item_mark; blank]) (repeat " "%char n ++ t).
Proof.
  intros n t f Hh N k c. destruct (run _ _ _) as [z|] eqn:E; [|reflexivity]. exfalso. apply run_steps in E. destruct E as (w & st' & E & _). pose proof (steps_left _ _ _ _ E) as Lf. cbn [left] in Lf.
  cbn [xcats] in E. apply inv_cat in E. destruct E as (u & st1 & v & -> & S1 & S2). apply inv_bol in S1. destruct S1 as (-> & -> & _).
  apply inv_cat in S2. destruct S2 as (u & st2 & v' & -> & S1 & S2). apply inv_cat in S2. destruct S2 as (m & st3 & b & -> & S2 & S3).
  apply inv_chr in S3. destruct S3 as (d & -> & I & _). apply one_only in I. subst d.
  pose proof (all_blank u (fun c J => blank_only c (steps_allows _ _ _ _ S1 c J))) as Eu. destruct (mark_bullet _ _ _ S2) as (bu & Gb & Et). rewrite Eu in Lf. clear Eu.
  pose proof (bullet_head bu (L " " ++ left st') Gb) as Hb. rewrite Et in Hb. cbn [app] in Lf. rewrite <- !app_assoc in Lf.
  assert (Nm : m <> []) by (intros ->; apply steps_can in S2; discriminate S2).
  destruct m as [|y m]; [congruence|]. cbn [app head_is] in Hb. destruct t as [|x t].
  - rewrite app_nil_r in Lf. assert (In y (repeat " "%char n)) by (rewrite Lf; apply in_or_app; right; left; reflexivity). apply repeat_spec in H. subst y. discriminate Hb.
  - cbn [head_is] in Hh. cbn [app] in Lf. apply blanks_split in Lf.
    + destruct Lf as [_ Lf]. apply (N bu (left st') Gb). rewrite Et. exact Lf.
    + intros ->. discriminate Hh.
    + intros ->. discriminate Hb.
Qed.
Lemma indent_run : forall n t, 2 <= n -> head_is (Ascii.eqb " ") t = false -> no_item t ->
  run (regexp line_patterns) Some (mkspot true (repeat " "%char n ++ t) []) = Some (mkspot false t [("_pattern_quote_or_definition_body", repeat " "%char n)]).
Proof.
  intros n t Hn Hh Ni. rewrite ways_are. apply run_first with (i := 28) (r := XGroup "_pattern_quote_or_definition_body" (xcats [XBol; blank; blank; XStar blank])); [reflexivity| |].
  - intros j q Lj Hj. assert (J : j < 25 \/ j = 25 \/ j = 26 \/ j = 27) by lia. destruct J as [J|[->|[->| ->]]].
    + destruct n as [|n]; [lia|]. change (repeat " "%char (S n) ++ t) with (" "%char :: repeat " "%char n ++ t). apply (dead_inside " "%char) with (j := j); [vm_compute; reflexivity|reflexivity|exact J|exact Hj].
    + injection Hj as <-. apply way_none. apply not_item; assumption.
    + destruct n as [|n]; [lia|]. change (repeat " "%char (S n) ++ t) with (" "%char :: repeat " "%char n ++ t). injection Hj as <-. apply way_none. apply dead_bol. apply dead_head; reflexivity.
    + destruct n as [|n]; [lia|]. change (repeat " "%char (S n) ++ t) with (" "%char :: repeat " "%char n ++ t). injection Hj as <-. apply way_none. apply dead_head; reflexivity.
  - apply group_then with (g' := []); [|reflexivity]. intros k' K'. cbn [xcats]. rewrite run_cat. change (run XBol ?k (mkspot true ?s ?g)) with (k (mkspot true s g)).
    destruct n as [|[|n]]; [lia|lia|]. change (repeat " "%char (S (S n)) ++ t) with (" "%char :: " "%char :: repeat " "%char n ++ t).
    change (run (XCat blank (XCat blank (XStar blank))) k' (mkspot true (" "%char :: " "%char :: repeat " "%char n ++ t) [])) with (run (XStar blank) k' (mkspot false (repeat " "%char n ++ t) [])).
    apply star_chars.
    + intros c I. apply repeat_spec in I. subst c. reflexivity.
    + destruct t as [|c t]; [exact I|]. cbn [head_is] in Hh. unfold stops. destruct (inset _ c) eqn:E; [|reflexivity]. apply one_only in E. subst c. discriminate Hh.
    + destruct (repeat " "%char n); exact K'.
Qed.
Lemma indent_matches : forall n l, 2 <= n -> all_stand l -> head_is (Ascii.eqb " ") (line_text l) = false -> no_item (line_text l) -> (forall s, line_text l <> s ++ L "::") -> one_line (line_text l) ->
  matches (q_written (Indented n l)) = [("_pattern_quote_or_definition_body", repeat " "%char n)] :: map token_caps l.
Proof.
  intros n l Hn A Hh Ni Nd O. unfold matches, find_all. cbn [q_written finditer]. rewrite indent_run by assumption. cbn [left caps].
  assert (Lt : List.length (line_text l) < List.length (repeat " "%char n ++ line_text l)) by (rewrite app_length, repeat_length; lia).
  destruct (Nat.ltb_spec (List.length (line_text l)) (List.length (repeat " "%char n ++ line_text l))); [|lia]. f_equal. apply find_tokens; auto. discriminate.
Qed.
