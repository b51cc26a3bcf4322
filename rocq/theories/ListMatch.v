(* How items of lists are read *)
From Verif Require Import Py PyFacts Re Rx RxFacts HtmlModel HtmlSpec TreeSpec TocSpec WikiModel WikiSpec WikiMatch WikiLink CmpProofs AnalysisPage ShowSpec ShowRead ShowMatch ListSpec.
Open Scope string_scope.
Open Scope list_scope.
Open Scope nat_scope.

Definition bullet_caps (b : bullet) : list (string * str) :=
  let t := bullet_text b in
  match b with
  | Star => [("star", t)] | Plus _ => [("sign", t); ("plus", t)] | Minus _ => [("sign", t); ("minus", t)]
  | Number _ _ => [("ordered_numeric", t)] | Letter _ _ => [("ordered_alpha", t)] | Roman _ _ => [("ordered_roman", t)]
  end.
Lemma group_then : forall n r k f w rest g g' x, (forall k', k' (mkspot false rest g') = Some x -> run r k' (mkspot f (w ++ rest) g) = Some x) ->
  k (mkspot false rest ((n, w) :: g')) = Some x -> run (XGroup n r) k (mkspot f (w ++ rest) g) = Some x.
Proof. intros n r k f w rest g g' x H K. rewrite run_group. apply H. cbn [fresh left caps]. rewrite between_app. exact K. Qed.
Lemma marks_then : forall c n k f rest g x, (c = "+"%char \/ c = "-"%char) -> 1 <= n <= 3 -> k (mkspot false (" "%char :: rest) g) = Some x -> run (marks c) k (mkspot f (repeat c n ++ " "%char :: rest) g) = Some x.
Proof.
  intros c n k f rest g x Hc Hn K. destruct n as [|[|[|[|n]]]]; [lia| | | |lia]; destruct Hc as [->| ->]; cbn; rewrite K; reflexivity.
Qed.
Lemma dotted_then : forall k f (dot : bool) rest g x, k (mkspot false (" "%char :: rest) g) = Some x -> f = false -> run (xopt (xlit ".")) k (mkspot f ((if dot then L "." else []) ++ " "%char :: rest) g) = Some x.
Proof. intros k f [] rest g x K ->; cbn; [rewrite K; reflexivity|exact K]. Qed.
Lemma roman_set : forall c, In c (L "iv") -> inset (Ranges false [xone "i"; xone "v"]%char) c = true.
Proof. intros c [<-|[<-|[]]]; reflexivity. Qed.
Lemma bullet_run : forall b k f rest g x, good_bullet b -> k (mkspot false (" "%char :: rest) (bullet_caps b ++ g)) = Some x -> run item_mark k (mkspot f (bullet_text b ++ " "%char :: rest) g) = Some x.
Proof.
  intros b k f rest g x G K. unfold item_mark. cbn [xalts]. destruct b as [|n|n|c dot|c dot|s dot]; cbn [good_bullet bullet_caps] in G, K.
  - apply run_alt_l. apply group_then with (g' := g); [|exact K]. intros k' K'. exact K'.
  - assert (H : exists r, bullet_text (Plus n) = "+"%char :: r) by (destruct n; [lia|]; eexists; reflexivity). destruct H as [r H].
    apply run_alt_r; [rewrite H; reflexivity|]. apply run_alt_l. apply group_then with (g' := ("plus", bullet_text (Plus n)) :: g); [|exact K]. intros k' K'. apply run_alt_l.
    apply group_then with (g' := g); [|exact K']. intros k2 K2. apply marks_then; auto.
  - assert (H : exists r, bullet_text (Minus n) = "-"%char :: r) by (destruct n; [lia|]; eexists; reflexivity). destruct H as [r H].
    apply run_alt_r; [rewrite H; reflexivity|]. apply run_alt_l. apply group_then with (g' := ("minus", bullet_text (Minus n)) :: g); [|exact K]. intros k' K'. apply run_alt_r; [rewrite H; reflexivity|].
    apply group_then with (g' := g); [|exact K']. intros k2 K2. apply marks_then; auto.
  - do 2 (apply run_alt_r; [cbn in G; repeat (destruct G as [<-|G]; [reflexivity|]); destruct G|]). apply run_alt_l. apply group_then with (g' := g); [|exact K]. intros k' K'.
    rewrite run_cat. cbn [bullet_text]. unfold dotted. rewrite <- app_assoc. cbn [app].
    assert (E : inset (Ranges false [("1", "8")]%char) c = true) by (cbn in G; repeat (destruct G as [<-|G]; [reflexivity|]); destruct G). change (run (xset [("1", "8")]%char) ?k (mkspot f (c :: ?s) g)) with (if inset (Ranges false [("1", "8")]%char) c then k (mkspot false s g) else None). rewrite E. apply dotted_then; [exact K'|reflexivity].
  - do 3 (apply run_alt_r; [cbn in G; repeat (destruct G as [<-|G]; [reflexivity|]); destruct G|]). apply run_alt_l. apply group_then with (g' := g); [|exact K]. intros k' K'.
    rewrite run_cat. cbn [bullet_text]. unfold dotted. rewrite <- app_assoc. cbn [app].
    assert (E : inset (Ranges false [("a", "h")]%char) c = true) by (cbn in G; repeat (destruct G as [<-|G]; [reflexivity|]); destruct G). change (run (xset [("a", "h")]%char) ?k (mkspot f (c :: ?s) g)) with (if inset (Ranges false [("a", "h")]%char) c then k (mkspot false s g) else None). rewrite E. apply dotted_then; [exact K'|reflexivity].
  - destruct G as [N A]. assert (H : exists c r, bullet_text (Roman s dot) = c :: r /\ In c (L "iv")) by (destruct s as [|c s]; [congruence|]; exists c; eexists; split; [reflexivity|apply A; left; reflexivity]). destruct H as (c & r & H & Hc).
    do 4 (apply run_alt_r; [rewrite H; destruct Hc as [<-|[<-|[]]]; reflexivity|]). apply group_then with (g' := g); [|exact K]. intros k' K'.
    rewrite run_cat. cbn [bullet_text]. unfold dotted. rewrite <- app_assoc. apply plus_chars; [exact N|intros d I; apply roman_set; apply A; exact I|destruct dot; reflexivity|]. apply dotted_then; [exact K'|reflexivity].
Qed.
Lemma bullet_head : forall b rest, good_bullet b -> head_is (fun c => Ascii.eqb c " ") (bullet_text b ++ rest) = false.
Proof.
  intros b rest G. destruct b as [|n|n|c dot|c dot|s dot]; cbn [good_bullet] in G.
  - reflexivity.
  - destruct n; [lia|reflexivity].
  - destruct n; [lia|reflexivity].
  - cbn in G. repeat (destruct G as [<-|G]; [reflexivity|]). destruct G.
  - cbn in G. repeat (destruct G as [<-|G]; [reflexivity|]). destruct G.
  - destruct G as [N A]. destruct s as [|c s]; [congruence|]. specialize (A c (or_introl eq_refl)). destruct A as [<-|[<-|[]]]; reflexivity.
Qed.
Definition item_start (i : nat) (b : bullet) : str := repeat " "%char i ++ bullet_text b ++ L " ".
Definition item_caps (i : nat) (b : bullet) : list (string * str) := ("_pattern_itemize", item_start i b) :: bullet_caps b.
Lemma item_run : forall i b rest, 1 <= i -> good_bullet b ->
  run (regexp line_patterns) Some (mkspot true (item_start i b ++ rest) []) = Some (mkspot false rest (item_caps i b)).
Proof.
  intros i b rest Hi G. rewrite ways_are. apply run_first with (i := 25) (r := XGroup "_pattern_itemize" (xcats [XBol; xplus blank; item_mark; blank])); [reflexivity| |].
  - intros j q Lj Hj. destruct (ways_inside j q Lj Hj) as (n & r & Hr & ->). apply way_none.
    assert (D : forall f, dead f r (item_start i b ++ rest)).
    { intro f. destruct i as [|i]; [lia|]. change (item_start (S i) b ++ rest) with (" "%char :: item_start i b ++ rest). assert (I : In r inside) by (eapply nth_error_In; exact Hr).
      assert (X : forallb (fun r => negb (empty_too r) && negb (can r " ")) inside = true) by (vm_compute; reflexivity). rewrite forallb_forall in X. specialize (X r I). apply andb_prop in X. destruct X as [X1 X2]. apply negb_true_iff in X1, X2. apply dead_head; assumption. }
    destruct (Nat.eqb j 15); [apply D|]. apply dead_bang; [apply D|]. intros s' E. destruct i as [|i]; [lia|]. discriminate E.
  - apply group_then with (g' := bullet_caps b); [|reflexivity]. intros k' K'. cbn [xcats]. rewrite run_cat. change (run XBol ?k (mkspot true ?s ?g)) with (k (mkspot true s g)). rewrite run_cat.
    unfold item_start. rewrite <- !app_assoc. apply plus_chars.
    + destruct i; [lia|discriminate].
    + intros c I. apply repeat_spec in I. subst c. reflexivity.
    + apply (stops_of _ (fun c => Ascii.eqb c " ")); [apply same_chars; vm_compute; reflexivity|apply bullet_head; exact G].
    + rewrite run_cat. apply bullet_run; [exact G|]. rewrite app_nil_r. exact K'.
Qed.
Lemma item_matches : forall i b l, 1 <= i -> good_bullet b -> all_stand l -> (forall s, line_text l <> s ++ L "::") -> one_line (line_text l) ->
  matches (written (Item i b l)) = item_caps i b :: map token_caps l.
Proof.
  intros i b l Hi G A Nd O. unfold matches, find_all. cbn [written]. replace (repeat " "%char i ++ bullet_text b ++ L " " ++ line_text l) with (item_start i b ++ line_text l) by (unfold item_start; rewrite <- !app_assoc; reflexivity).
  cbn [finditer]. rewrite item_run by assumption. cbn [left caps].
  assert (Lt : List.length (line_text l) < List.length (item_start i b ++ line_text l)) by (rewrite app_length; destruct i; [lia|cbn; lia]).
  destruct (Nat.ltb_spec (List.length (line_text l)) (List.length (item_start i b ++ line_text l))); [|lia]. f_equal. apply find_tokens; auto. discriminate.
Qed.
