(* What is read in a preformatted block *)
From Verif Require Import Py PyFacts Re Rx RxFacts HtmlModel HtmlSpec HtmlProofs TreeModel TreeSpec TreeProofs TreeVisit TocModel TocSpec WikiModel WikiSpec WikiInv WikiMatch WikiWalk WikiText ShowSpec ListSpec BlockSpec.
Open Scope string_scope.
Open Scope list_scope.
Open Scope nat_scope.

Lemma word_in : forall c, word_char c = true -> forall rs, WikiModel.word = XChr rs -> inset rs c = true.
Proof.
  intros c H rs E. injection E as <-. revert c H. intro c.
  assert (G : forallb (fun n => implb (word_char (ascii_of_nat n)) (allows WikiModel.word (ascii_of_nat n))) (seq 0 256) = true) by (vm_compute; reflexivity).
  rewrite forallb_forall in G. specialize (G (nat_of_ascii c)). rewrite ascii_nat_embedding in G. intro H. rewrite H in G. apply G. apply in_seq. pose proof (nat_ascii_bounded c). lia.
Qed.
Lemma directive_read : forall c nm, word_char c = true -> forallb word_char nm = true ->
  find_all (regexp wrap_patterns) (L "#!" ++ c :: nm) = [[("_pattern_processor_specifier", L "#!" ++ c :: nm); ("processor_name", c :: nm)]].
Proof.
  intros c nm Hc Hn. unfold find_all.
  assert (R : run (regexp wrap_patterns) Some (mkspot true (L "#!" ++ c :: nm) []) = Some (mkspot false [] [("_pattern_processor_specifier", L "#!" ++ c :: nm); ("processor_name", c :: nm)])).
  { assert (W : exists rs, WikiModel.word = XChr rs) by (eexists; reflexivity). destruct W as [rs W].
    change (run (regexp wrap_patterns) Some (mkspot true (L "#!" ++ c :: nm) [])) with
      (match run (XGroup "_pattern_processor_specifier" pat_name) Some (mkspot true (L "#!" ++ c :: nm) []) with
       | Some x => Some x | None => run (XGroup "_pattern_rest_of_the_world" pat_rest) Some (mkspot true (L "#!" ++ c :: nm) []) end).
    assert (G : run (XGroup "_pattern_processor_specifier" pat_name) Some (mkspot true (L "#!" ++ c :: nm) []) = Some (mkspot false [] [("_pattern_processor_specifier", L "#!" ++ c :: nm); ("processor_name", c :: nm)])); [|rewrite G; reflexivity].
    unfold pat_name. rewrite W. unfold xplus.
    set (k := fun st' => run XEol (fun st2 => Some (mkspot (Rx.fresh st2) (left st2) (("_pattern_processor_specifier", between (L "#!" ++ c :: nm) (left st2)) :: caps st2)))
                 (mkspot (Rx.fresh st') (left st') (("processor_name", between (c :: nm) (left st')) :: caps st'))).
    change (run (XGroup "_pattern_processor_specifier" (xcats [XBol; xlit "#!"; XGroup "processor_name" (XCat (XChr rs) (XStar (XChr rs))); XEol])) Some (mkspot true (L "#!" ++ c :: nm) []))
      with (if inset rs c then run (XStar (XChr rs)) k (mkspot false nm []) else None).
    rewrite (word_in c Hc rs W).
    rewrite (run_star_all rs k nm false [] (fun f => mkspot f [] [("_pattern_processor_specifier", L "#!" ++ c :: nm); ("processor_name", c :: nm)])).
    - destruct nm; reflexivity.
    - intros x I. rewrite forallb_forall in Hn. apply (word_in x (Hn x I) rs W).
    - intro f. unfold k. cbn [run left caps Rx.fresh at_eol]. unfold between. cbn [List.length]. rewrite !Nat.sub_0_r, firstn_all. change (S (List.length nm)) with (List.length (c :: nm)). rewrite firstn_all. reflexivity. }
  cbn [finditer]. rewrite R. cbn [left caps]. destruct (L "#!" ++ c :: nm) as [|x l] eqn:E; [discriminate E|]. cbn [List.length Nat.ltb Nat.leb]. reflexivity.
Qed.
Lemma directive_named : forall s n, directive_name s = Some n -> exists c nm, n = c :: nm /\ s = L "#!" ++ c :: nm /\ word_char c = true /\ forallb word_char nm = true.
Proof.
  intros s n H. unfold directive_name in H. destruct s as [|a [|b s]]; [discriminate H|destruct (starts _ _) in H; discriminate H|]. cbn [starts L list_ascii_of_string skipn] in H.
  destruct (Ascii.eqb_spec "#" a) as [<-|]; [|discriminate H]. destruct (Ascii.eqb_spec "!" b) as [<-|]; [|discriminate H]. cbn [andb] in H.
  destruct s as [|c nm]; [discriminate H|]. destruct (forallb word_char (c :: nm)) eqn:F; [|discriminate H]. injection H as <-. cbn [forallb] in F. apply andb_prop in F. exists c, nm. repeat split; try apply F.
Qed.
Lemma not_directive : forall s, directive_name s = None -> ~ directive s.
Proof.
  intros s H (n & -> & N & W). unfold directive_name in H. cbn [L list_ascii_of_string app starts Ascii.eqb Bool.eqb andb skipn] in H. destruct n as [|c n]; [congruence|].
  assert (F : forallb word_char (c :: n) = true) by (apply forallb_forall; exact W). rewrite F in H. discriminate H.
Qed.
