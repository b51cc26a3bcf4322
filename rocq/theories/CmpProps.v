(* Property C129: which HTML texts the tests of the project take for the same *)
From Verif Require Import Py Re Rx HtmlModel HtmlSpec CmpModel CmpSpec WellSpec CmpProofs.
From Verif Require PyFacts WikiWell.
Open Scope string_scope.
Open Scope list_scope.
Open Scope nat_scope.

(* C129: texts of which one is well formed and the other is not are taken for the same, and a blank at the beginning makes a difference *)
Theorem C129_refuted : forall items changes, finds changes ->
  (exists a b, well_formed a /\ ~ well_formed b /\ assert_html_equal items changes a b = Ok tt)
  /\ (exists a, well_formed a /\ exists b, well_formed b /\ a = L " " ++ b /\ assert_html_equal items changes a b <> Ok tt).
Proof. exact compare_refuted. Qed.
Print Assumptions C129_refuted.
(* a dictionary that lists the last value of each key, and a difflib that tells equal tuples from others *)
Fixpoint lasts (l : list (str * str)) : list (str * str) :=
  match l with [] => [] | (k, v) :: r => if existsb (str_eqb k) (map fst r) then lasts r else (k, v) :: lasts r end.
Example lasts_keys : forall l k, In k (map fst (lasts l)) -> In k (map fst l).
Proof.
  induction l as [|[k' v'] l IH]; intros k I; [exact I|]. cbn [lasts] in I. destruct (existsb (str_eqb k') (map fst l)); [right; apply IH; exact I|].
  destruct I as [<-|I]; [left; reflexivity|right; apply IH; exact I].
Qed.
Example seen_later : forall k (l : list (str * str)), existsb (str_eqb k) (map fst l) = true <-> In k (map fst l).
Proof.
  intros k l. rewrite existsb_exists. split.
  - intros (x & I & E). apply PyFacts.str_eqb_eq in E. subst x. exact I.
  - intro I. exists k. split; [exact I|]. apply PyFacts.str_eqb_eq. reflexivity.
Qed.
Example lasts_dict : lists_dict lasts.
Proof.
  intros l. split.
  - induction l as [|[k v] l IH]; [constructor|]. cbn [lasts]. destruct (existsb (str_eqb k) (map fst l)) eqn:E; [exact IH|]. cbn [map fst]. constructor; [|exact IH].
    intro I. apply lasts_keys in I. apply seen_later in I. congruence.
  - induction l as [|[k' v'] l IH]; intros k v.
    + split; [intros []|]. intros (a & b & E & _). destruct a; discriminate E.
    + cbn [lasts]. destruct (existsb (str_eqb k') (map fst l)) eqn:E.
      * rewrite IH. split; intros (a & b & E1 & N).
        -- exists ((k', v') :: a), b. split; [rewrite E1; reflexivity|exact N].
        -- destruct a as [|x a]; [injection E1 as E2 E3 E4; subst; apply seen_later in E; contradiction|]. injection E1 as _ E1. exists a, b. split; [exact E1|exact N].
      * cbn [In]. rewrite IH. split.
        -- intros [H|(a & b & E1 & N)]; [injection H as -> ->; exists [], l; split; [reflexivity|intro I; apply seen_later in I; congruence]|].
           exists ((k', v') :: a), b. split; [rewrite E1; reflexivity|exact N].
        -- intros (a & b & E1 & N). destruct a as [|x a]; [left; injection E1 as E2 E3 E4; subst; reflexivity|]. right. injection E1 as _ E1. exists a, b. split; [exact E1|exact N].
Qed.
Definition token_dec : forall a b : token, {a = b} + {a <> b}.
Proof. assert (D : forall a b : str, {a = b} + {a <> b}) by (intros; apply list_eq_dec; exact ascii_dec). intros. decide equality; apply list_eq_dec; intros [] []; decide equality. Defined.
Definition tell (a b : list token) : list (str * list token * list token) := if list_eq_dec token_dec a b then [] else [(L "replace", a, b)].
Example tell_finds : finds tell.
Proof. intros a b. unfold tell. destruct (list_eq_dec token_dec a b); split; try congruence; discriminate. Qed.
Example C129_refuted_case : assert_html_equal lasts tell (L "<p>R&amp;D</p>") (L "<p>R&&amp;D</p>") = Ok tt
  /\ assert_html_equal lasts tell (L "<p>a<br /></p>") (L "<p>a&br /></p>") = Ok tt /\ assert_html_equal lasts tell (L " <p>a</p>") (L "<p>a</p>") = Exc AssertionError.
Proof. split; [vm_compute; reflexivity|]. split; vm_compute; reflexivity. Qed.

(* C129: simple pages are taken for the same exactly if they have the same tags, attributes and texts *)
Theorem C129_pages_partial : forall items changes, lists_dict items -> finds changes -> forall d d', simple d -> simple d' ->
  (assert_html_equal items changes (write d) (write d') = Ok tt -> alike same_dict d d')
  /\ (alike eq d d' -> assert_html_equal items changes (write d) (write d') = Ok tt)
  /\ (settled items -> alike same_dict d d' -> assert_html_equal items changes (write d) (write d') = Ok tt).
Proof. exact compare_pages. Qed.
Print Assumptions C129_pages_partial.
(* the same page with other blanks and line breaks, and a page with other attributes *)
Definition page_1 : page := (L "See", [(mktag (L "a") [(L "href", L "http://a.b/c"); (L "class", L "x")], L " the " ++ [line_break] ++ L "page"); (mktag (L "/a") [], [line_break])]).
Definition page_2 : page := (L "See ", [(mktag (L "a") [(L "href", L "http://a.b/c"); (L "class", L "x")], L "the page "); (mktag (L "/a") [], L "  ")]).
Definition page_3 : page := (L "See ", [(mktag (L "a") [(L "href", L "http://a.b/d"); (L "class", L "x")], L "the page "); (mktag (L "/a") [], L "  ")]).
Ltac chars := let c := fresh in let I := fresh in split; [discriminate|]; intros c I; cbn in I; repeat (destruct I as [<-|I]; [cbn; tauto|]); destruct I.
Ltac bared := let c := fresh in let I := fresh in let X := fresh in intros c I; cbn in I; repeat (destruct I as [<-|I]; [intros [X|[X|X]]; discriminate|]); destruct I.
Ltac paged := split; [bared|]; intros t s [E|[E|[]]]; injection E as <- <-; (split; [chars|]; split; [intros k v J; cbn in J; repeat (destruct J as [J|J]; [injection J as <- <-; split; chars|]); destruct J|bared]).
Example C129_case : simple page_1 /\ simple page_2 /\ simple page_3
  /\ write page_2 = L "See <a href=""http://a.b/c"" class=""x"">the page </a>  "
  /\ assert_html_equal lasts tell (write page_1) (write page_2) = Ok tt /\ assert_html_equal lasts tell (write page_1) (write page_3) = Exc AssertionError.
Proof.
  split; [paged|]. split; [paged|]. split; [paged|]. split; [vm_compute; reflexivity|]. split; vm_compute; reflexivity.
Qed.

(* C129: for all texts it is an equivalence that does not see line breaks *)
Theorem C129_texts_partial : forall items changes, finds changes ->
  (forall a, assert_html_equal items changes a a = Ok tt)
  /\ (forall a b, assert_html_equal items changes a b = assert_html_equal items changes b a)
  /\ (forall a b c, assert_html_equal items changes a b = Ok tt -> assert_html_equal items changes b c = Ok tt -> assert_html_equal items changes a c = Ok tt)
  /\ (forall a b, unbroken a = unbroken b -> assert_html_equal items changes a b = Ok tt).
Proof. exact compare_texts. Qed.
Print Assumptions C129_texts_partial.
Example C129_texts_case : assert_html_equal lasts tell (L "<p>a" ++ [line_break] ++ L "b</p>") (L "<p>ab</p>") = Ok tt.
Proof. vm_compute. reflexivity. Qed.
