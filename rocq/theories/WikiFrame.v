(* Parsing is the same wherever the nodes of the document are: a relation between documents that the
   editor's operations keep is kept by every line of a wiki text *)
From Verif Require Import Py PyFacts Re Rx HtmlModel TreeModel TreeSpec TreeProofs TocModel WikiModel WikiSpec.
Open Scope string_scope.
Open Scope list_scope.
Open Scope nat_scope.

Section Rel.
Variable R : doc -> doc -> Prop.
Variables same fresh : nat -> nat -> Prop.
Definition lift {X Y} (Q : X -> Y -> Prop) (a : res X) (b : res Y) : Prop :=
  match a, b with Ok x, Ok y => Q x y | Exc e, Exc f => e = f | _, _ => False end.
Definition rel {X Y} (Q : X -> Y -> Prop) (m : M X) (w : M Y) : Prop :=
  forall d e, R d e -> R (fst (m d)) (fst (w e)) /\ lift Q (snd (m d)) (snd (w e)).
Definition opt {X Y} (Q : X -> Y -> Prop) (a : option X) (b : option Y) : Prop :=
  match a, b with Some x, Some y => Q x y | None, None => True | _, _ => False end.
Definition alike (n m : node) : Prop := cls n = cls m /\ attrs n = attrs m.

Hypothesis Henter : forall k a, k <> BgRoot -> k <> Text -> k <> Div -> rel fresh (m_enter k a) (m_enter k a).
Hypothesis Hdiv : rel eq (start_on_not_exist Div []) (start_on_not_exist Div []).
Hypothesis Hleave : forall ks, rel eq (m_leave ks) (m_leave ks).
Hypothesis Htext : forall s, rel eq (m_text s) (m_text s).
Hypothesis Hancestor : forall ks, rel (opt same) (m_ancestor ks) (m_ancestor ks).
Hypothesis Hcount : forall ks, rel eq (m_count ks) (m_count ks).
Hypothesis Hset : forall i j s, fresh i j -> rel eq (set_url i s) (set_url j s).
Hypothesis Hgoto : forall i j, same i j -> rel eq (run_op (GoTo i)) (run_op (GoTo j)).
Hypothesis Hdone : rel eq (run_op Done) (run_op Done).
Hypothesis Hcurrent : rel alike m_current m_current.
Hypothesis Hadd : forall i j s, same i j -> rel eq (run_op (AddLine i s)) (run_op (AddLine j s)).
Hypothesis Hname : forall i j s, same i j -> rel eq (run_op (SetProcessor i s)) (run_op (SetProcessor j s)).
Hypothesis Htoc : rel eq (run_op table_of_contents) (run_op table_of_contents).
Hypothesis Hplace : forall d e, R d e -> opt same (current d) (current e).
Hypothesis Hnode : forall d e i j, R d e -> same i j -> opt alike (nth_error (nodes d) i) (nth_error (nodes e) j).

Lemma r_bind : forall (X Y X' Y' : Type) (Q : X -> X' -> Prop) (Q' : Y -> Y' -> Prop) m m' k k',
  rel Q m m' -> (forall x x', Q x x' -> rel Q' (k x) (k' x')) -> rel Q' (andthen m k) (andthen m' k').
Proof.
  intros X Y X' Y' Q Q' m m' k k' H1 H2 d e HR. unfold andthen. destruct (H1 d e HR) as [HR' HL]. destruct (m d) as [d1 [x|f]], (m' e) as [e1 [x'|f']]; cbn [fst snd lift] in *; try contradiction.
  - apply H2; assumption.
  - split; assumption.
Qed.
Lemma r_ret : forall (X Y : Type) (Q : X -> Y -> Prop) x y, Q x y -> rel Q (ret x) (ret y).
Proof. intros X Y Q x y H d e HR. split; assumption. Qed.
Lemma r_raise : forall (X Y : Type) (Q : X -> Y -> Prop) x, rel Q (raise x) (raise x).
Proof. intros X Y Q x d e HR. split; [exact HR|reflexivity]. Qed.
Lemma r_pure : forall (X : Type) (r : res X), rel eq (fun d => (d, r)) (fun d => (d, r)).
Proof. intros X r d e HR. split; [exact HR|]. cbn [snd lift]. destruct r; reflexivity. Qed.
Lemma r_push : forall k a, k <> BgRoot -> k <> Text -> k <> Div -> rel eq (m_push k a) (m_push k a).
Proof. intros k a H1 H2 H3. unfold m_push. eapply r_bind; [apply Henter; assumption|]. intros. apply r_ret. reflexivity. Qed.
Lemma r_each : forall (X : Type) (f f' : X -> M unit) l, (forall x, rel eq (f x) (f' x)) -> rel eq (m_each f l) (m_each f' l).
Proof.
  intros X f f' l H. induction l as [|x l IH]; cbn [m_each]; [apply r_ret; reflexivity|].
  eapply r_bind; [apply H|]. intros. exact IH.
Qed.
Ltac go := repeat match goal with
  | |- forall _, _ => intro
  | H : ?x = ?y |- _ => subst x || (subst y) 
  | |- rel _ (andthen _ _) (andthen _ _) => eapply r_bind
  | |- rel _ (ret _) (ret _) => apply r_ret; reflexivity
  | |- rel _ (raise _) (raise _) => apply r_raise
  | |- rel _ (m_push _ _) _ => apply r_push; discriminate
  | |- rel _ (m_enter _ _) _ => apply Henter; discriminate
  | |- rel _ (m_leave _) _ => apply Hleave
  | |- rel _ (m_text _) _ => apply Htext
  | |- rel _ (m_ancestor _) _ => apply Hancestor
  | |- rel _ (m_count _) _ => apply Hcount
  | |- rel _ (set_url _ _) _ => apply Hset; assumption
  | |- rel _ (run_op (GoTo _)) _ => apply Hgoto; assumption
  | |- rel _ (run_op (AddLine _ _)) _ => apply Hadd; assumption
  | |- rel _ (run_op (SetProcessor _ _)) _ => apply Hname; assumption
  | |- rel _ (run_op Done) _ => apply Hdone
  | |- rel _ (run_op table_of_contents) _ => apply Htoc
  | |- rel _ (m_each _ _) (m_each _ _) => apply r_each
  | |- rel _ (fun d => (d, _)) (fun e => (e, _)) => apply r_pure
  | |- rel _ (match ?b with _ => _ end) (match ?b with _ => _ end) => destruct b
  end.
Lemma r_start : forall k a, k <> BgRoot -> k <> Text -> k <> Div -> rel eq (start_on_not_exist k a) (start_on_not_exist k a).
Proof.
  intros k a H1 H2 H3. unfold start_on_not_exist. eapply r_bind; [apply Hancestor|]. intros [x|] [y|] H; try contradiction; [apply r_ret; reflexivity|apply r_push; assumption].
Qed.
Lemma r_start_end : forall k a, k <> BgRoot -> k <> Text -> k <> Div -> rel eq (start_or_end k a) (start_or_end k a).
Proof.
  intros k a H1 H2 H3. unfold start_or_end. eapply r_bind; [apply Hancestor|]. intros [x|] [y|] H; try contradiction; [apply Hleave|apply r_push; assumption].
Qed.
Lemma r_assert : forall b, rel eq (m_assert b) (m_assert b).
Proof. intro b. unfold m_assert. go. Qed.
Lemma r_unnest : forall i n ks, rel eq (unnest i n ks) (unnest i n ks).
Proof. intros. unfold unnest. go. Qed.
Lemma r_nest : forall i n k a, k <> BgRoot -> k <> Text -> k <> Div -> rel eq (nest_more i n k a) (nest_more i n k a).
Proof.
  intros i n k a H1 H2 H3. unfold nest_more. eapply r_bind; [|intros; apply r_ret; reflexivity].
  induction (i - n) as [|c IH]; cbn [repeat m_each]; [apply r_ret; reflexivity|]. eapply r_bind; [apply r_push; assumption|]. intros. exact IH.
Qed.
Ltac more := repeat first
  [ progress go
  | apply r_start; discriminate
  | apply r_start_end; discriminate
  | apply r_assert
  | apply r_unnest
  | apply r_nest; discriminate ].
Section Line.
Variables (design_order : list string) (wikipath now : str) (urlencode : list (string * str) -> str) (analysis : str -> res (list table)).
Lemma r_table : forall t, rel eq (write_table t) (write_table t).
Proof.
  intro t. unfold write_table. go. unfold write_row. go. unfold write_cell. match goal with |- context [header ?c] => destruct (header c) end; go.
Qed.
Lemma r_bad_args : forall n a, rel eq (bad_args n a) (bad_args n a).
Proof. intros. unfold bad_args. go. Qed.
Lemma r_bad_name : forall n a, rel eq (bad_name n a) (bad_name n a).
Proof. intros. unfold bad_name. go. Qed.
Lemma r_dispatch : forall n a, rel eq (dispatch now urlencode analysis n a) (dispatch now urlencode analysis n a).
Proof.
  intros n a. unfold dispatch, macro. repeat destruct (str_eqb n _).
  all: try apply r_bad_name.
  all: eapply r_bind; [|intros b b' <-; destruct b; [apply r_ret; reflexivity|apply r_bad_args]]; go; apply r_table.
Qed.
Lemma r_citation : forall s, rel eq (handle_citation s) (handle_citation s).
Proof. intro s. unfold handle_citation. more. Qed.
Lemma r_itemize : forall g s, rel eq (handle_itemize design_order g s) (handle_itemize design_order g s).
Proof.
  intros g s. unfold handle_itemize. destruct (calc_indent s " ") as [indent|]; [|apply r_raise].
  eapply r_bind; [apply Hcount|]. intros n n' <-. eapply r_bind; [apply r_unnest|]. intros k k' <-. eapply r_bind.
  { destruct (Nat.eqb indent k); [apply Hleave|]. more. }
  intros u u' <-. eapply r_bind; [apply Hcurrent|]. intros x x' [H1 H2]. eapply r_bind with (Q := eq).
  - replace (match cls x' with ListEl => get_style design_order x' | _ => Exc AttributeError end)
      with (match cls x with ListEl => get_style design_order x | _ => Exc AttributeError end); [apply r_pure|].
    rewrite H1. unfold get_style. rewrite H2. reflexivity.
  - intros v v' <-. more.
Qed.
Lemma r_quote : rel eq handle_quote handle_quote.
Proof.
  unfold handle_quote. eapply r_bind; [apply Hancestor|]. intros [x|] [y|] H; try contradiction; [|apply r_start; discriminate].
  eapply r_bind; [apply Hancestor|]. intros [x'|] [y'|] H'; try contradiction; [apply Hgoto; exact H'|more].
Qed.
Lemma r_handle : forall name s g, rel eq (handle design_order wikipath now urlencode analysis name s g) (handle design_order wikipath now urlencode analysis name s g).
Proof.
  intros name s g. unfold handle. cbv zeta.
  repeat match goal with |- rel _ (if String.eqb name ?n then _ else _) _ => destruct (String.eqb name n) end.
  all: try solve [more | apply r_citation | apply r_itemize | apply r_quote].
  all: unfold anchor, anchor2.
  all: try solve [more].
  - eapply r_bind; [apply Hancestor|]. intros [x|] [y|] H; try contradiction; more.
  - more. apply r_dispatch.
Qed.
Lemma r_group : forall g kv, rel eq (handle_group design_order wikipath now urlencode analysis g kv) (handle_group design_order wikipath now urlencode analysis g kv).
Proof. intros g [name [|c r]]; unfold handle_group; [more|]. destruct (Ascii.eqb c "!" && _)%bool; [apply Htext|apply r_handle]. Qed.
(* a line that is not empty, in a paragraph *)
Definition line_tail (c : ascii) (line : str) : M unit :=
  (if Ascii.eqb c " " then ret tt else m_leave [BlockQuote; DefBody]) ;;
  (if Ascii.eqb c ">" then ret tt else m_leave [Citation]) ;;
  (if ends_with "::" (c :: line) then start_on_not_exist DefList [] ;; m_push DefHeader [] else ret tt) ;;
  m_each (fun g => m_each (handle_group design_order wikipath now urlencode analysis g) g) (matches (c :: line)) ;;
  (if ends_with "::" (c :: line) then m_leave [DefHeader] ;; m_push DefBody [] else ret tt).
Lemma r_tail : forall c line, rel eq (line_tail c line) (line_tail c line).
Proof. intros c line. unfold line_tail. more. apply r_group. Qed.
Lemma r_line : forall line, rel eq (line_parse design_order wikipath now urlencode analysis line) (line_parse design_order wikipath now urlencode analysis line).
Proof. intros [|c line]; unfold line_parse; [more|]. eapply r_bind; [apply Hdiv|]. intros u v _. apply r_tail. Qed.
Lemma r_wrap : forall i j line, same i j -> rel eq (wrap_parse i line) (wrap_parse j line).
Proof.
  intros i j line H. unfold wrap_parse. destruct line as [|c line]; [more|]. more. destruct x0 as [name [|c' s]]; unfold wrap_handle; more.
Qed.
Lemma r_parse_line : forall line, rel eq (parse_line design_order wikipath now urlencode analysis line) (parse_line design_order wikipath now urlencode analysis line).
Proof.
  intros line d e HR. unfold parse_line. pose proof (Hplace d e HR) as Hp. destruct (current d) as [c|], (current e) as [c'|]; try contradiction; [|apply r_line; exact HR].
  pose proof (Hnode d e c c' HR Hp) as Hn. destruct (nth_error (nodes d) c) as [n|], (nth_error (nodes e) c') as [n'|]; try contradiction; [|apply r_line; exact HR].
  destruct Hn as [Hn _]. rewrite <- Hn. destruct (cls n); try (apply r_line; exact HR). apply r_wrap; assumption.
Qed.
Lemma r_lines : forall ls, rel eq (m_each (parse_line design_order wikipath now urlencode analysis) ls) (m_each (parse_line design_order wikipath now urlencode analysis) ls).
Proof. intro ls. apply r_each. apply r_parse_line. Qed.
End Line.
End Rel.
(* entering paragraphs is nothing special for most relations *)
Lemma r_div : forall R same fresh, (forall k a, k <> BgRoot -> k <> Text -> rel R fresh (m_enter k a) (m_enter k a)) -> (forall ks, rel R (opt same) (m_ancestor ks) (m_ancestor ks)) ->
  rel R eq (start_on_not_exist Div []) (start_on_not_exist Div []).
Proof.
  intros R same fresh He Ha. unfold start_on_not_exist. eapply r_bind; [apply Ha|]. intros [x|] [y|] H; try contradiction; [apply r_ret; reflexivity|].
  unfold m_push. eapply r_bind; [apply He; discriminate|]. intros. apply r_ret. reflexivity.
Qed.
