(* Whatever follows the name of a position. *)
From Verif Require Import Py PyFacts Re Rx RxFacts HtmlModel TreeModel WikiModel WikiSpec WikiMatch CmpProofs AnalysisSpec AnalysisPage MacroSpec MacroProofs OptionProofs.
Open Scope string_scope.
Open Scope list_scope.
Open Scope nat_scope.

Fixpoint group_names (r : rx) : list string :=
  match r with
  | XCat a b | XAlt a b => group_names a ++ group_names b
  | XStar a => group_names a
  | XGroup n a => n :: group_names a
  | _ => []
  end.
Lemma steps_adds : forall r st w st', steps r st w st' -> exists l, caps st' = l ++ caps st /\ forall kv, In kv l -> In (fst kv) (group_names r).
Proof.
  induction 1; cbn [caps group_names] in *; try (exists []; split; [reflexivity|intros kv []]).
  - destruct IHsteps1 as (l1 & E1 & H1), IHsteps2 as (l2 & E2 & H2). exists (l2 ++ l1). split; [rewrite E2, E1, app_assoc; reflexivity|]. intros kv I. apply in_or_app. apply in_app_or in I. destruct I as [I|I]; [right; exact (H2 kv I)|left; exact (H1 kv I)].
  - destruct IHsteps as (l & E & Hl). exists l. split; [exact E|]. intros kv I. apply in_or_app. left. exact (Hl kv I).
  - destruct IHsteps as (l & E & Hl). exists l. split; [exact E|]. intros kv I. apply in_or_app. right. exact (Hl kv I).
  - destruct IHsteps1 as (l1 & E1 & H1), IHsteps2 as (l2 & E2 & H2). exists (l2 ++ l1). split; [rewrite E2, E1, app_assoc; reflexivity|]. intros kv I. apply in_app_or in I. destruct I as [I|I]; [exact (H2 kv I)|exact (H1 kv I)].
  - destruct IHsteps as (l & E & Hl). exists ((n, u) :: l). split; [rewrite E; reflexivity|]. intros kv [<-|I]; [left; reflexivity|right; exact (Hl kv I)].
Qed.
Lemma opt_total : forall a k st, (forall st', exists x, k st' = Some x) -> exists x, run (xopt a) k st = Some x.
Proof. intros a k st H. unfold xopt. change (run (XAlt a XEps) k st) with (match run a k st with Some x => Some x | None => k st end). destruct (run a k st) as [x|]; [exists x; reflexivity|apply H]. Qed.
Definition tail_rx : rx := xcats [xopt (arg "css=" (XGroup "css" (xplus (XChr letter_set)))); xopt (arg "format" (XGroup "format" (xplus (XChr letter_set))));
  xopt (arg "width" (XGroup "width" (xplus (XChr digit_set)))); xopt (arg "height" (XGroup "height" (xplus (XChr digit_set))))].
Lemma tail_total : forall st, exists x, run tail_rx Some st = Some x.
Proof.
  intros st. unfold tail_rx. rewrite run_xcats. apply opt_total. intros st1. rewrite run_xcats. apply opt_total. intros st2. rewrite run_xcats. apply opt_total. intros st3.
  match goal with |- context [xcats [?a]] => change (xcats [a]) with a end. apply opt_total. intros st4. exists st4. reflexivity.
Qed.
Lemma find_last : forall l n (v : str), (forall kv, In kv l -> fst kv <> n) -> group (l ++ [(n, v)]) n = Some v.
Proof.
  intros l n v H. unfold group. induction l as [|kv l IH]; cbn [app find fst].
  - rewrite String.eqb_refl. reflexivity.
  - destruct (String.eqb_spec (fst kv) n) as [E|_]; [exfalso; exact (H kv (or_introl eq_refl) E)|]. apply IH. intros kv' I. apply H. right. exact I.
Qed.
Lemma any_request : forall g z, position_name g -> exists width height format css, parse_position (Some (g ++ z)) = Ok (Some (request g width height format css)).
Proof.
  intros g z Hg. unfold parse_position. destruct (tail_total (mkspot false z [("gnubgid", g)])) as (x & Hx).
  assert (R : run arg_pattern Some (mkspot true (g ++ z) []) = Some x).
  { rewrite arg_pattern_is, run_xcats, name_first by exact Hg. exact Hx. }
  rewrite R. destruct (run_steps _ _ _ _ Hx) as (w & st' & S & E). injection E as ->. destruct (steps_adds _ _ _ _ S) as (l & El & Hl). cbn [caps] in El. rewrite El.
  rewrite (find_last l "gnubgid" g); [unfold request; do 4 eexists; reflexivity|]. intros kv I. specialize (Hl kv I). cbn in Hl. intros Q. rewrite Q in Hl. repeat (destruct Hl as [Hl|Hl]; [discriminate|]). exact Hl.
Qed.
Section Pages.
Variables (design_order : list string) (wikipath now : str) (urlencode : list (string * str) -> str) (analysis : str -> res (list table)) (rst : str -> res str).
Notation page := (html design_order wikipath now urlencode analysis rst).
Lemma position_any : forall g z, position_name g -> (forall c, In c z -> arg_char c) ->
  exists width height format css, page (call (L "Position") (Some (g ++ z))) = Ok (picture_page urlencode (request g width height format css)).
Proof.
  intros g z Hg Hz. destruct (any_request g z Hg) as (w & h & f & c & P). exists w, h, f, c. apply picture_shown; [apply more_args; assumption|exact P].
Qed.
Lemma analysis_word : macro_name (L "Analysis").
Proof. split; [discriminate|]. intros c I. cbn in I. repeat (destruct I as [<-|I]; [vm_compute; tauto|]). destruct I. Qed.
Lemma analysis_dispatched : forall a r, parse_position (Some a) = Ok (Some r) -> WikiModel.dispatch now urlencode analysis (L "Analysis") (Some a) in_div
  = match analysis (match r with (_, s) :: _ => s | [] => [] end) with Ok ts => m_each write_table ts in_div | Exc e => (in_div, Exc e) end.
Proof.
  intros a r P. unfold dispatch. change (macro now urlencode analysis (L "Analysis")) with (Some (fun args =>
    do! p := (fun d => (d, parse_position args)) in
    match p with
    | None => ret false
    | Some p => do! ts := (fun d => (d, analysis (match p with (_, s) :: _ => s | [] => [] end))) in m_each write_table ts ;; ret true
    end)). cbv beta iota. rewrite P. unfold andthen. destruct (analysis (match r with (_, s) :: _ => s | [] => [] end)) as [ts|e]; [|reflexivity].
  destruct (m_each write_table ts in_div) as [d [[]|e]]; reflexivity.
Qed.
Lemma analysis_given : forall a r, macro_args a -> parse_position (Some a) = Ok (Some r) -> page (call (L "Analysis") (Some a))
  = match (match analysis (match r with (_, s) :: _ => s | [] => [] end) with Ok ts => m_each write_table ts in_div | Exc e => (in_div, Exc e) end) with (d, Ok _) => make_html design_order rst d | (d, Exc e) => Exc e end.
Proof. intros a r Ha P. rewrite call_page; [|exact analysis_word|exact Ha]. pose proof (analysis_dispatched a r P) as D. unfold str in *. rewrite D. reflexivity. Qed.
Lemma analysis_any : forall g z, position_name g -> (forall c, In c z -> arg_char c) -> page (call (L "Analysis") (Some (g ++ z))) = page (call (L "Analysis") (Some g)).
Proof.
  intros g z Hg Hz. destruct (any_request g z Hg) as (w & h & f & c & P).
  transitivity (match (match analysis g with Ok ts => m_each write_table ts in_div | Exc e => (in_div, Exc e) end) with (d, Ok _) => make_html design_order rst d | (d, Exc e) => Exc e end);
    [exact (analysis_given (g ++ z) _ (more_args g z Hg Hz) P)|symmetry; exact (analysis_given g _ (position_args g Hg) (name_request g Hg))].
Qed.
Lemma nothing_given : page (call (L "Position") None) = Exc TypeError /\ page (call (L "Analysis") None) = Exc TypeError.
Proof.
  split; [rewrite call_page; [reflexivity| |exact Logic.I]|rewrite call_page; [reflexivity|exact analysis_word|exact Logic.I]].
  split; [discriminate|]. intros c I. cbn in I. repeat (destruct I as [<-|I]; [vm_compute; tauto|]). destruct I.
Qed.
Lemma any_arguments : 
  (forall g z, position_name g -> (forall c, In c z -> arg_char c) ->
     page (call (L "Analysis") (Some (g ++ z))) = page (call (L "Analysis") (Some g)) /\
     exists width height format css, page (call (L "Position") (Some (g ++ z))) = Ok (picture_page urlencode (request g width height format css))) /\
  page (call (L "Position") None) = Exc TypeError /\ page (call (L "Analysis") None) = Exc TypeError.
Proof. split; [|exact nothing_given]. intros g z Hg Hz. split; [exact (analysis_any g z Hg Hz)|exact (position_any g z Hg Hz)]. Qed.
End Pages.
