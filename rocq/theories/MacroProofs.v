(* Pages that are one call of a macro. *)
From Verif Require Import Py PyFacts Re Rx RxFacts HtmlModel HtmlSpec HtmlProofs TreeModel TreeSpec TreeProofs TreeVisit TreeHtml TreeText TreeStream TocModel TocSpec TocProofs WikiModel WikiSpec WikiInv WikiMatch WikiWalk WikiText WikiProofs WikiLink CmpProofs AnalysisSpec AnalysisPage MacroSpec.
Open Scope string_scope.
Open Scope list_scope.
Open Scope nat_scope.

Definition word_set : cset := Ranges false [("a", "z"); ("A", "Z"); ("0", "9"); ("_", "_")]%char.
Lemma word_in : forall c, word_char c -> inset word_set c = true /\ c <> "!"%char /\ c <> ascii_of_nat 13 /\ c <> newline_char /\ escape [c] = [c].
Proof.
  intros c H. assert (G : forallb (fun c => inset word_set c && negb (Ascii.eqb c "!") && negb (Ascii.eqb c (ascii_of_nat 13)) && negb (Ascii.eqb c newline_char) && str_eqb (escape [c]) [c])
    (L "ABCDEFGHIJKLMNOPQRSTUVWXYZabcdefghijklmnopqrstuvwxyz0123456789_") = true) by (vm_compute; reflexivity).
  rewrite forallb_forall in G. specialize (G c H). do 4 (apply andb_true_iff in G; destruct G as [G ?]). repeat split; try assumption; try (apply Ascii.eqb_neq; apply negb_true_iff; assumption). apply str_eqb_eq. assumption.
Qed.
Lemma arg_in : forall c, arg_char c -> inset arg_set c = true /\ c <> "!"%char /\ c <> ascii_of_nat 13 /\ c <> newline_char /\ escape [c] = [c].
Proof.
  intros c H. assert (G : forallb (fun c => inset arg_set c && negb (Ascii.eqb c "!") && negb (Ascii.eqb c (ascii_of_nat 13)) && negb (Ascii.eqb c newline_char) && str_eqb (escape [c]) [c])
    (L "ABCDEFGHIJKLMNOPQRSTUVWXYZabcdefghijklmnopqrstuvwxyz0123456789+, .=/#:") = true) by (vm_compute; reflexivity).
  rewrite forallb_forall in G. specialize (G c H). do 4 (apply andb_true_iff in G; destruct G as [G ?]). repeat split; try assumption; try (apply Ascii.eqb_neq; apply negb_true_iff; assumption). apply str_eqb_eq. assumption.
Qed.
Definition call_caps (name : str) (args : option str) : list (string * str) :=
  match args with Some a => [("macro_args", a); ("macro_name", name)] | None => [("macro_name", name)] end.
Lemma call_run : forall k name args f, macro_name name -> good_args args -> forall x, k (mkspot false [] (call_caps name args)) = Some x ->
  run macro_rx k (mkspot f (call name args) []) = Some x.
Proof.
  intros k name args f (Nn & Wn) Ga x H. unfold macro_rx, call. rewrite run_xcats, run_lit by discriminate. rewrite run_xcats.
  apply group_plus; [exact Nn|intros c I; apply word_in, Wn, I|destruct args; reflexivity|].
  rewrite run_xcats. destruct args as [a|]; cbn [call_caps] in H.
  - destruct Ga as (Na & Wa). apply run_opt. rewrite <- ?app_assoc. rewrite run_xcats, run_lit by discriminate. rewrite run_xcats.
    apply group_plus; [exact Na|intros c I; apply arg_in, Wa, I|reflexivity|].
    change (xcats [xlit ")"]) with (xlit ")"). rewrite run_lit by discriminate. change (xcats [xlit "]]"]) with (xlit "]]"). rewrite <- (app_nil_r (L "]]")). rewrite run_lit by discriminate. exact H.
  - exact H.
Qed.
Lemma call_regexp : forall name args, macro_name name -> good_args args ->
  run (regexp line_patterns) Some (mkspot true (call name args) []) = Some (mkspot false [] (("_pattern_macro", call name args) :: call_caps name args)).
Proof.
  intros name args Hn Ha. unfold regexp. apply run_first with (i := 15) (r := XGroup "_pattern_macro" macro_rx); [reflexivity| |].
  - intros j q Lt Hj. unfold call. do 15 (destruct j as [|j]; [injection Hj as <-; vm_compute; reflexivity|]); lia.
  - rewrite run_group. apply call_run; [exact Hn|exact Ha|]. cbn [fresh left caps]. unfold between. cbn [List.length]. rewrite Nat.sub_0_r, firstn_all. reflexivity.
Qed.
Lemma call_match : forall name args, macro_name name -> good_args args -> matches (call name args) = [("_pattern_macro", call name args) :: call_caps name args].
Proof.
  intros name args Hn Ha. pose proof (call_regexp name args Hn Ha) as R. assert (P : Nat.ltb 0 (List.length (call name args)) = true) by reflexivity.
  revert R P. generalize (call name args). intros line R P.
  unfold matches, find_all. cbn [finditer]. rewrite R. cbn [left caps List.length]. rewrite P, end_none. reflexivity.
Qed.
Lemma position_args : forall g, position_name g -> macro_args g.
Proof.
  intros g (pid & mid & E & Lp & Lm & C). split; [rewrite E; destruct pid; discriminate|]. assert (G : forall c, id_char c -> arg_char c).
  { intros c I. assert (G : forallb (fun c => existsb (Ascii.eqb c) (L "ABCDEFGHIJKLMNOPQRSTUVWXYZabcdefghijklmnopqrstuvwxyz0123456789+, .=/#:")) (L "ABCDEFGHIJKLMNOPQRSTUVWXYZabcdefghijklmnopqrstuvwxyz0123456789+/") = true) by (vm_compute; reflexivity).
    rewrite forallb_forall in G. specialize (G c I). apply existsb_exists in G. destruct G as (y & Iy & E'). apply Ascii.eqb_eq in E'. rewrite E'. exact Iy. }
  intros c I. rewrite E in I. apply in_app_or in I. destruct I as [I|I]; [apply G, C, in_or_app; left; exact I|]. apply in_app_or in I. destruct I as [[<-|[]]|I]; [vm_compute; tauto|apply G, C, in_or_app; right; exact I].
Qed.
Section Line.
Variables (design_order : list string) (wikipath now : str) (urlencode : list (string * str) -> str) (analysis : str -> res (list table)).
Notation handle_group' := (handle_group design_order wikipath now urlencode analysis).
Lemma call_groups : forall name args d, macro_name name -> good_args args ->
  m_each (handle_group' (("_pattern_macro", call name args) :: call_caps name args)) (("_pattern_macro", call name args) :: call_caps name args) d
  = match dispatch now urlencode analysis name args d with (d, Ok _) => (d, Ok tt) | (d, Exc e) => (d, Exc e) end.
Proof.
  intros name args d (Nn & Wn) Ga. set (gs := ("_pattern_macro", call name args) :: call_caps name args) at 1.
  assert (H1 : handle_group' gs ("_pattern_macro", call name args) d = dispatch now urlencode analysis name args d).
  { unfold gs. destruct args; reflexivity. }
  assert (H3 : forall d, handle_group' gs ("macro_name", name) d = (d, Ok tt)).
  { intro d0. unfold handle_group. destruct name as [|c r]; [congruence|]. destruct (word_in c (Wn c (or_introl eq_refl))) as (_ & B & _). apply Ascii.eqb_neq in B. rewrite B. reflexivity. }
  assert (H2 : forall d a, args = Some a -> handle_group' gs ("macro_args", a) d = (d, Ok tt)).
  { intros d0 a ->. destruct Ga as (Na & Wa). unfold handle_group. destruct a as [|c r]; [congruence|]. destruct (arg_in c (Wa c (or_introl eq_refl))) as (_ & B & _). apply Ascii.eqb_neq in B. rewrite B. reflexivity. }
  clearbody gs. cbn [m_each]. unfold andthen at 1. rewrite H1. destruct (dispatch now urlencode analysis name args d) as [d1 [u|e]]; [|reflexivity].
  destruct args as [a|]; cbn [call_caps m_each]; unfold andthen; [rewrite (H2 d1 a eq_refl)|]; rewrite H3; reflexivity.
Qed.
Lemma call_page : forall rst name args, macro_name name -> good_args args ->
  html design_order wikipath now urlencode analysis rst (call name args)
  = match dispatch now urlencode analysis name args in_div with (d, Ok _) => make_html design_order rst d | (d, Exc e) => Exc e end.
Proof.
  intros rst name args Hn Ha. pose proof (call_match name args Hn Ha) as M. pose proof (fun d => call_groups name args d Hn Ha) as G.
  assert (O : one_line (call name args)).
  { destruct Hn as (_ & Wn). intros c I. unfold call in I. apply in_app_or in I. destruct I as [I|I]; [cbn in I; repeat (destruct I as [<-|I]; [split; discriminate|]); destruct I|].
    apply in_app_or in I. destruct I as [I|I]; [destruct (word_in c (Wn c I)) as (_ & _ & ? & ? & _); split; assumption|].
    apply in_app_or in I. destruct I as [I|I]; [|cbn in I; repeat (destruct I as [<-|I]; [split; discriminate|]); destruct I].
    destruct args as [a|]; [|destruct I]. destruct Ha as (_ & Wa). apply in_app_or in I. destruct I as [I|I]; [cbn in I; repeat (destruct I as [<-|I]; [split; discriminate|]); destruct I|].
    apply in_app_or in I. destruct I as [I|I]; [destruct (arg_in c (Wa c I)) as (_ & _ & ? & ? & _); split; assumption|cbn in I; repeat (destruct I as [<-|I]; [split; discriminate|]); destruct I]. }
  assert (E : ends_with "::" (call name args) = false).
  { unfold call. rewrite !app_assoc. apply ends_no; [discriminate|]. intro I. cbn in I. repeat (destruct I as [I|I]; [discriminate I|]). exact I. }
  unfold html. assert (Q : exists line, call name args = "["%char :: line) by (eexists; reflexivity). destruct Q as (line & Q).
  rewrite Q in *. rewrite (one_parse design_order wikipath now urlencode analysis "["%char line _ ltac:(discriminate) ltac:(discriminate) O E M).
  rewrite G. destruct (dispatch now urlencode analysis name args in_div) as [d [u|e]]; reflexivity.
Qed.
Lemma error_html : forall rst t, (match (m_push Span [("class", VStr (L "error"))] ;; m_text t ;; m_leave [Span]) in_div with (d, Ok _) => make_html design_order rst d | (d, Exc e) => Exc e end) = Ok (error_page t).
Proof.
  intros rst t. transitivity (Ok (L "<div>" ++ [newline] ++ L "<span class=" ++ [quote] ++ L "error" ++ [quote] ++ L ">" ++ [newline] ++ t ++ [newline] ++ L "</span>" ++ [newline] ++ L "</div>" ++ [newline])); [vm_compute; reflexivity|].
  unfold error_page, page_of, written_element. rewrite <- !app_assoc. reflexivity.
Qed.
Lemma escape_plain : forall s, (forall c, In c s -> escape [c] = [c]) -> escape s = s.
Proof. induction s as [|c s IH]; intros H; [reflexivity|]. change (c :: s) with ([c] ++ s). rewrite escape_app, (H c (or_introl eq_refl)), IH; [reflexivity|]. intros x I. apply H. right. exact I. Qed.

Lemma unknown_page : forall rst name args, macro_name name -> ~ In name (map (fun n => L n) known) -> good_args args ->
  html design_order wikipath now urlencode analysis rst (call name args)
  = Ok (error_page (L "No such macro " ++ quoted name ++ L " with argument " ++ quoted (match args with Some a => a | None => L "None" end))).
Proof.
  intros rst name args Hn U Ha. rewrite call_page by assumption. unfold dispatch.
  assert (K : macro now urlencode analysis name = None).
  { unfold macro. cbn [known map In] in U. repeat match goal with |- context [str_eqb name ?w] => let E := fresh "E" in destruct (str_eqb name w) eqn:E; [apply str_eqb_eq in E; exfalso; apply U; rewrite E; tauto|] end. reflexivity. }
  rewrite K. unfold bad_name. rewrite error_html. f_equal. f_equal. unfold quoted.
  rewrite (escape_plain name) by (intros c I; apply word_in, (proj2 Hn), I). replace (escape (opt_none args)) with (match args with Some a => a | None => L "None" end).
  - rewrite <- !app_assoc. reflexivity.
  - destruct args as [a|]; [|reflexivity]. destruct Ha as (Na & Wa). destruct a as [|c a]; [congruence|]. symmetry. apply escape_plain. intros x I. apply arg_in, Wa, I.
Qed.
Lemma times_inv : forall p n k f s c x, run (times (S n) (XChr p)) k (mkspot f s c) = Some x ->
  exists w rest, s = w ++ rest /\ List.length w = S n /\ all_in p w /\ k (mkspot false rest c) = Some x.
Proof.
  intros p. induction n as [|n IH]; intros k f s c x H.
  - destruct s as [|a s]; [discriminate H|]. change ((if inset p a then k (mkspot false s c) else None) = Some x) in H. destruct (inset p a) eqn:E; [|discriminate]. exists [a], s. repeat split; try assumption. intros y [<-|[]]. exact E.
  - destruct s as [|a s]; [discriminate H|]. change ((if inset p a then run (times (S n) (XChr p)) k (mkspot false s c) else None) = Some x) in H. destruct (inset p a) eqn:E; [|discriminate].
    destruct (IH _ _ _ _ _ H) as (w & rest & -> & Ln & Aw & Hk). exists (a :: w), rest. repeat split; [cbn; congruence| |exact Hk]. intros y [<-|I]; [exact E|apply Aw, I].
Qed.
Lemma id_out : forall c, inset id_set c = true -> id_char c.
Proof.
  intros c H. destruct (in_dec ascii_dec c (L "ABCDEFGHIJKLMNOPQRSTUVWXYZabcdefghijklmnopqrstuvwxyz0123456789+/")) as [I|N]; [exact I|exfalso].
  assert (G : forall n, n < 256 -> inset id_set (ascii_of_nat n) = true -> In (ascii_of_nat n) (L "ABCDEFGHIJKLMNOPQRSTUVWXYZabcdefghijklmnopqrstuvwxyz0123456789+/")).
  { assert (G : forallb (fun n => implb (inset id_set (ascii_of_nat n)) (existsb (Ascii.eqb (ascii_of_nat n)) (L "ABCDEFGHIJKLMNOPQRSTUVWXYZabcdefghijklmnopqrstuvwxyz0123456789+/"))) (seq 0 256) = true) by (vm_compute; reflexivity).
    intros n Ln Hi. rewrite forallb_forall in G. specialize (G n). rewrite Hi in G. specialize (G ltac:(apply in_seq; lia)). cbn [implb] in G. apply existsb_exists in G. destruct G as (y & Iy & Ey). apply Ascii.eqb_eq in Ey. rewrite Ey. exact Iy. }
  apply N. rewrite <- (ascii_nat_embedding c). apply G; [apply nat_ascii_bounded|rewrite ascii_nat_embedding; exact H].
Qed.
Lemma pattern_names : forall a x, run arg_pattern Some (mkspot true a []) = Some x -> names_position a.
Proof.
  intros a x H. unfold arg_pattern in H. rewrite run_xcats, run_group in H. revert H. match goal with |- run _ ?k _ = _ -> _ => generalize k end. intros k H.
  rewrite run_xcats in H. apply times_inv in H. destruct H as (pid & r & -> & Lp & Ap & H). rewrite run_xcats in H.
  destruct r as [|c r]; [discriminate H|]. destruct (Ascii.eqb_spec ":" c) as [<-|Nc].
  - change (run (times 12 base64) k (mkspot false r []) = Some x) in H. apply times_inv in H. destruct H as (mid & rest & -> & Lm & Am & _).
    exists (pid ++ L ":" ++ mid), rest. split; [rewrite <- !app_assoc; reflexivity|]. exists pid, mid. repeat split; try assumption. intros y I. apply id_out. apply in_app_or in I. destruct I as [I|I]; [apply Ap, I|apply Am, I].
  - exfalso. change ((if Ascii.eqb ":" c then run (times 12 base64) k (mkspot false r []) else None) = Some x) in H. apply Ascii.eqb_neq in Nc. rewrite Nc in H. discriminate.
Qed.
Lemma bad_page : forall rst name a, name = L "Position" \/ name = L "Analysis" -> macro_args a -> ~ names_position a ->
  html design_order wikipath now urlencode analysis rst (call name (Some a)) = Ok (error_page (L "Bad args " ++ quoted a ++ L " for " ++ name ++ [newline])).
Proof.
  intros rst name a Hn Ha B. assert (Mn : macro_name name).
  { destruct Hn as [-> | ->]; (split; [discriminate|]); intros c I; cbn in I; repeat (destruct I as [<-|I]; [vm_compute; tauto|]); destruct I. }
  rewrite call_page by assumption. assert (P : parse_position (Some a) = Ok None).
  { unfold parse_position. destruct (run arg_pattern Some (mkspot true a [])) as [x|] eqn:E; [apply pattern_names in E; contradiction|reflexivity]. }
  assert (D : dispatch now urlencode analysis name (Some a) in_div = bad_args name (Some a) in_div).
  { destruct Hn as [-> | ->].
    - unfold dispatch. change (macro now urlencode analysis (L "Position")) with (Some (fun args =>
        do! p := (fun d => (d, parse_position args)) in
        match p with
        | None => ret false
        | Some p => m_push Span [("class", VStr (L "position"))] ;;
                m_push Img [("src", VStr (L "/image?" ++ urlencode p))] ;; m_leave [Span] ;; ret true
        end)). cbv beta iota. rewrite P. reflexivity.
    - unfold dispatch. change (macro now urlencode analysis (L "Analysis")) with (Some (fun args =>
        do! p := (fun d => (d, parse_position args)) in
        match p with
        | None => ret false
        | Some p => do! ts := (fun d => (d, analysis (match p with (_, s) :: _ => s | [] => [] end))) in m_each write_table ts ;; ret true
        end)). cbv beta iota. rewrite P. reflexivity. }
  rewrite D. unfold bad_args. rewrite error_html. f_equal. f_equal. unfold quoted. destruct Ha as (Na & Wa). replace (escape (opt_none (Some a))) with a.
  - rewrite <- !app_assoc. reflexivity.
  - destruct a as [|c a]; [congruence|]. symmetry. apply escape_plain. intros y I. apply arg_in, Wa, I.
Qed.
Lemma name_request : forall g, position_name g -> parse_position (Some g) = Ok (Some (plain_request g)).
Proof.
  intros g (pid & mid & E & Lp & Lm & C). unfold parse_position.
  assert (R : run arg_pattern Some (mkspot true g []) = Some (mkspot false [] [("gnubgid", g)])).
  { assert (T1 : forall k r, run (times 14 base64) k (mkspot true (pid ++ r) []) = k (mkspot false r [])).
    { intros k r. rewrite <- Lp. apply run_times; [intros c I; apply id_in, C, in_or_app; left; exact I|intros ->; discriminate Lp]. }
    assert (T2 : forall k, run (times 12 base64) k (mkspot false mid []) = k (mkspot false [] [])).
    { intros k. rewrite <- Lm. rewrite <- (app_nil_r mid) at 2. apply run_times; [intros c I; apply id_in, C, in_or_app; right; exact I|intros ->; discriminate Lm]. }
    unfold arg_pattern. rewrite run_xcats, run_group.
    match goal with |- run _ ?k _ = _ => set (K := k) end. assert (EK : K (mkspot false [] []) = Some (mkspot false [] [("gnubgid", g)])).
    { unfold K. cbn [fresh left caps]. unfold between. cbn [List.length]. rewrite Nat.sub_0_r, firstn_all. reflexivity. }
    rewrite E. rewrite run_xcats, T1, run_xcats. change (L ":" ++ mid) with (":"%char :: mid).
    change (run (xlit ":") (run (xcats [times 12 base64]) K) (mkspot false (":"%char :: mid) [])) with (run (times 12 base64) K (mkspot false mid [])). rewrite T2. rewrite EK, E. reflexivity. }
  rewrite R. reflexivity.
Qed.
Lemma picture_shown : forall rst a r, macro_args a -> parse_position (Some a) = Ok (Some r) ->
  html design_order wikipath now urlencode analysis rst (call (L "Position") (Some a)) = Ok (picture_page urlencode r).
Proof.
  intros rst a r Ha P. rewrite call_page; [|split; [discriminate|intros c I; cbn in I; repeat (destruct I as [<-|I]; [vm_compute; tauto|]); destruct I]|exact Ha].
  unfold dispatch. change (macro now urlencode analysis (L "Position")) with (Some (fun args =>
        do! p := (fun d => (d, parse_position args)) in
        match p with
        | None => ret false
        | Some p => m_push Span [("class", VStr (L "position"))] ;;
                m_push Img [("src", VStr (L "/image?" ++ urlencode p))] ;; m_leave [Span] ;; ret true
        end)). cbv beta iota. rewrite P. set (u := urlencode r).
  transitivity (Ok (L "<div>" ++ [newline] ++ L "<span class=" ++ [quote] ++ L "position" ++ [quote] ++ L ">" ++ [newline] ++ L "<img src=" ++ [quote] ++ L "/image?" ++ ((escape u ++ [quote]) ++ L " />" ++ [newline]) ++ L "</span>" ++ [newline] ++ L "</div>" ++ [newline])); [vm_compute; reflexivity|].
  unfold picture_page, page_of, written_element, quoted. rewrite escape_app. change (escape (L "/image?")) with (L "/image?"). rewrite <- !app_assoc. reflexivity.
Qed.
Lemma position_page : forall rst g, position_name g ->
  html design_order wikipath now urlencode analysis rst (call (L "Position") (Some g)) = Ok (picture_page urlencode (plain_request g)).
Proof. intros rst g Hg. apply picture_shown; [exact (position_args g Hg)|exact (name_request g Hg)]. Qed.
Lemma break_page : forall rst args, good_args args -> html design_order wikipath now urlencode analysis rst (call (L "BR") args) = Ok (page_of (L "<br />" ++ [newline])).
Proof.
  intros rst args Ha. rewrite call_page; [|split; [discriminate|intros c I; cbn in I; repeat (destruct I as [<-|I]; [vm_compute; tauto|]); destruct I]|exact Ha]. vm_compute. reflexivity.
Qed.
Lemma time_page : forall rst args, good_args args -> html design_order wikipath now urlencode analysis rst (call (L "Timestamp") args) = Ok (page_of (written_element "strong" [] (now ++ [newline]))).
Proof.
  intros rst args Ha. rewrite call_page; [|split; [discriminate|intros c I; cbn in I; repeat (destruct I as [<-|I]; [vm_compute; tauto|]); destruct I]|exact Ha].
  transitivity (Ok (L "<div>" ++ [newline] ++ L "<strong>" ++ [newline] ++ now ++ [newline] ++ L "</strong>" ++ [newline] ++ L "</div>" ++ [newline])); [vm_compute; reflexivity|].
  unfold page_of, written_element. rewrite <- !app_assoc. reflexivity.
Qed.
Lemma macro_pages : forall rst,
  let page := html design_order wikipath now urlencode analysis rst in
  (forall name args, macro_name name -> ~ In name (map (fun n => L n) known) -> good_args args ->
     page (call name args) = Ok (error_page (L "No such macro " ++ quoted name ++ L " with argument " ++ quoted (match args with Some a => a | None => L "None" end)))) /\
  (forall name a, name = L "Position" \/ name = L "Analysis" -> macro_args a -> ~ names_position a ->
     page (call name (Some a)) = Ok (error_page (L "Bad args " ++ quoted a ++ L " for " ++ name ++ [newline]))) /\
  (forall g, position_name g ->
     page (call (L "Position") (Some g)) = Ok (picture_page urlencode (plain_request g))) /\
  (forall args, good_args args ->
     page (call (L "BR") args) = Ok (page_of (L "<br />" ++ [newline])) /\
     page (call (L "Timestamp") args) = Ok (page_of (written_element "strong" [] (now ++ [newline])))).
Proof.
  intros rst page. split; [|split; [|split]]; [exact (unknown_page rst)|exact (bad_page rst)|exact (position_page rst)|]. intros args Ha. split; [exact (break_page rst args Ha)|exact (time_page rst args Ha)].
Qed.
End Line.
